(** Inversion of failing runs: which step of a computation failed, and why. *)
From Verif Require Export RuleMoney SpecReasons.
Local Open Scope N_scope.

Section inv.
Context {A B : Type} {C : Config}.
Implicit Types (s : state).

Lemma err_bind (m : M A) (k : A -> M B) s e s' : bind m k s = (Err e, s') ->
  m s = (Err e, s') \/ exists a s1, m s = (Ok a, s1) /\ k a s1 = (Err e, s').
Proof. unfold bind. destruct (m s) as [[a|e'] s1]; [eauto|]. intros [= <- <-]. auto. Qed.
Lemma err_unwrap (o : option A) e0 (k : A -> M B) s e s' : bind (unwrap o e0) k s = (Err e, s') ->
  (o = None /\ e = e0) \/ exists x, o = Some x /\ k x s = (Err e, s').
Proof. unfold bind, unwrap. destruct o; cbn; [eauto|]. intros [= <- <-]. auto. Qed.
Lemma err_of_res (o : res A) (k : A -> M B) s e s' : bind (of_res o) k s = (Err e, s') ->
  o = Err e \/ exists x, o = Ok x /\ k x s = (Err e, s').
Proof. unfold bind, of_res. destruct o; cbn; [eauto|]. intros [= <- <-]. auto. Qed.
Lemma err_map_err e0 (m : M A) (k : A -> M B) s e s' : bind (map_err e0 m) k s = (Err e, s') ->
  (e = e0 /\ exists e' s1, m s = (Err e', s1)) \/ exists a s1, m s = (Ok a, s1) /\ k a s1 = (Err e, s').
Proof. unfold bind, map_err. destruct (m s) as [[a|e'] s1]; [eauto|]. intros [= <- <-]. eauto. Qed.
End inv.

Section inv2.
Context {B : Type} {C : Config}.
Implicit Types (s : state) (k : unit -> M B).
Lemma err_ensure b e0 k s e s' : bind (ensure b e0) k s = (Err e, s') ->
  (b = false /\ e = e0) \/ (b = true /\ k tt s = (Err e, s')).
Proof. unfold bind, ensure. destruct b; cbn; [auto|]. intros [= <- <-]. auto. Qed.
Lemma err_lift f k s e s' : bind (lift_bal f) k s = (Err e, s') ->
  f (s_bal s) = Err e \/ exists b, f (s_bal s) = Ok b /\ k tt (s <| s_bal := b |>) = (Err e, s').
Proof. unfold bind, lift_bal. destruct (f (s_bal s)); [eauto|]. intros [= <- <-]. auto. Qed.
Lemma err_transfer f t a kp k s e s' : bind (transfer f t a kp) k s = (Err e, s') ->
  transfer_b f t a kp (s_bal s) = Err e \/
  exists b, transfer_b f t a kp (s_bal s) = Ok b /\ k tt (s <| s_bal := b |>) = (Err e, s').
Proof. apply err_lift. Qed.
Lemma err_pay_fee w a k s e s' : bind (pay_fee w a) k s = (Err e, s') ->
  pay_fee_b w a (s_bal s) = Err e \/
  exists b, pay_fee_b w a (s_bal s) = Ok b /\ k tt (s <| s_bal := b |>) = (Err e, s').
Proof. apply err_lift. Qed.
End inv2.

Lemma err_assoc {A B D} (m : M A) (k : A -> M B) (k' : B -> M D) s r : bind (bind m k) k' s = r -> bind m (fun x => bind (k x) k') s = r.
Proof. unfold bind. destruct (m s) as [[a|e] s1]; done. Qed.
(** An explicit end, so that the other lemmas apply to the last command too. *)
Lemma err_end (m : M unit) (s : state) e s' : m s = (Err e, s') -> bind m ret s = (Err e, s').
Proof. unfold bind. intros ->. done. Qed.
Lemma err_dispatch {C : Config} o c s e s' : dispatch o c s = (Err e, s') -> wf_call c = true ->
  s' = s /\ exists s1, exec_call o c s = (Err e, s1).
Proof.
  intros H Hw. split; [by eapply dispatch_err|]. unfold dispatch in H. rewrite Hw in H.
  destruct (transactional_cases (exec_call o c) s) as [(?&_&E)|(e'&s1&E1&E)]; rewrite E in H; [done|].
  injection H as <- _. eauto.
Qed.

(** Turn the refutation of a boolean test into a proposition. *)
Ltac bool_no E :=
  repeat first
    [ rewrite negb_false_iff in E | rewrite orb_false_iff in E
    | rewrite N.eqb_neq in E | rewrite N.eqb_eq in E | rewrite N.leb_gt in E
    | rewrite N.ltb_ge in E | rewrite N.leb_le in E | rewrite N.ltb_lt in E ];
  lazymatch type of E with
  | (match ?o with Some _ => true | None => false end) = false =>
      let O := fresh "O" in destruct o eqn:O; [discriminate E|clear E]
  | (match ?o with None => true | Some _ => false end) = false =>
      let O := fresh "O" in destruct o eqn:O; [clear E|discriminate E]
  | none ?o = false => let O := fresh "O" in destruct o eqn:O; [clear E|discriminate E]
  | _ => idtac
  end.

(** One step of inversion of [H : m s = (Err e, s')].  A failing step leaves a goal without [H]. *)
Ltac estep H :=
  lazymatch type of H with
  | bind ?m ?k ?s = ?r =>
      lazymatch m with
      | ensure _ _ =>
          apply err_ensure in H; let E := fresh "E" in
          destruct H as [[E ->]|[E H]]; [bool_no E|cbv beta in H; bool_in E]
      | unwrap _ _ =>
          apply err_unwrap in H; let x := fresh "x" in let E := fresh "U" in
          destruct H as [[E ->]|(x & E & H)]; [|cbv beta in H]
      | of_res _ =>
          apply err_of_res in H; let x := fresh "x" in let E := fresh "U" in
          destruct H as [E|(x & E & H)]; [|cbv beta in H]
      | transfer _ _ _ _ =>
          apply err_transfer in H; let b := fresh "b" in let E := fresh "T" in
          destruct H as [E|(b & E & H)]; [|cbv beta in H]
      | pay_fee _ _ =>
          apply err_pay_fee in H; let b := fresh "b" in let E := fresh "T" in
          destruct H as [E|(b & E & H)]; [|cbv beta in H]
      | lift_bal _ =>
          apply err_lift in H; let b := fresh "b" in let E := fresh "T" in
          destruct H as [E|(b & E & H)]; [|cbv beta in H]
      | map_err _ _ => fail
      | fail _ => injection H as <- <-
      | _ => mstep H
      end
  | (match ?x with _ => _ end) _ = _ => let E := fresh "X" in destruct x eqn:E
  | ret _ _ = _ => discriminate H
  | emit _ _ = _ => discriminate H
  | modify _ _ = _ => discriminate H
  | mod_nft _ _ = _ => discriminate H
  | set_nft _ _ _ = _ => discriminate H
  | fail _ _ = _ => injection H as <- <-
  | _ => apply err_end in H
  end.
Ltac einv H := repeat (estep H).

(** Name a line of the table. *)
Ltac because := eexists; split; [cbn; repeat (first [left; reflexivity|right])|].

Section money.
Context {C : Config}.
Lemma withdraw_err w x b e : withdraw_b w x true b = Err e ->
  e = Balances_InsufficientBalance \/ e = Balances_LiquidityRestrictions \/ e = Balances_KeepAlive.
Proof.
  unfold withdraw_b. destruct (_ =? _); [done|]. destruct (_ <? _); [intros [= <-]; auto|]. cbv zeta.
  destruct (_ && _ && _); [intros [= <-]; auto|]. destruct (_ <? _); [intros [= <-]; auto|].
  destruct (_ && _); [intros [= <-]; auto|done].
Qed.
Lemma fee_poor s w x e : 0 < ed -> binv s -> pay_fee_b w x (s_bal s) = Err e ->
  (e = Balances_InsufficientBalance \/ e = Balances_LiquidityRestrictions \/ e = Balances_KeepAlive) /\ ~ affords s w x.
Proof.
  intros Hed Hb H. split.
  - unfold pay_fee_b in H. destruct (withdraw_b w x true (s_bal s)) eqn:E; [done|]. injection H as <-. by eapply withdraw_err.
  - intros Ha. destruct (affords_fee s w x Hed Hb Ha). congruence.
Qed.
Lemma justified_app_l e t1 t2 : justified e t1 -> justified e (t1 ++ t2).
Proof. intros (P&H&HP). exists P. split; [|done]. apply in_or_app. auto. Qed.
Lemma justified_app_r e t1 t2 : justified e t2 -> justified e (t1 ++ t2).
Proof. intros (P&H&HP). exists P. split; [|done]. apply in_or_app. auto. Qed.
Lemma justified_cons e x t : justified e t -> justified e (x :: t).
Proof. intros (P&H&HP). exists P. split; [by right|done]. Qed.
Lemma poor_intro e (P : Prop) : e = Balances_InsufficientBalance \/ e = Balances_LiquidityRestrictions \/ e = Balances_KeepAlive ->
  P -> justified e (poor P).
Proof. intros [->|[->| ->]] HP; exists P; cbn; auto. Qed.
End money.

Section chains.
Context {C : Config}.
Definition poor_err (e : error) : Prop :=
  e = Balances_InsufficientBalance \/ e = Balances_LiquidityRestrictions \/ e = Balances_KeepAlive.
Lemma transfer_err w t x b e : bsum b 0 -> transfer_b w t x true b = Err e ->
  x <> 0 /\ w <> t /\
  ((poor_err e /\ free b w < x + N.max ed (frozen b w)) \/ (e = Balances_ExistentialDeposit /\ free b t + x < ed)).
Proof.
  intros Hb. unfold transfer_b, poor_err. destruct (x =? 0) eqn:E0; [done|]. apply N.eqb_neq in E0. cbn [orb].
  destruct (w =? t) eqn:E1; [done|]. apply N.eqb_neq in E1. pose proof (bsum_two b 0 w t Hb E1) as H2. destruct Hb as (_&_&H3).
  unfold untouchable. cbn [orb].
  destruct (free b w <? x) eqn:F1; [intros [= <-]; apply N.ltb_lt in F1; split_and!; [done|done|left; split; [auto|lia]]|].
  destruct (free b w <? x + frozen b w) eqn:F2; [intros [= <-]; apply N.ltb_lt in F2; split_and!; [done|done|left; split; [auto|lia]]|].
  destruct (free b w <? x + N.max _ _) eqn:F3; [intros [= <-]; apply N.ltb_lt in F3; split_and!; [done|done|left; split; [auto|lia]]|].
  destruct (free b t + x <? ed) eqn:F4; [intros [= <-]; apply N.ltb_lt in F4; split_and!; [done|done|right; split; [auto|lia]]|].
  destruct (u128_max <? _) eqn:F5; [|done]. apply N.ltb_lt in F5. apply N.ltb_ge in F1. lia.
Qed.
(** Successive transfers, one of which fails. *)
Fixpoint chain_err (w : N) (l : list (N * N)) (e : error) b : Prop :=
  match l with
  | [] => False
  | (a, x) :: l' => transfer_b w a x true b = Err e \/ exists b', transfer_b w a x true b = Ok b' /\ chain_err w l' e b'
  end.
Lemma chain_err_rule w l e : forall b, bsum b 0 -> chain_err w l e b ->
  (poor_err e /\ ~ affords_b b w (cost w l)) \/
  (e = Balances_ExistentialDeposit /\
   exists l1 a x l2, l = l1 ++ (a, x) :: l2 /\ x <> 0 /\ a <> w /\ free b a + received a l1 + x < ed).
Proof.
  induction l as [|[a x] l IH]; intros b Hb; [done|]. cbn [chain_err]. intros [H|(b'&H&Hc)].
  - apply transfer_err in H as (Hx&Hw&[[He Hf]|[He Hf]]); [..|done].
    + left. split; [done|]. rewrite cost_cons, decide_False by done. unfold affords_b. lia.
    + right. split; [done|]. exists [], a, x, l. split_and!; try done. cbn. lia.
  - pose proof (transfer_bsum _ _ _ _ _ _ _ Hb H) as Hb'. pose proof (transfer_free _ _ _ _ _ _ H (or_introl eq_refl)) as Hf.
    apply IH in Hc as [[He Hc]|(He&l1&t&y&l2&El&Hy&Ht&Hlt)]; [..|done].
    + left. split; [done|]. intros Ha. apply Hc. unfold affords_b in *. rewrite (transfer_frozen _ _ _ _ _ _ w H).
      pose proof (Hf w) as Hw. unfold at_acc in Hw. rewrite decide_True in Hw by done. rewrite cost_cons in Ha.
      destruct (decide (a = w)) as [->|Hne]; [rewrite decide_True in Hw by done; lia|]. rewrite decide_False in Hw by done. lia.
    + right. split; [done|]. exists ((a, x) :: l1), t, y, l2. subst l. split_and!; try done.
      rewrite received_cons. pose proof (Hf t) as Hft. unfold at_acc in Hft. rewrite (decide_False (P := t = w)) in Hft by done.
      destruct (decide (a = t)) as [->|]; [rewrite decide_True in Hft by done|rewrite decide_False in Hft by done]; lia.
Qed.
Lemma unpayable_intro s w (due : list (N * N) -> Prop) l e : binv s -> chain_err w l e (s_bal s) -> due l -> justified e (unpayable s w due).
Proof.
  intros Hb Hc Hl. apply chain_err_rule in Hc as [[He Ha]|(He&Hd)]; [..|done].
  - apply justified_app_l, poor_intro; [done|]. eauto.
  - apply justified_app_r. subst e. eexists. split; [by left|]. exists l. split; [done|]. done.
Qed.
Lemma dust_no s w l : dust s w l -> ~ can_pay s w l.
Proof. intros (l1&a&x&l2&El&Hx&Hw&Hlt) [_ H]. specialize (H l1 a x l2 El Hx Hw). lia. Qed.

Lemma death_err p t x b e : bsum b 0 -> frozen b p = 0 -> transfer_b p t x false b = Err e ->
  (e = Balances_InsufficientBalance /\ free b p < x) \/ (e = Balances_ExistentialDeposit /\ free b t + x < ed).
Proof.
  intros Hb Hf. unfold transfer_b. destruct (x =? 0) eqn:E0; [done|]. apply N.eqb_neq in E0. cbn [orb].
  destruct (p =? t) eqn:E1; [done|]. apply N.eqb_neq in E1. pose proof (bsum_two b 0 p t Hb E1) as H2. destruct Hb as (_&_&H3).
  unfold untouchable, has_lock. rewrite Hf. cbn [orb N.ltb N.compare]. replace (N.max 0 0) with 0 by lia. rewrite N.add_0_r.
  destruct (free b p <? x) eqn:F1; [intros [= <-]; apply N.ltb_lt in F1; auto|].
  destruct (free b t + x <? ed) eqn:F4; [intros [= <-]; apply N.ltb_lt in F4; auto|].
  destruct (u128_max <? _) eqn:F5; [|done]. apply N.ltb_lt in F5. apply N.ltb_ge in F1. lia.
Qed.
Fixpoint pchain_err (p : N) (l : list (N * N)) (e : error) b : Prop :=
  match l with
  | [] => False
  | (a, x) :: l' => transfer_b p a x false b = Err e \/ exists b', transfer_b p a x false b = Ok b' /\ pchain_err p l' e b'
  end.
Lemma pchain_err_rule p l e : forall b, bsum b 0 -> frozen b p = 0 -> pchain_err p l e b ->
  (e = Balances_InsufficientBalance \/ e = Balances_ExistentialDeposit) /\ ~ pchain p l b.
Proof.
  induction l as [|[a x] l IH]; intros b Hb Hf; [done|]. cbn [pchain_err pchain]. intros [H|(b'&H&Hc)].
  - split; [apply death_err in H as [[-> _]|[-> _]]; auto|]. intros (b'&H'&_). congruence.
  - apply IH in Hc as [He Hc]; [|by eapply transfer_bsum|by rewrite (transfer_frozen _ _ _ _ _ _ p H)].
    split; [done|]. intros (b2&H2&Hc2). apply Hc. congruence.
Qed.
Lemma pot_short_intro s p (due : list (N * N) -> Prop) l e : 0 < ed -> binv s -> frozen (s_bal s) p = 0 ->
  pchain_err p l e (s_bal s) -> due l -> justified e (pot_short s p due).
Proof.
  intros Hed Hb Hf Hc Hl. apply pchain_err_rule in Hc as [He Hn]; [..|done|done].
  assert (~ pot_can_pay s p l) by (intros ?; apply Hn; by apply pchain_can_pay).
  destruct He as [-> | ->]; eexists; (split; [cbn; auto|]); eauto.
Qed.
End chains.

Section table.
Context {C : Config}.
Lemma justified_app e t1 t2 : justified e (t1 ++ t2) -> justified e t1 \/ justified e t2.
Proof. intros (P&H&HP). apply in_app_or in H as [H|H]; [left|right]; by exists P. Qed.
Lemma justified_inv e x t : justified e (x :: t) -> (e = fst x /\ snd x) \/ justified e t.
Proof. intros (P&[H|H]&HP); [left; by subst x|right; by exists P]. Qed.
Lemma unpayable_spec s w due e : justified e (unpayable s w due) -> exists l, due l /\ ~ can_pay s w l.
Proof.
  intros (Q&H&HQ). cbn in H. repeat (destruct H as [H|H]; [injection H as _ <-; destruct HQ as (l&Hl&Hn)|]); [..|done].
  1-3: exists l; split; [done|]; intros [? _]; done.
  exists l. split; [done|]. by apply dust_no.
Qed.
Lemma pot_short_spec s p due e : justified e (pot_short s p due) -> exists l, due l /\ ~ pot_can_pay s p l.
Proof. intros (Q&H&HQ). cbn in H. repeat (destruct H as [H|H]; [injection H as _ <-; done|]). done. Qed.
Lemma poor_spec e P : justified e (poor P) -> P.
Proof. intros (Q&H&HQ). cbn in H. repeat (destruct H as [H|H]; [injection H as _ <-; done|]). done. Qed.
End table.

(** Close a goal whose line of the table follows from the step that failed. *)
Ltac say :=
  because; solve [ done | lia | congruence | eexists; split; [eassumption|first [done|lia|congruence]] | eexists; split; [eassumption|by eexists] ].
(** Every line of the table in turn. *)
Ltac each_line H :=
  cbn in H; repeat (destruct H as [H|H]; [injection H as <- <-|]); try destruct H.

(** Open a fact of the state, and find the contradiction. *)
Ltac open_one :=
  match goal with
  | H : exists _, _ |- _ => destruct H
  | H : _ /\ _ |- _ => destruct H
  | H : with_nft _ _ _ _ |- _ => unfold with_nft in H
  | H : with_coll _ _ _ _ |- _ => unfold with_coll in H
  | H : nft_is _ _ _ |- _ => unfold nft_is in H
  | H : coll_is _ _ _ |- _ => unfold coll_is in H
  | H : has _ _ _ |- _ => unfold has in H
  | H : hasnt _ _ _ |- _ => unfold hasnt in H
  | H : runs_mkt _ _ _ |- _ => unfold runs_mkt in H
  | H : mkt_is _ _ _ |- _ => unfold mkt_is in H
  | H : sale_is _ _ _ |- _ => unfold sale_is in H
  | H : auction_is _ _ _ |- _ => unfold auction_is in H
  | H : not_admitted _ _ _ _ |- _ => unfold not_admitted in H
  | H : not_covered _ _ _ |- _ => unfold not_covered in H
  | H : unengaged _ |- _ => unfold unengaged in H
  | H : lendable _ |- _ => unfold lendable in H
  | H : is_Some _ |- _ => destruct H
  | H : ?a = Some ?x, H' : ?a = Some ?y |- _ =>
      assert_fails (constr_eq x y); let E := fresh in assert (x = y) as E by congruence; try rewrite E in *; clear H'
  end.
Ltac clash := repeat open_one; solve [ done | congruence | lia | tauto | naive_solver lia ].
