(** The supply, and block hooks that do not panic. *)
From Verif Require Export BridgeFacts2.
Local Open Scope N_scope.

Section facts.
Context {C : Config}.
Definition iss_le (n : N) (s : state) : Prop := issuance (s_bal s) <= n.
Lemma set_free_iss a v b : issuance (set_free a v b) <= issuance b.
Proof. unfold set_free. destruct (_ <? _); cbn; lia. Qed.
Lemma transfer_iss from to amt keep b b' : transfer_b from to amt keep b = Ok b' -> issuance b' <= issuance b.
Proof.
  intros H. unfold transfer_b in H. destruct (_ || _); [by injection H as <-|].
  do 5 (destruct (_ <? _); [done|]). injection H as <-. etrans; apply set_free_iss.
Qed.
Lemma withdraw_iss who amt keep b b' : withdraw_b who amt keep b = Ok b' -> issuance b' <= issuance b.
Proof.
  intros H. unfold withdraw_b in H. destruct (_ =? _); [by injection H as <-|]. destruct (_ <? _); [done|]. cbv zeta in H.
  destruct (_ && _ && _); [done|]. destruct (_ <? frozen _ _); [done|]. destruct (has_lock _ _ && _); [done|]. injection H as <-. apply set_free_iss.
Qed.
Lemma resolve_iss who amt b : issuance (resolve_creating_b who amt b) <= issuance b.
Proof.
  unfold resolve_creating_b, deposit_creating_b. destruct (_ =? _); [cbn; lia|]. destruct (_ && _); [cbn; lia|].
  destruct (_ <? _); [cbn; lia|]. pose proof (set_free_iss who (free b who + amt) b). unfold burn_b. cbn. lia.
Qed.
Lemma collect_iss amt b : issuance (collect_b amt b) <= issuance b.
Proof. unfold collect_b. destruct fees_collector; [apply resolve_iss|cbn; lia]. Qed.
Lemma iss_lift n f : (forall b b', f b = Ok b' -> issuance b' <= issuance b) -> pres (iss_le n) (lift_bal f).
Proof. intros Hf. apply pres_lift_bal. unfold iss_le. intros s b Hb H. apply Hf in H. cbn. lia. Qed.
Lemma iss_transfer n from to amt keep : pres (iss_le n) (transfer from to amt keep).
Proof. apply iss_lift. intros b b'. apply transfer_iss. Qed.
Lemma iss_pay_fee n who amt : pres (iss_le n) (pay_fee who amt).
Proof.
  apply iss_lift. intros b b'. destruct (withdraw_b _ _ _ _) eqn:E; [|done]. intros [= <-]. etrans; [apply collect_iss|by eapply withdraw_iss].
Qed.
Lemma iss_wburn n who amt keep : pres (iss_le n) (lift_bal (fun b => match withdraw_b who amt keep b with
   | Ok b1 => Ok (burn_b amt b1) | Err e => Err e end)).
Proof.
  apply iss_lift. intros b b'. destruct (withdraw_b _ _ _ _) eqn:E; [|done]. intros [= <-]. apply withdraw_iss in E. cbn. lia.
Qed.
Lemma iss_mod_bal n f : (forall b, issuance (f b) <= issuance b) -> pres (iss_le n) (mod_bal f).
Proof. intros H. apply pres_modify. unfold iss_le. intros s Hs. specialize (H (s_bal s)). cbn. lia. Qed.
Lemma set_lock_iss who amt b : issuance (set_lock_b who amt b) <= issuance b.
Proof. destruct (set_lock_free who amt b) as [_ ->]. lia. Qed.
End facts.

Ltac iss_step :=
  lazymatch goal with
  | |- pres (iss_le _) (transfer _ _ _ _) => apply iss_transfer
  | |- pres (iss_le _) (pay_fee _ _) => apply iss_pay_fee
  | |- pres (iss_le _) (set_lock _ _) => apply iss_mod_bal; intros ?; apply set_lock_iss
  | |- pres (iss_le _) (remove_lock _) => apply iss_mod_bal; intros ?; apply N.le_refl
  | |- pres (iss_le _) (mod_bal (burn_b _)) => apply iss_mod_bal; intros ?; cbn; lia
  | |- pres (iss_le _) (mod_bal (resolve_creating_b _ _)) => apply iss_mod_bal; intros ?; apply resolve_iss
  | |- pres (iss_le _) (mod_bal (fun b => let (_, _) := issue_b _ _ in _)) => fail
  | |- pres (iss_le _) (lift_bal (fun x => match withdraw_b _ _ _ _ with Ok _ => Ok (burn_b _ _) | Err _ => _ end)) => apply iss_wburn
  | |- pres (iss_le _) (modify _) => apply pres_modify; intros ? ?; unfold iss_le in *; st_cbn; assumption
  | |- _ => pres_step
  end.

Section facts2.
Context {C : Config}.
Lemma iss_call n o c : is_mandate c = false -> (forall ch no r m, c <> C_vote_for_proposal ch no r m) -> pres (iss_le n) (exec_call o c).
Proof.
  intros Hm Hv. destruct c; try discriminate Hm; try (by destruct (Hv _ _ _ _ eq_refl)); clear Hm Hv; cbn [exec_call]; unfold signed, root, external.
  all: repeat iss_step.
Qed.
Lemma iss_hook n h : pres (iss_le n) (run_hook h).
Proof.
  destruct h; cbn [run_hook].
  - apply pres_auction_hook; [intros id; repeat iss_step|done].
  - apply pres_rent_hook; [intros id; repeat iss_step|intros e; repeat iss_step|intros id now; repeat iss_step|done].
  - apply pres_trans_hook; [intros id; repeat iss_step|intros e; repeat iss_step|done].
  - repeat iss_step.
Qed.
Lemma fact_block_supply s : issuance (s_bal (next_block s)) <= issuance (s_bal s).
Proof.
  unfold next_block, run_hooks. assert (H : forall l t, iss_le (issuance (s_bal s)) t -> iss_le (issuance (s_bal s)) (fold_left (fun s h => snd (run_hook h s)) l t)).
  { induction l as [|h l IH]; intros t Ht; [done|]. cbn [fold_left]. apply IH. by apply iss_hook. }
  apply H. unfold iss_le. cbn. lia.
Qed.
Lemma fact_supply s : reachable s ->
  issuance (s_bal s) = all_balances s /\ forall a, free (s_bal s) a <> 0 -> ed <= free (s_bal s) a.
Proof.
  intros Hs. pose proof (reachable_binv s Hs) as Hb. unfold binv in Hb. split.
  - destruct Hb as (_&E&_). rewrite E, N.add_0_r. done.
  - intros a Ha. by destruct (bsum_ed _ _ a Hb).
Qed.
Lemma fact_only_votes s o cc : reachable s -> issuance (s_bal s) < issuance (s_bal (step s (Extrinsic o cc))) ->
  exists w c n r m, o = Signed w /\ cc = C_vote_for_proposal c n r m /\
    ~ approved s c n r m /\ approved (step s (Extrinsic o cc)) c n r m /\ issuance (s_bal (step s (Extrinsic o cc))) <= issuance (s_bal s) + m.
Proof.
  intros Hs Hlt. destruct (step_runs s (Extrinsic o cc)) as [(o'&c'&s1&Hr&Hm&He&l&Hl)|[[l Hl]|[?|(e&s'&?&_)]]]; [|rewrite Hl in Hlt; cbn in Hlt; lia|done..].
  assert ((exists c n r m, c' = C_vote_for_proposal c n r m) \/ forall c n r m, c' <> C_vote_for_proposal c n r m) as [(c&n&r&m&->)|Hno].
  { destruct c'; try (by right); left; eauto. }
  2: { exfalso. pose proof (iss_call (issuance (s_bal s)) o' c' Hm Hno s (N.le_refl _)) as H. rewrite He in H. unfold iss_le in H. cbn in H. rewrite Hl in Hlt. cbn in Hlt. lia. }
  cbn [exec_call] in He. destruct o' as [|w|]; try done. apply runs_signed in Hr as Ea. injection Ea as -> ->.
  exists w, c, n, r, m. split; [done|]. split; [done|].
  destruct (dispatch_cases (Signed w) (C_vote_for_proposal c n r m) s) as [(s'&Hw&He'&Hd)|[e Hd]].
  2: { exfalso. cbn [step] in Hlt. rewrite Hd in Hlt. cbn in Hlt. lia. }
  assert (Es : step s (Extrinsic (Signed w) (C_vote_for_proposal c n r m)) = s') by (cbn [step]; by rewrite Hd). rewrite Es in *. clear Es Hl.
  destruct (fact_mint_exact s w c n r m s' Hs Hd) as (H1&H2&H3). split; [done|].
  assert (Hap : approved s' c n r m).
  { pose proof (vote_ok _ _ _ _ _ _ _ (vote_dispatch _ _ _ _ _ _ _ Hd)) as (_&_&q&_&_&Eb&_&Ebal).
    exists q. split; [unfold proposed; rewrite Eb; cbn; by rewrite lookup_insert|]. destruct (p_status q); [|done]. rewrite Ebal in Hlt. lia. }
  split; [done|]. destruct (H3 Hap) as (_&Hle&_&Hsum). lia.
Qed.
End facts2.

(** *** C71 *)
Section panic.
Context {C : Config}.
(** [m] never panics; [m] never fails. *)
Definition npan {A} (m : M A) : Prop := forall s, fst (m s) <> Err Panic.
Definition total {A} (m : M A) : Prop := forall s, exists a, fst (m s) = Ok a.
Lemma npan_bind {A B} (m : M A) (f : A -> M B) : npan m -> (forall a, npan (f a)) -> npan (bind m f).
Proof. intros Hm Hf s. unfold bind. specialize (Hm s). destruct (m s) as [[a|e] s1]; cbn in *; [apply Hf|congruence]. Qed.
Lemma npan_of {A} (m : M A) : total m -> npan m.
Proof. intros H s. destruct (H s) as [a ->]. done. Qed.
Lemma total_bind {A B} (m : M A) (f : A -> M B) : total m -> (forall a, total (f a)) -> total (bind m f).
Proof. intros Hm Hf s. unfold bind. destruct (Hm s) as [a Ha]. destruct (m s) as [[a'|e] s1]; cbn in *; [apply Hf|done]. Qed.
Lemma total_ret {A} (a : A) : total (ret a).
Proof. intros s. by exists a. Qed.
Lemma total_gets {A} (f : state -> A) : total (gets f).
Proof. intros s. by eexists. Qed.
Lemma total_modify f : total (modify f).
Proof. intros s. by eexists. Qed.
Lemma total_attempt {A} (m : M A) : total (attempt m).
Proof. intros s. by eexists. Qed.
Lemma total_catch {A} (m : M A) : total (catch m).
Proof. intros s. unfold catch. destruct (m s). by eexists. Qed.
Lemma total_when b m : total m -> total (when b m).
Proof. intros H. destruct b; [done|apply total_ret]. Qed.
Lemma total_on_some {A} (o : option A) f : (forall a, total (f a)) -> total (on_some o f).
Proof. intros H. destruct o; [apply H|apply total_ret]. Qed.
Lemma total_for_each {A} (f : A -> M unit) l : (forall a, total (f a)) -> total (for_each l f).
Proof. intros H. induction l as [|a l IH]; [apply total_ret|]. cbn. apply total_bind; [apply H|done]. Qed.

Lemma npan_unwrap {A} (o : option A) e : e <> Panic -> npan (unwrap o e).
Proof. intros He s. destruct o; cbn; congruence. Qed.
Lemma npan_ensure b e : e <> Panic -> npan (ensure b e).
Proof. intros He s. destruct b; cbn; congruence. Qed.
Lemma npan_when b m : npan m -> npan (when b m).
Proof. intros H. destruct b; [done|by apply npan_of, total_ret]. Qed.
Lemma npan_on_some {A} (o : option A) f : (forall a, npan (f a)) -> npan (on_some o f).
Proof. intros H. destruct o; [apply H|apply npan_of, total_ret]. Qed.
Lemma npan_transfer from to amt keep : npan (transfer from to amt keep).
Proof.
  intros s. unfold transfer, lift_bal, transfer_b. destruct (_ || _); [done|]. do 5 (destruct (_ <? _); [done|]). done.
Qed.
Lemma npan_map_err {A} e (m : M A) : e <> Panic -> npan (map_err e m).
Proof. intros He s. unfold map_err. destruct (m s) as [[a|e'] s1]; cbn; congruence. Qed.
End panic.

Ltac tot_step :=
  lazymatch goal with
  | |- total (bind _ _) => apply total_bind; [|intros ?]
  | |- total (ret _) => apply total_ret
  | |- total (gets _) => apply total_gets
  | |- total (modify _) => apply total_modify
  | |- total (attempt _) => apply total_attempt
  | |- total (catch _) => apply total_catch
  | |- total (when _ _) => apply total_when
  | |- total (on_some _ _) => apply total_on_some; intros ?
  | |- total (for_each _ _) => apply total_for_each; intros ?
  | |- total (match ?x with _ => _ end) => destruct x
  | |- total (let _ := _ in _) => cbv zeta
  | |- total ?g => let f := head_of g in unfold f; cbv beta zeta
  end.
Ltac pan_step :=
  lazymatch goal with
  | |- npan (bind _ _) => apply npan_bind; [|intros ?]
  | |- npan (ret _) => apply npan_of, total_ret
  | |- npan (gets _) => apply npan_of, total_gets
  | |- npan (modify _) => apply npan_of, total_modify
  | |- npan (attempt _) => apply npan_of, total_attempt
  | |- npan (catch _) => apply npan_of, total_catch
  | |- npan (unwrap _ _) => apply npan_unwrap; discriminate
  | |- npan (ensure _ _) => apply npan_ensure; discriminate
  | |- npan (map_err _ _) => apply npan_map_err; discriminate
  | |- npan (when _ _) => apply npan_when
  | |- npan (on_some _ _) => apply npan_on_some; intros ?
  | |- npan (transfer _ _ _ _) => apply npan_transfer
  | |- npan (match ?x with _ => _ end) => destruct x
  | |- npan (let _ := _ in _) => cbv zeta
  | |- npan ?g => let f := head_of g in unfold f; cbv beta zeta
  end.

Section panic2.
Context {C : Config}.
Lemma settle_total id : total (settle_one id).
Proof. repeat tot_step. Qed.
Lemma auction_total : total auction_on_initialize.
Proof.
  unfold auction_on_initialize. do 2 (apply total_bind; [apply total_gets|intros ?]). apply total_bind; [|intros ?; repeat tot_step].
  generalize 0 as k. generalize a0 at 2 as q. induction (length a0) as [|f IH]; intros q k; [apply total_ret|]. cbn [auction_loop].
  destruct (q_pop a q) as [[id q']|]; [|apply total_ret]. apply total_bind; [apply settle_total|]. intros d. destruct (_ && _); [apply total_ret|apply IH].
Qed.
Lemma finish_total ev f now : forall q k, total (finish_loop ev f now q k).
Proof.
  induction f as [|f IH]; intros q k; [apply total_ret|]. cbn [finish_loop].
  destruct (q_pop now q) as [[id q']|]; [|apply total_ret]. do 2 (apply total_bind; [repeat tot_step|intros _]). destruct (_ <=? _); [apply total_ret|apply IH].
Qed.
Lemma rent_total : total rent_on_initialize.
Proof.
  unfold rent_on_initialize. do 2 (apply total_bind; [apply total_gets|intros ?]). apply total_bind; [apply finish_total|intros r1].
  apply total_bind; [|intros r2; apply total_bind; [apply finish_total|intros r3; repeat tot_step]].
  generalize (snd r1) as k. generalize (q_sub a0) as q. induction (S (N.to_nat rent_actions)) as [|f IH]; intros q k; [apply total_ret|]. cbn [subscription_loop].
  destruct (q_pop a q) as [[id q']|]; [|apply total_ret]. apply total_bind; [repeat tot_step|]. intros d. apply total_bind; [repeat tot_step|]. intros q''.
  destruct (_ <=? _); [apply total_ret|apply IH].
Qed.
Lemma trans_total : total trans_on_initialize.
Proof.
  unfold trans_on_initialize. do 2 (apply total_bind; [apply total_gets|intros ?]). apply total_bind; [|intros ?; repeat tot_step].
  generalize 0 as k. generalize a0 at 2 as q. induction (length a0) as [|f IH]; intros q k; [apply total_ret|]. cbn [trans_loop].
  destruct (q_pop a q) as [[id q']|]; [|apply total_ret]. apply total_bind; [apply total_catch|]. intros d. apply total_bind; [repeat tot_step|]. intros k'.
  destruct (_ <=? _); [apply total_ret|apply IH].
Qed.
Lemma fact_hooks_ok h s : fst (run_hook h s) = Ok tt.
Proof.
  assert (H : total (run_hook h)).
  { destruct h; cbn [run_hook]; [apply auction_total|apply rent_total|apply trans_total|repeat tot_step]. }
  by destruct (H s) as [[] ?].
Qed.
Lemma fact_no_panic_inside s :
  (forall id who paid d a, fst (pay_for_nft id who paid d a s) <> Err Panic) /\ (forall id, fst (handle_finished id s) <> Err Panic) /\
  (forall from to amt keep, fst (transfer from to amt keep s) <> Err Panic) /\ (forall id, fst (transmit_nft id s) <> Err Panic).
Proof.
  split_and!; intros.
  - assert (H : npan (pay_for_nft id who paid d a)) by (repeat pan_step). apply H.
  - assert (H : npan (handle_finished id)) by (repeat pan_step). apply H.
  - apply npan_transfer.
  - assert (H : npan (transmit_nft id)) by (repeat pan_step). apply H.
Qed.
End panic2.
