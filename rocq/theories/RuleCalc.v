(** When does a call succeed: a backward calculus for [succeeds m s]. *)
From Verif Require Export Bal Tactics.
Local Open Scope N_scope.

Definition succeeds {A} (m : M A) (s : state) : Prop := exists r s', m s = (Ok r, s').

Section calc.
Context {C : Config} {A B : Type}.
Implicit Types (s : state).

Lemma ok_run (m : M A) (k : A -> M B) s r s1 : m s = (Ok r, s1) -> succeeds (k r) s1 -> succeeds (bind m k) s.
Proof. unfold succeeds, bind. intros ->. done. Qed.
Lemma ok_assoc {D} (m : M A) (k : A -> M B) (h : B -> M D) s :
  succeeds (bind m (fun a => bind (k a) h)) s -> succeeds (bind (bind m k) h) s.
Proof. unfold succeeds, bind. destruct (m s) as [[a|e] s1]; done. Qed.
Lemma ok_gets (f : state -> A) (k : A -> M B) s : succeeds (k (f s)) s -> succeeds (bind (gets f) k) s.
Proof. done. Qed.
Lemma ok_ret (a : A) (k : A -> M B) s : succeeds (k a) s -> succeeds (bind (ret a) k) s.
Proof. done. Qed.
Lemma ok_unwrap (o : option A) x e (k : A -> M B) s : o = Some x -> succeeds (k x) s -> succeeds (bind (unwrap o e) k) s.
Proof. intros ->. done. Qed.
Lemma ok_of_res (o : res A) x (k : A -> M B) s : o = Ok x -> succeeds (k x) s -> succeeds (bind (of_res o) k) s.
Proof. intros ->. done. Qed.
Lemma ok_map_err e (m : M A) (k : A -> M B) s : succeeds (bind m k) s -> succeeds (bind (map_err e m) k) s.
Proof. unfold succeeds, bind, map_err. destruct (m s) as [[a|e'] s1]; [done|]. by intros (?&?&?). Qed.
End calc.

Section calc2.
Context {C : Config} {B : Type}.
Implicit Types (s : state) (k : unit -> M B).
Lemma ok_ensure b e k s : b = true -> succeeds (k tt) s -> succeeds (bind (ensure b e) k) s.
Proof. intros ->. done. Qed.
Lemma ok_modify f k s : succeeds (k tt) (f s) -> succeeds (bind (modify f) k) s.
Proof. done. Qed.
Lemma ok_attempt {A} (m : M A) k s : succeeds (k tt) (snd (m s)) -> succeeds (bind (attempt m) k) s.
Proof. done. Qed.
Lemma ok_when (b : bool) m k s : (if b then succeeds (bind m k) s else succeeds (k tt) s) -> succeeds (bind (when b m) k) s.
Proof. by destruct b. Qed.
Lemma ok_on_some {A} (o : option A) m k s :
  match o with Some a => succeeds (bind (m a) k) s | None => succeeds (k tt) s end -> succeeds (bind (on_some o m) k) s.
Proof. by destruct o. Qed.
Lemma ok_lift f b k s : f (s_bal s) = Ok b -> succeeds (k tt) (s <| s_bal := b |>) -> succeeds (bind (lift_bal f) k) s.
Proof. unfold succeeds, bind, lift_bal. intros ->. done. Qed.
Lemma ok_transfer f t a kp b k s : transfer_b f t a kp (s_bal s) = Ok b ->
  succeeds (k tt) (s <| s_bal := b |>) -> succeeds (bind (transfer f t a kp) k) s.
Proof. apply ok_lift. Qed.
Lemma ok_pay_fee w a b k s : pay_fee_b w a (s_bal s) = Ok b ->
  succeeds (k tt) (s <| s_bal := b |>) -> succeeds (bind (pay_fee w a) k) s.
Proof. apply ok_lift. Qed.
Lemma ok_claim_all l k s : succeeds (k tt) (s <| s_auc ::= fun x => x <| claims ::= claims_add l |> |>) ->
  succeeds (bind (claim_all l) k) s.
Proof. unfold succeeds, bind. rewrite claim_all_run. done. Qed.
(** An explicit end, so that the other lemmas apply to the last command too. *)
Lemma ok_end (m : M unit) s : succeeds (bind m ret) s -> succeeds m s.
Proof. unfold succeeds, bind. destruct (m s) as [[a|e] s1]; eauto. Qed.
Lemma ok_done {A} (a : A) s : succeeds (ret a) s.
Proof. by eexists _, _. Qed.

Lemma dispatch_rule o c s : (exists s', dispatch o c s = (Ok tt, s')) <-> wf_call c = true /\ succeeds (exec_call o c) s.
Proof.
  unfold dispatch, succeeds, transactional. split.
  - intros [s' H]. destruct (wf_call c); [|done]. destruct (exec_call o c s) as [[?|?] ?]; [eauto|done].
  - intros [-> (?&?&->)]. eauto.
Qed.
End calc2.

(** One step backwards. *)
Ltac okstep :=
  lazymatch goal with
  | |- succeeds (bind ?m ?k) ?s =>
      lazymatch m with
      | bind _ _ => apply ok_assoc; cbv beta
      | gets _ => apply ok_gets; cbv beta
      | get_nft _ => apply ok_gets; cbv beta
      | get_coll _ => apply ok_gets; cbv beta
      | get_mkt _ => apply ok_gets; cbv beta
      | get_sale _ => apply ok_gets; cbv beta
      | get_auction _ => apply ok_gets; cbv beta
      | get_contract _ => apply ok_gets; cbv beta
      | get_trans _ => apply ok_gets; cbv beta
      | get_tee _ => apply ok_gets; cbv beta
      | free_balance _ => apply ok_gets; cbv beta
      | ret _ => apply ok_ret; cbv beta
      | modify _ => apply ok_modify; cbv beta
      | mod_bal _ => apply ok_modify; cbv beta
      | mod_nft _ => apply ok_modify; cbv beta
      | mod_mkt _ => apply ok_modify; cbv beta
      | mod_auc _ => apply ok_modify; cbv beta
      | mod_rent _ => apply ok_modify; cbv beta
      | mod_trans _ => apply ok_modify; cbv beta
      | mod_tee _ => apply ok_modify; cbv beta
      | mod_brg _ => apply ok_modify; cbv beta
      | mod_srw _ => apply ok_modify; cbv beta
      | emit _ => apply ok_modify; cbv beta
      | set_nft _ _ => apply ok_modify; cbv beta
      | set_coll _ _ => apply ok_modify; cbv beta
      | set_mkt _ _ => apply ok_modify; cbv beta
      | set_auction _ _ => apply ok_modify; cbv beta
      | del_auction _ => apply ok_modify; cbv beta
      | set_contract _ _ => apply ok_modify; cbv beta
      | del_contract _ => apply ok_modify; cbv beta
      | del_offers _ => apply ok_modify; cbv beta
      | set_trans _ _ => apply ok_modify; cbv beta
      | del_trans _ => apply ok_modify; cbv beta
      | del_consents _ => apply ok_modify; cbv beta
      | add_claim _ _ => apply ok_modify; cbv beta
      | set_lock _ _ => apply ok_modify; cbv beta
      | remove_lock _ => apply ok_modify; cbv beta
      | claim_all _ => apply ok_claim_all; cbv beta
      | attempt _ => apply ok_attempt; cbv beta
      | map_err _ _ => apply ok_map_err
      | ensure _ _ => apply ok_ensure; [|cbv beta]
      | unwrap _ _ => eapply ok_unwrap; [|cbv beta]
      | of_res _ => eapply ok_of_res; [|cbv beta]
      | transfer _ _ _ _ => eapply ok_transfer; [|cbv beta]
      | pay_fee _ _ => eapply ok_pay_fee; [|cbv beta]
      | lift_bal _ => eapply ok_lift; [|cbv beta]
      | when _ _ => apply ok_when; cbv beta
      | on_some _ _ => apply ok_on_some; cbv beta
      | pay_for_nft _ _ _ _ _ => fail
      | take_rent_and_cancellation_fee _ _ => fail
      | start_contract _ _ _ => fail
      | check_fee_nft _ _ _ _ _ => fail
      | ?g => let f := okhead g in unfold f; cbv beta zeta
      end
  | |- succeeds (ret _) _ => apply ok_done
  | |- succeeds ret _ => apply ok_done
  | |- succeeds (match _ with _ => _ end) _ => fail
  | |- succeeds (exec_call _ _) _ => cbn [exec_call signed root]; apply ok_end
  | |- succeeds (?f tt) _ => first [is_var f; fail 1 | apply ok_end]
  | |- succeeds _ _ => apply ok_end
  end
with okhead g := lazymatch g with ?f _ => okhead f | _ => g end.

(** Boolean goals from propositional hypotheses. *)
Ltac bgo :=
  repeat first
    [ rewrite negb_true_iff | rewrite andb_true_iff | rewrite orb_true_iff
    | rewrite N.eqb_eq | rewrite N.eqb_neq | rewrite N.leb_le
    | rewrite N.ltb_lt | rewrite N.leb_gt | rewrite N.ltb_ge ];
  first [assumption | done | by symmetry | congruence | lia | by split_and! | idtac].
Ltac oside := first [eassumption | st_cbn; first [eassumption | solve [bgo]]].
Ltac okgo := repeat first [apply ok_done | okstep; [solve [oside]|] | okstep; []].
(** Up to the first optional part. *)
Ltac okto := repeat (lazymatch goal with |- succeeds (bind (on_some _ _) _) _ => fail | _ => first [okstep; [solve [oside]|] | okstep; []] end).
