(** The calls that move no tokens, and the locks. *)
From Verif Require Import SpecEffects TeeInv2 TeeFacts4.
Local Open Scope N_scope.

(** The balances are [b] up to the locks of operators. *)
Definition bl (b : balances) (s : state) : Prop := s_bal s = b.
Ltac bl_step :=
  lazymatch goal with
  | |- pres (bl _) (modify _) => apply pres_modify; intros ? ?; unfold bl in *; st_cbn; assumption
  | |- _ => pres_step
  end.
Section balances.
Context {C : Config}.
(** The calls that change the lock of an operator. *)
Definition locks_tokens (c : call) : Prop :=
  match c with
  | C_register_enclave _ _ | C_unregister_enclave | C_withdraw_unbonded | C_bond_extra | C_refund_excess | C_remove_registration _ => True
  | _ => False
  end.
Lemma bl_call b o c : ~ moves_tokens c -> ~ locks_tokens c -> pres (bl b) (exec_call o c).
Proof.
  intros Hm Hl. destruct c; try (by destruct Hm); try (by destruct Hl); clear Hm Hl; cbn [exec_call]; unfold signed, root, external.
  all: repeat bl_step.
Qed.
Lemma unmoved o c s s' : ~ moves_tokens c -> ~ locks_tokens c -> exec_call o c s = (Ok tt, s') -> s_bal s' = s_bal s.
Proof. intros Hm Hl H. pose proof (bl_call (s_bal s) o c Hm Hl s eq_refl) as P. rewrite H in P. exact P. Qed.

Lemma set_lock_same who amt b : set_lock_b who amt b = b <| tee_lock := tee_lock (set_lock_b who amt b) |>.
Proof. unfold set_lock_b. by destruct b, (amt =? 0), zero_lock_clears. Qed.
Lemma set_lock_at s w v b : b = set_lock_b w (staking_amount (s_tee s)) (s_bal s) ->
  tee_lock b !! v = if decide (v = w) then set_to (staking_amount (s_tee s)) (locked s v) else locked s v.
Proof.
  intros ->. rewrite set_lock_lookup. unfold set_to, locked. destruct (decide (w = v)) as [->|].
  - rewrite decide_True by done. destruct (decide _) as [->|Hz]; [done|]. by rewrite (proj2 (N.eqb_neq _ _) Hz).
  - by rewrite decide_False by done.
Qed.
Lemma remove_lock_at s w v b : b = remove_lock_b w (s_bal s) -> tee_lock b !! v = if decide (v = w) then None else locked s v.
Proof.
  intros ->. rewrite remove_lock_lookup. destruct (decide (w = v)) as [->|]; [by rewrite decide_True|by rewrite decide_False].
Qed.
(** The balances after a call of pallet tee other than [C_claim_rewards]. *)
Lemma locks_exact o c s s' : ~ moves_tokens c -> exec_call o c s = (Ok tt, s') ->
  s_bal s' = s_bal s <| tee_lock := tee_lock (s_bal s') |> /\
  (forall w v, o = Signed w \/ o = Root -> lock_after s w c v (locked s' v)).
Proof.
  intros Hm H.
  assert (locks_tokens c \/ ~ locks_tokens c) as [Hl|Hl] by (destruct c; cbn; auto).
  2: { pose proof (unmoved _ _ _ _ Hm Hl H) as E. rewrite E. split; [by destruct (s_bal s)|]. intros w v _. unfold locked. rewrite E.
       destruct c; cbn [lock_after]; try done; destruct (Hl I). }
  destruct c; try done; clear Hm Hl; cbn [exec_call] in H; unfold signed, root in H; destruct o as [|x|]; try done; cbn [lock_after]; unfold locked.
  - unfold register_enclave, ensure_can_withdraw in H. minv H. subst s'. st_cbn. split; [apply set_lock_same|]. intros w v [[= <-]|]; [|done]. by apply set_lock_at.
  - unfold unregister_enclave in H. do 2 mstep H. destruct (encs (s_tee s) !! x) as [e|] eqn:Ee.
    + assert (Ha : assigned s x) by (exists (e_addr e), e; done). minv H. subst s'. st_cbn. split; [by destruct (s_bal s)|]. intros w v [[= <-]|]; [|done]. right. auto.
    + assert (Ha : ~ assigned s x) by (intros (a&e&He&_); congruence). minv H. subst s'. st_cbn. split; [done|]. intros w v [[= <-]|]; [|done].
      pose proof (remove_lock_at s x v _ eq_refl) as E. destruct (decide (v = x)) as [->|]; [left; auto|right; auto].
  - unfold remove_registration in H. minv H. subst s'. st_cbn. split; [done|]. intros w v _. by apply remove_lock_at.
  - unfold withdraw_unbonded in H. minv H. subst s'. st_cbn. split; [done|]. intros w v [[= <-]|]; [|done]. by apply remove_lock_at.
  - unfold bond_extra, ensure_can_withdraw in H. minv H. subst s'. st_cbn. split; [apply set_lock_same|]. intros w v [[= <-]|]; [|done]. by apply set_lock_at.
  - unfold refund_excess in H. minv H. subst s'. st_cbn. split; [apply set_lock_same|]. intros w v [[= <-]|]; [|done]. by apply set_lock_at.
Qed.
End balances.
