(** Who changes the stake of an operator. *)
From Verif Require Export SpecTokens TeeFacts3.
Local Open Scope N_scope.

Section teefacts4.
Context {C : Config}.

Lemma set_lock_lookup who amt b w : tee_lock (set_lock_b who amt b) !! w =
  if decide (who = w) then (if amt =? 0 then (if zero_lock_clears then None else tee_lock b !! w) else Some amt) else tee_lock b !! w.
Proof.
  unfold set_lock_b. destruct (amt =? 0); [destruct zero_lock_clears|]; st_cbn; destruct (decide _) as [->|]; try done;
    by rewrite ?lookup_delete, ?lookup_delete_ne, ?lookup_insert, ?lookup_insert_ne by done.
Qed.
Lemma remove_lock_lookup who b w : tee_lock (remove_lock_b who b) !! w = if decide (who = w) then None else tee_lock b !! w.
Proof. unfold remove_lock_b. st_cbn. destruct (decide _) as [->|]; by rewrite ?lookup_delete, ?lookup_delete_ne by done. Qed.

Lemma tl_tee_call m o c : (match c with C_register_enclave _ _ | C_unregister_enclave | C_withdraw_unbonded | C_bond_extra
    | C_refund_excess | C_remove_registration _ => false | _ => true end) = true -> is_mandate c = false -> pres (TeeInv2.tl m) (exec_call o c).
Proof.
  intros Hc Hm. destruct c; try discriminate Hm; try discriminate Hc; clear Hm Hc; cbn [exec_call]; unfold signed, root, external; repeat tl_step.
Qed.
Lemma fact_stake s a w : locked (step s a) w <> locked s w ->
  ((exists c, a = Extrinsic (Signed w) c /\ stake_call c) \/ runs a Root (C_remove_registration w)) /\
  (locked (step s a) w = None \/ locked (step s a) w = Some (staking_amount (s_tee s))).
Proof.
  unfold locked. destruct (tee_steps s a) as [o c s1 Hr Hp Hm He Et Eb _|_ E|_ _ E]; [|by rewrite E|by rewrite E].
  rewrite Eb. clear Et Eb. intros Hne.
  destruct (match c with C_register_enclave _ _ | C_unregister_enclave | C_withdraw_unbonded | C_bond_extra
    | C_refund_excess | C_remove_registration _ => false | _ => true end) eqn:Hc.
  { pose proof (tl_tee_call (tee_lock (s_bal s)) o c Hc Hm s eq_refl) as H. rewrite He in H. unfold TeeInv2.tl in H. cbn in H. by rewrite H in Hne. }
  assert (Hx : forall x, (forall k, k <> x -> tee_lock (s_bal s1) !! k = tee_lock (s_bal s) !! k) -> w = x).
  { intros x H. destruct (decide (w = x)); [done|]. by rewrite H in Hne. }
  destruct c; try discriminate Hc; clear Hc; cbn [exec_call] in He; unfold signed, root, external in He.
  - destruct o as [|x|]; try done. unfold register_enclave in He. minv He. subst s1. st_cbn_in Hne. st_cbn. rewrite set_lock_lookup in *.
    destruct (decide (x = w)) as [->|]; [|done]. apply runs_signed in Hr as ->. split; [left; by eexists|].
    destruct (_ =? 0); [destruct zero_lock_clears; [by left|done]|by right].
  - destruct o as [|x|]; try done. unfold unregister_enclave in He. do 2 mstep He. destruct (encs (s_tee s) !! x) as [e|].
    { minv He. by subst s1. }
    minv He. subst s1. st_cbn_in Hne. st_cbn. rewrite remove_lock_lookup in *.
    destruct (decide (x = w)) as [->|]; [|done]. apply runs_signed in Hr as ->. split; [left; by eexists|by left].
  - destruct o; try done. unfold remove_registration in He. minv He. subst s1. st_cbn_in Hne. st_cbn. rewrite remove_lock_lookup in *.
    destruct (decide (op = w)) as [->|]; [|done]. split; [by right|by left].
  - destruct o as [|x|]; try done. unfold withdraw_unbonded in He. minv He. subst s1. st_cbn_in Hne. st_cbn. rewrite remove_lock_lookup in *.
    destruct (decide (x = w)) as [->|]; [|done]. apply runs_signed in Hr as ->. split; [left; by eexists|by left].
  - destruct o as [|x|]; try done. unfold bond_extra in He. minv He. subst s1. st_cbn_in Hne. st_cbn. rewrite set_lock_lookup in *.
    destruct (decide (x = w)) as [->|]; [|done]. apply runs_signed in Hr as ->. split; [left; by eexists|].
    destruct (_ =? 0); [destruct zero_lock_clears; [by left|done]|by right].
  - destruct o as [|x|]; try done. unfold refund_excess in He. minv He. subst s1. st_cbn_in Hne. st_cbn. rewrite set_lock_lookup in *.
    destruct (decide (x = w)) as [->|]; [|done]. apply runs_signed in Hr as ->. split; [left; by eexists|].
    destruct (_ =? 0); [destruct zero_lock_clears; [by left|done]|by right].
Qed.
End teefacts4.
