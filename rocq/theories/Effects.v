(** What each call does, table by table. *)
From Verif Require Export SpecEffects.
From Verif Require Import EffNft EffMkt EffAuc EffRent EffTrans EffTee EffBal BridgeFacts TeeInv2 TeeFacts4 TransInv NftFacts2.
Local Open Scope N_scope.

Section effects.
Context {C : Config}.

Lemma fact_nft_does s w c s' : reachable s -> is_nft_call c -> dispatch (Signed w) c s = (Ok tt, s') ->
  nft_does s w c s' /\ (~ moves_tokens c -> s_bal s' = s_bal s).
Proof.
  intros R Hc H. apply dispatch_ok in H as [_ H]. split.
  - destruct c; try done; first [by apply create_nft_does|by apply create_secret_does|by apply create_capsule_does|by apply burn_does|by apply transfer_does
      |by apply delegate_does|by apply royalty_does|by apply create_coll_does|by apply burn_coll_does|by apply close_coll_does|by apply limit_coll_does
      |by apply data_coll_does|by apply join_does|by apply secret_does|by apply convert_does|by apply capsule_data_does|by apply key_does
      |by apply secret_shard_does|by apply capsule_shard_does].
  - intros Hm. eapply unmoved; [done| |exact H]. by destruct c.
Qed.
Lemma fact_mkt_does s w c s' : is_mkt_call c -> dispatch (Signed w) c s = (Ok tt, s') ->
  mkt_does s w c s' /\ (~ moves_tokens c -> s_bal s' = s_bal s).
Proof.
  intros Hc H. apply dispatch_ok in H as [_ H]. split.
  - destruct c; try done; first [by apply create_mkt_does|by apply mkt_owner_does|by apply mkt_kind_does|by apply mkt_conf_does|by apply list_does
      |by apply unlist_does|by apply buy_does].
  - intros Hm. eapply unmoved; [done| |exact H]. by destruct c.
Qed.
Lemma fact_auc_does s w c s' : reachable s -> is_auc_call c -> dispatch (Signed w) c s = (Ok tt, s') ->
  auc_does s w c s' /\ (~ moves_tokens c -> s_bal s' = s_bal s).
Proof.
  intros R Hc H. apply dispatch_ok in H as [_ H]. split.
  - destruct c; try done; first [by apply create_auc_does|by apply cancel_auc_does|by apply end_auc_does|by apply buy_auc_does|by apply unbid_does
      |by apply claim_does|by apply bid_does].
  - intros Hm. eapply unmoved; [done| |exact H]. by destruct c.
Qed.
Lemma fact_rent_does s w c s' : config_ok -> reachable s -> is_rent_call c -> dispatch (Signed w) c s = (Ok tt, s') ->
  rent_does s w c s' /\ (~ moves_tokens c -> s_bal s' = s_bal s).
Proof.
  intros HC R Hc H. apply dispatch_ok in H as [_ H]. split.
  - destruct c; try done; first [by apply create_con_does|by apply cancel_con_does|by apply revoke_does|by apply rent_call_does|by apply accept_does
      |by apply offer_does|by apply retract_does|by apply change_does|by apply acc_terms_does].
  - intros Hm. eapply unmoved; [done| |exact H]. by destruct c.
Qed.
Lemma fact_trans_does s w c s' : reachable s -> is_trans_call c -> dispatch (Signed w) c s = (Ok tt, s') ->
  trans_does s w c s' /\ (~ moves_tokens c -> s_bal s' = s_bal s).
Proof.
  intros R Hc H. apply dispatch_ok in H as [_ H]. split.
  - destruct c; try done; first [by apply set_does|by apply remove_does|by apply reset_does|by apply consent_does].
  - intros Hm. eapply unmoved; [done| |exact H]. by destruct c.
Qed.
Lemma fact_tee_does s w c s' : is_tee_call c -> dispatch (Signed w) c s = (Ok tt, s') ->
  tee_does s w c s' /\ (forall v, lock_after s w c v (locked s' v)) /\
  (~ moves_tokens c -> s_bal s' = s_bal s <| tee_lock := tee_lock (s_bal s') |>).
Proof.
  intros Hc H. apply dispatch_ok in H as [_ H]. split; [|split].
  - destruct c; try done; first [by apply register_does|by apply unregister_does|by apply update_does|by apply cancel_update_does|by apply withdraw_does
      |by apply report_does|by apply claim_rewards_does|by apply bond_extra_does|by apply refund_does].
  - intros v. assert (~ moves_tokens c \/ exists e, c = C_claim_rewards e) as [Hm|[e ->]] by (destruct c; try done; cbn; eauto).
    + apply (locks_exact _ _ _ _ Hm H). by left.
    + cbn [lock_after]. unfold locked. pose proof (tl_tee_call (tee_lock (s_bal s)) (Signed w) (C_claim_rewards e) eq_refl eq_refl s eq_refl) as P. rewrite H in P.
      unfold TeeInv2.tl in P. cbn in P. by rewrite P.
  - intros Hm. by apply (locks_exact _ _ _ _ Hm H).
Qed.
Lemma fact_bridge_does s w c s' : reachable s -> is_bridge_call c -> dispatch (Signed w) c s = (Ok tt, s') -> bridge_does s w c s'.
Proof.
  intros R Hc H. apply dispatch_ok in H as [_ H]. destruct c; try done; [by apply vote_does|]. apply deposit_does; [|done].
  intros n. apply (sreach_nonce s (reachable_sreach s R)).
Qed.
Lemma fact_root_does s c s' : reachable s -> root_call c -> dispatch Root c s = (Ok tt, s') ->
  root_does s c s' /\ (forall v, lock_after s v c v (locked s' v)) /\ s_bal s' = s_bal s <| tee_lock := tee_lock (s_bal s') |>.
Proof.
  intros R Hc H. apply dispatch_ok in H as [_ H]. split; [by apply root_rows|].
  assert (Hm : ~ moves_tokens c) by (by destruct c; try intros []).
  destruct (locks_exact _ _ _ _ Hm H) as [Hb Hl]. split; [|done]. intros v. apply Hl. by right.
Qed.
Lemma fact_external_does s o c s' : external_call c -> dispatch o c s = (Ok tt, s') ->
  external_does s c s' /\ (~ moves_tokens c -> s_bal s' = s_bal s).
Proof.
  intros Hc H. apply dispatch_ok in H as [Hw H]. split; [by eapply external_rows|].
  intros Hm. eapply unmoved; [done| |exact H]. by destruct c.
Qed.
Lemma fact_service_fee s w c f s' : reachable s -> service_fee s c = Some f -> dispatch (Signed w) c s = (Ok tt, s') ->
  (forall a, fees_collector <> Some a -> free (s_bal s') a + at_acc w a f = free (s_bal s) a) /\
  (forall k, fees_collector = Some k -> free (s_bal s) k <> 0 \/ f = 0 \/ ed <= f -> free (s_bal s') k + at_acc w k f = free (s_bal s) k + f) /\
  (fees_collector = None -> issuance (s_bal s') + f = issuance (s_bal s)) /\
  (free (s_bal s) w <> 0 -> ed <= free (s_bal s') w).
Proof.
  intros R Hf H. apply dispatch_ok in H as [_ H].
  assert (Hp : pay_fee_b w f (s_bal s) = Ok (s_bal s')).
  { destruct c; try done; cbn [service_fee exec_call signed] in *; injection Hf as <-.
    - unfold create_marketplace in H. mstep H. mstep H. unfold next_mkt_id in H. minv H. subst s'. st_cbn. rewrite T. done.
    - apply tset_ok in H as (d&b&q&_&_&_&_&_&_&_&_&_&T&->). st_cbn. rewrite <- T. by destruct p. }
  pose proof (reachable_binv s R) as Hb. unfold binv in Hb. destruct (pay_fee_effect w f _ _ Hb Hp) as (_&H1&H2&H3&H4).
  split; [done|]. split; [|done]. intros k Hk Hor. destruct (N.eq_dec f 0) as [->|Hne].
  - unfold pay_fee_b in Hp. change (withdraw_b w 0 true (s_bal s)) with (Ok (A:=balances) (s_bal s)) in Hp.
    injection Hp as <-. unfold collect_b. rewrite Hk. unfold at_acc. assert (free (resolve_creating_b k 0 (s_bal s)) k = free (s_bal s) k) as -> by done. destruct (decide _); lia.
  - apply H2; [done|]. destruct Hor as [?|[?|?]]; auto; done.
Qed.
End effects.
