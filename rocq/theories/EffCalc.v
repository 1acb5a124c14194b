(** States are equal when their components are. *)
From Verif Require Import SpecEffects.
From Verif Require Export Tactics.

Section ext.
Context {C : Config}.
Lemma state_ext (a b : state) :
  s_now a = s_now b -> s_era a = s_era b -> s_bal a = s_bal b -> s_nft a = s_nft b -> s_mkt a = s_mkt b -> s_auc a = s_auc b -> s_rent a = s_rent b -> s_trans a = s_trans b -> s_tee a = s_tee b -> s_brg a = s_brg b -> s_srw a = s_srw b -> s_events a = s_events b -> a = b.
Proof. destruct a, b. cbn. by intros; subst. Qed.
Lemma nft_st_ext (a b : nft_st) :
  nfts a = nfts b -> colls a = colls b -> delegated a = delegated b -> secret_data a = secret_data b -> secret_shards a = secret_shards b -> capsule_data a = capsule_data b -> capsule_shards a = capsule_shards b -> next_nft a = next_nft b -> next_coll a = next_coll b -> mint_fee a = mint_fee b -> secret_fee a = secret_fee b -> capsule_fee a = capsule_fee b -> a = b.
Proof. destruct a, b. cbn. by intros; subst. Qed.
Lemma mkt_st_ext (a b : mkt_st) :
  mkts a = mkts b -> sales a = sales b -> next_mkt a = next_mkt b -> mkt_fee a = mkt_fee b -> a = b.
Proof. destruct a, b. cbn. by intros; subst. Qed.
Lemma auc_st_ext (a b : auc_st) :
  auctions a = auctions b -> commissions a = commissions b -> deadlines a = deadlines b -> claims a = claims b -> a = b.
Proof. destruct a, b. cbn. by intros; subst. Qed.
Lemma rent_st_ext (a b : rent_st) :
  contracts a = contracts b -> offers a = offers b -> queues a = queues b -> a = b.
Proof. destruct a, b. cbn. by intros; subst. Qed.
Lemma trans_st_ext (a b : trans_st) :
  transs a = transs b -> consents a = consents b -> t_queue a = t_queue b -> fee_at_block a = fee_at_block b -> fee_at_block_reset a = fee_at_block_reset b -> fee_on_consent a = fee_on_consent b -> fee_on_consent_at_block a = fee_on_consent_at_block b -> a = b.
Proof. destruct a, b. cbn. by intros; subst. Qed.
Lemma tee_st_ext (a b : tee_st) :
  regs a = regs b -> unregs a = unregs b -> updates a = updates b -> encs a = encs b -> addr_op a = addr_op b -> clusters a = clusters b -> next_cluster a = next_cluster b -> enc_cluster a = enc_cluster b -> servers a = servers b -> staking_amount a = staking_amount b -> ledgers a = ledgers b -> reports a = reports b -> weights a = weights b -> reward_pool a = reward_pool b -> claimed a = claimed b -> assigned_era a = assigned_era b -> a = b.
Proof. destruct a, b. cbn. by intros; subst. Qed.
Lemma brg_st_ext (a b : brg_st) :
  nonces a = nonces b -> vote_threshold a = vote_threshold b -> relayers a = relayers b -> votes a = votes b -> bridge_fee a = bridge_fee b -> a = b.
Proof. destruct a, b. cbn. by intros; subst. Qed.
End ext.

Ltac eff_unfold := unfold becomes, auction_over, begun, in_tee, detached, write, write_coll, mint, write_mkt.
(** Compare two states component by component; what is not identical remains. *)
Ltac eff_eq :=
  eff_unfold; apply state_ext; st_cbn; try reflexivity;
  try (match goal with
       | |- @eq nft_st _ _ => apply nft_st_ext
       | |- @eq mkt_st _ _ => apply mkt_st_ext
       | |- @eq auc_st _ _ => apply auc_st_ext
       | |- @eq rent_st _ _ => apply rent_st_ext
       | |- @eq trans_st _ _ => apply trans_st_ext
       | |- @eq tee_st _ _ => apply tee_st_ext
       | |- @eq brg_st _ _ => apply brg_st_ext
       end; st_cbn; try reflexivity).
(** Invert the run of the call. *)
Tactic Notation "eff_run" hyp(H) reference(f) := cbn [exec_call signed root external] in H; unfold f in H; minv H; subst.
