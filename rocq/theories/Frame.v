(** Which parts of the state each pallet's calls and hooks can change, whatever their
    result. *)
From Verif Require Export Sreach.
Local Open Scope N_scope.

Inductive pallet := PNft | PMarket | PAuction | PRent | PTrans | PTee | PBridge | PRewards | PMandate.

Definition pallet_of (c : call) : pallet :=
  match c with
  | C_create_nft _ _ _ _ | C_burn_nft _ | C_transfer_nft _ _ | C_delegate_nft _ _ | C_set_royalty _ _
  | C_set_nft_mint_fee _ | C_create_collection _ _ | C_burn_collection _ | C_close_collection _
  | C_limit_collection _ _ | C_add_nft_to_collection _ _ | C_add_secret _ _
  | C_create_secret_nft _ _ _ _ _ | C_add_secret_shard _ | C_set_secret_nft_mint_fee _
  | C_convert_to_capsule _ _ | C_create_capsule _ _ _ _ _ | C_set_capsule_offchaindata _ _
  | C_set_capsule_mint_fee _ | C_add_capsule_shard _ | C_notify_enclave_key_update _
  | C_set_collection_offchaindata _ _ => PNft
  | C_create_marketplace _ | C_set_marketplace_owner _ _ | C_set_marketplace_kind _ _
  | C_set_marketplace_configuration _ _ _ _ _ _ | C_set_marketplace_mint_fee _
  | C_list_nft _ _ _ | C_unlist_nft _ | C_buy_nft _ _ => PMarket
  | C_create_auction _ _ _ _ _ _ | C_cancel_auction _ | C_end_auction _ | C_add_bid _ _
  | C_remove_bid _ | C_buy_it_now _ _ | C_claim => PAuction
  | C_create_contract _ _ _ _ _ _ _ | C_cancel_contract _ | C_revoke_contract _ | C_rent _ _
  | C_make_rent_offer _ _ | C_accept_rent_offer _ _ | C_retract_rent_offer _
  | C_change_subscription_terms _ _ _ _ _ | C_accept_subscription_terms _ _ _ _ _ => PRent
  | C_set_transmission_protocol _ _ _ _ | C_remove_transmission_protocol _ | C_reset_timer _ _
  | C_add_consent _ | C_set_protocol_fee _ _ => PTrans
  | C_register_enclave _ _ | C_unregister_enclave | C_update_enclave _ _ | C_cancel_update
  | C_assign_enclave _ _ _ | C_remove_registration _ | C_reject_update _
  | C_approve_enclave_unregistration _ | C_force_remove_enclave _ | C_approve_update_enclave _
  | C_force_update_enclave _ _ _ | C_create_cluster _ | C_update_cluster _ _ | C_remove_cluster _
  | C_withdraw_unbonded | C_register_metrics_server _ _ | C_unregister_metrics_server _
  | C_force_update_metrics_server_type _ _ | C_submit_metrics_server_report _ _
  | C_set_report_params_weightage _ | C_set_staking_amount _ | C_set_daily_reward_pool _
  | C_claim_rewards _ | C_update_operator_assigned_era _ _ | C_bond_extra | C_refund_excess => PTee
  | C_set_threshold _ | C_add_chain _ | C_set_relayers _ | C_set_deposit_nonce _ _
  | C_vote_for_proposal _ _ _ _ | C_deposit _ _ _ | C_set_bridge_fee _ => PBridge
  | C_set_session_extra_reward_payout _ => PRewards
  | C_mandate _ => PMandate
  end.

Section frame.
Context {C : Config}.
Implicit Types (P : state -> Prop).

Lemma pres_fail {A} P e : pres (A := A) P (fail e).
Proof. intros s Hs. exact Hs. Qed.
Lemma pres_ensure P b e : pres P (ensure b e).
Proof. intros s Hs. unfold ensure. destruct b; exact Hs. Qed.
Lemma pres_unwrap {A} P (o : option A) e : pres P (unwrap o e).
Proof. intros s Hs. unfold unwrap. destruct o; exact Hs. Qed.
Lemma pres_of_res {A} P (o : res A) : pres P (of_res o).
Proof. intros s Hs. unfold of_res. destruct o; exact Hs. Qed.
Lemma pres_map_err {A} P e (m : M A) : pres P m -> pres P (map_err e m).
Proof. intros H s Hs. specialize (H s Hs). unfold map_err. destruct (m s) as [[]?]; exact H. Qed.
Lemma pres_on_some {A} P (o : option A) m : (forall a, pres P (m a)) -> pres P (on_some o m).
Proof. intros H. destruct o; [apply H|apply pres_ret]. Qed.
Lemma pres_lift_bal P f :
  (forall s b, P s -> f (s_bal s) = Ok b -> P (s <| s_bal := b |>)) -> pres P (lift_bal f).
Proof. intros H s Hs. unfold lift_bal. destruct (f (s_bal s)) eqn:E; [eauto|exact Hs]. Qed.
Lemma pres_for_each {A} P (l : list A) f : (forall a, pres P (f a)) -> pres P (for_each l f).
Proof.
  intros H. induction l as [|x l IH]; cbn [for_each]; [apply pres_ret|].
  apply pres_bind; [apply H|]. intros _. apply IH.
Qed.
Lemma pres_transactional P m : pres P m -> pres P (transactional m).
Proof. intros H s Hs. unfold transactional. specialize (H s Hs). destruct (m s) as [[]?]; done. Qed.
Lemma pres_iff P Q {A} (m : M A) : (forall s, P s <-> Q s) -> pres P m -> pres Q m.
Proof. intros H Hp s Hs. apply H, Hp, H, Hs. Qed.
End frame.

(** Structural proof of [pres P m]; leaves the goals about single writes. *)
Ltac pres_step :=
  lazymatch goal with
  | |- pres _ (bind _ _) => apply pres_bind; [|intros ?]
  | |- pres _ (ret _) => apply pres_ret
  | |- pres _ (fail _) => apply pres_fail
  | |- pres _ (gets _) => apply pres_gets
  | |- pres _ (ensure _ _) => apply pres_ensure
  | |- pres _ (unwrap _ _) => apply pres_unwrap
  | |- pres _ (of_res _) => apply pres_of_res
  | |- pres _ (map_err _ _) => apply pres_map_err
  | |- pres _ (when _ _) => apply pres_when
  | |- pres _ (on_some _ _) => apply pres_on_some; intros ?
  | |- pres _ (attempt _) => apply pres_attempt
  | |- pres _ (catch _) => apply pres_catch
  | |- pres _ (for_each _ _) => apply pres_for_each; intros ?
  | |- pres _ (modify _) => apply pres_modify; intros ? ?
  | |- pres _ (lift_bal _) => apply pres_lift_bal; intros ? ? ? ?
  | |- pres _ (match ?x with _ => _ end) => destruct x
  | |- pres _ (let _ := _ in _) => cbv zeta
  | |- pres _ ?g => let f := head_of g in unfold f; cbv beta zeta
  end.
Ltac pres_go := repeat pres_step.

Section frame2.
Context {C : Config}.

(** What a pallet cannot change. *)
Definition kept (p : pallet) (s t : state) : Prop :=
  s_now s = s_now t /\ s_era s = s_era t /\
  match p with
  | PNft => s_mkt s = s_mkt t /\ s_auc s = s_auc t /\ s_rent s = s_rent t /\ s_trans s = s_trans t /\
            s_tee s = s_tee t /\ s_brg s = s_brg t /\ s_srw s = s_srw t
  | PMarket => s_auc s = s_auc t /\ s_rent s = s_rent t /\ s_trans s = s_trans t /\
            s_tee s = s_tee t /\ s_brg s = s_brg t /\ s_srw s = s_srw t
  | PAuction => s_mkt s = s_mkt t /\ s_rent s = s_rent t /\ s_trans s = s_trans t /\
            s_tee s = s_tee t /\ s_brg s = s_brg t /\ s_srw s = s_srw t
  | PRent => s_mkt s = s_mkt t /\ s_auc s = s_auc t /\ s_trans s = s_trans t /\
            s_tee s = s_tee t /\ s_brg s = s_brg t /\ s_srw s = s_srw t
  | PTrans => s_mkt s = s_mkt t /\ s_auc s = s_auc t /\ s_rent s = s_rent t /\
            s_tee s = s_tee t /\ s_brg s = s_brg t /\ s_srw s = s_srw t
  | PTee => s_nft s = s_nft t /\ s_mkt s = s_mkt t /\ s_auc s = s_auc t /\ s_rent s = s_rent t /\
            s_trans s = s_trans t /\ s_brg s = s_brg t /\ s_srw s = s_srw t
  | PBridge => s_nft s = s_nft t /\ s_mkt s = s_mkt t /\ s_auc s = s_auc t /\ s_rent s = s_rent t /\
            s_trans s = s_trans t /\ s_tee s = s_tee t /\ s_srw s = s_srw t
  | PRewards => s_nft s = s_nft t /\ s_mkt s = s_mkt t /\ s_auc s = s_auc t /\ s_rent s = s_rent t /\
            s_trans s = s_trans t /\ s_tee s = s_tee t /\ s_brg s = s_brg t
  | PMandate => False
  end.

Lemma exec_kept o c t : is_mandate c = false -> pres (fun s => kept (pallet_of c) s t) (exec_call o c).
Proof.
  intros Hm. destruct c; try discriminate Hm; clear Hm; cbn [exec_call pallet_of];
    unfold kept, signed, root, external.
  all: pres_go; st_cbn; assumption.
Qed.

Lemma call_kept o c s s' : is_mandate c = false -> exec_call o c s = (Ok tt, s') -> kept (pallet_of c) s' s.
Proof.
  intros Hm He. pose proof (exec_kept o c s Hm s) as H. rewrite He in H. apply H.
  unfold kept. destruct c; try discriminate Hm; cbn [pallet_of]; tauto.
Qed.

(** The same for the hooks and the rest of the chain. *)
Definition hook_pallet (h : hook) : pallet :=
  match h with HookAuction => PAuction | HookRent => PRent | HookTrans => PTrans | HookTee => PTee end.

Lemma hook_kept_pres h t : pres (fun s => kept (hook_pallet h) s t) (run_hook h).
Proof.
  destruct h; cbn [run_hook hook_pallet]; unfold kept.
  - apply pres_auction_hook; [|intros; st_cbn; assumption]. intros id. pres_go; st_cbn; assumption.
  - apply pres_rent_hook; [| | |intros; st_cbn; assumption]; intros; pres_go; st_cbn; assumption.
  - apply pres_trans_hook; [| |intros; st_cbn; assumption]; intros; pres_go; st_cbn; assumption.
  - pres_go; st_cbn; assumption.
Qed.
Lemma hook_kept h s : kept (hook_pallet h) (snd (run_hook h s)) s.
Proof. apply hook_kept_pres. unfold kept. destruct h; cbn [hook_pallet]; tauto. Qed.

(** The outside world touches only balances, the era, the staking-rewards counters. *)
Definition env_kept_from (s t : state) : Prop :=
  s_now s = s_now t /\ s_nft s = s_nft t /\ s_mkt s = s_mkt t /\ s_auc s = s_auc t /\ s_rent s = s_rent t /\
  s_trans s = s_trans t /\ s_tee s = s_tee t /\ s_brg s = s_brg t /\ s_events s = s_events t.
Lemma env_kept_pres e t : pres (fun s => env_kept_from s t) (run_env e).
Proof.
  destruct e; unfold env_kept_from; cbn [run_env]; pres_go; st_cbn; try assumption.
  - destruct (free_m (s_bal s) !! who); assumption.
  - destruct (s_era s); [destruct (_ <? _)|]; assumption.
Qed.
Lemma env_kept e s s' r : run_env e s = (r, s') -> env_kept_from s' s.
Proof.
  intros He. pose proof (env_kept_pres e s s) as H. rewrite He in H. apply H.
  unfold env_kept_from. tauto.
Qed.

End frame2.
