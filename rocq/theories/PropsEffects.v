(** Property theorems: what each successful call does.  The tables are in SpecEffects.v. *)
From Verif Require Import SpecEffects Effects Demo.
Local Open Scope N_scope.

Section props.
Context {C : Config}.

(** C90: pallet nft. *)
Theorem C90_nft_effects s w c s' :
  reachable s -> is_nft_call c -> dispatch (Signed w) c s = (Ok tt, s') ->
  nft_does s w c s' /\ (~ moves_tokens c -> s_bal s' = s_bal s).
Proof. exact (fact_nft_does s w c s'). Qed.

(** C91: pallet marketplace. *)
Theorem C91_marketplace_effects s w c s' :
  is_mkt_call c -> dispatch (Signed w) c s = (Ok tt, s') ->
  mkt_does s w c s' /\ (~ moves_tokens c -> s_bal s' = s_bal s).
Proof. exact (fact_mkt_does s w c s'). Qed.

(** C92: pallet auction. *)
Theorem C92_auction_effects s w c s' :
  reachable s -> is_auc_call c -> dispatch (Signed w) c s = (Ok tt, s') ->
  auc_does s w c s' /\ (~ moves_tokens c -> s_bal s' = s_bal s).
Proof. exact (fact_auc_does s w c s'). Qed.

(** C93: pallet rent. *)
Theorem C93_rent_effects s w c s' :
  config_ok -> reachable s -> is_rent_call c -> dispatch (Signed w) c s = (Ok tt, s') ->
  rent_does s w c s' /\ (~ moves_tokens c -> s_bal s' = s_bal s).
Proof. exact (fact_rent_does s w c s'). Qed.

(** C94: pallet transmission-protocols. *)
Theorem C94_transmission_effects s w c s' :
  reachable s -> is_trans_call c -> dispatch (Signed w) c s = (Ok tt, s') ->
  trans_does s w c s' /\ (~ moves_tokens c -> s_bal s' = s_bal s).
Proof. exact (fact_trans_does s w c s'). Qed.

(** C95: pallet tee, the calls of operators and metrics servers. *)
Theorem C95_tee_effects s w c s' :
  is_tee_call c -> dispatch (Signed w) c s = (Ok tt, s') ->
  tee_does s w c s' /\ (forall v, lock_after s w c v (locked s' v)) /\
  (~ moves_tokens c -> s_bal s' = s_bal s <| tee_lock := tee_lock (s_bal s') |>).
Proof. exact (fact_tee_does s w c s'). Qed.

(** C96: pallet bridge, the calls of relayers and depositors. *)
Theorem C96_bridge_effects s w c s' :
  reachable s -> is_bridge_call c -> dispatch (Signed w) c s = (Ok tt, s') -> bridge_does s w c s'.
Proof. exact (fact_bridge_does s w c s'). Qed.

(** C97: the calls of root and of the external origin. *)
Theorem C97_root_effects s c s' :
  reachable s -> root_call c -> dispatch Root c s = (Ok tt, s') ->
  root_does s c s' /\ (forall v, lock_after s v c v (locked s' v)) /\
  s_bal s' = s_bal s <| tee_lock := tee_lock (s_bal s') |>.
Proof. exact (fact_root_does s c s'). Qed.
Theorem C97_external_effects s o c s' :
  external_call c -> dispatch o c s = (Ok tt, s') ->
  external_does s c s' /\ (~ moves_tokens c -> s_bal s' = s_bal s).
Proof. exact (fact_external_does s o c s'). Qed.

(** C98: creating a marketplace or a transmission costs exactly the published fee.  The
    collector gets it unless its account is dead and the fee too small to create it. *)
Theorem C98_services_cost_the_published_fee s w c f s' :
  reachable s -> service_fee s c = Some f -> dispatch (Signed w) c s = (Ok tt, s') ->
  (forall a, fees_collector <> Some a -> free (s_bal s') a + at_acc w a f = free (s_bal s) a) /\
  (forall k, fees_collector = Some k -> free (s_bal s) k <> 0 \/ f = 0 \/ ed <= f ->
     free (s_bal s') k + at_acc w k f = free (s_bal s) k + f) /\
  (fees_collector = None -> issuance (s_bal s') + f = issuance (s_bal s)) /\
  (free (s_bal s) w <> 0 -> ed <= free (s_bal s') w).
Proof. exact (fact_service_fee s w c f s'). Qed.
End props.

(** The rows occur in reachable states. *)
Section examples.
Local Existing Instance demo1.
Let by_ (w : N) (c : call) : action := Extrinsic (Signed w) c.
Let root (c : call) : action := Extrinsic Root c.
Let ext (c : call) : action := Extrinsic (OtherOrigin 1) c.

Definition effects_demo : list action :=
  [by_ 5 (C_create_marketplace Public); by_ 1 (C_create_collection [] (Some 3)); by_ 1 (C_create_nft [] 100000 (Some 0) false);
   by_ 1 (C_create_nft [] 0 (Some 0) false); by_ 1 (C_create_nft [] 0 None false); by_ 1 (C_create_nft [] 0 None false); by_ 1 (C_create_nft [] 0 None false);
   by_ 1 (C_list_nft 1 0 500); by_ 1 (C_create_auction 2 0 2 20 50 (Some 400));
   by_ 1 (C_create_contract 3 (FixedIn 10) (AutoAcceptance None) true (RentTokens 100) (FixedTokens 50) (FlexibleTokens 200));
   by_ 1 (C_set_transmission_protocol 4 3 (OnConsentAtBlock [2; 3; 4] 2 40) Anytime);
   NextBlock; by_ 2 (C_add_bid 2 100); by_ 3 (C_add_bid 2 150); by_ 2 (C_add_consent 4)].
Lemma effects_reachable : reachable (demo effects_demo).
Proof. by apply demo_reachable. Qed.

(** The burnt NFT leaves its collection; a stranger's NFT and the tokens stay. *)
Example C90_case : exists s', dispatch (Signed 1) (C_burn_nft 0) (demo effects_demo) = (Ok tt, s') /\
  nfts (s_nft s') !! 0 = None /\ (c_nfts <$> colls (s_nft s') !! 0) = Some [1] /\
  s_bal s' = s_bal (demo effects_demo) /\ head (s_events s') = Some (Ev_NFTBurned 0).
Proof. eexists. do 4 (split; [vm_compute; reflexivity|]). vm_compute. reflexivity. Qed.
Example C91_case : exists s', dispatch (Signed 2) (C_buy_nft 1 500) (demo effects_demo) = (Ok tt, s') /\
  (owner <$> nfts (s_nft s') !! 1) = Some 2 /\ sales (s_mkt s') !! 1 = None /\ head (s_events s') = Some (Ev_NFTSold 1 0 2 500 0 0).
Proof. eexists. do 3 (split; [vm_compute; reflexivity|]). vm_compute. reflexivity. Qed.
(** The bidders are refunded when the auction is bought out. *)
Example C92_case : exists s', dispatch (Signed 4) (C_buy_it_now 2 400) (demo effects_demo) = (Ok tt, s') /\
  (owner <$> nfts (s_nft s') !! 2) = Some 4 /\ auctions (s_auc s') !! 2 = None /\ claims (s_auc s') !! 2 = Some 100 /\
  claims (s_auc s') !! 3 = Some 150 /\ deadlines (s_auc s') = [].
Proof. eexists. do 5 (split; [vm_compute; reflexivity|]). vm_compute. reflexivity. Qed.
(** The contract moves from the queue of free contracts to the queue of running ones. *)
Example C93_case : exists s', dispatch (Signed 2) (C_rent 3 1) (demo effects_demo) = (Ok tt, s') /\
  q_avail (queues (s_rent (demo effects_demo))) = [(3, 21)] /\ q_fixed (queues (s_rent (demo effects_demo))) = [] /\
  q_avail (queues (s_rent s')) = [] /\ q_fixed (queues (s_rent s')) = [(3, 12)] /\ (r_rentee <$> contracts (s_rent s') !! 3) = Some (Some 2).
Proof. eexists. do 5 (split; [vm_compute; reflexivity|]). vm_compute. reflexivity. Qed.
(** The second consent is the last one needed: the NFT is queued for block 40. *)
Example C94_case : exists s', dispatch (Signed 3) (C_add_consent 4) (demo effects_demo) = (Ok tt, s') /\
  t_queue (s_trans s') = [(4, 40)] /\ consents (s_trans (demo effects_demo)) !! 4 = Some [2] /\ consents (s_trans s') !! 4 = None /\
  take 2 (s_events s') = [Ev_ThresholdReached 4; Ev_ConsentAdded 4 3].
Proof. eexists. do 4 (split; [vm_compute; reflexivity|]). vm_compute. reflexivity. Qed.
(** The wait is over: the last consent hands the NFT over at once. *)
Example C94_case_late : let s := demo (effects_demo ++ replicate 40 NextBlock) in
  exists s', dispatch (Signed 3) (C_add_consent 4) s = (Ok tt, s') /\ (owner <$> nfts (s_nft s) !! 4) = Some 1 /\
  (owner <$> nfts (s_nft s') !! 4) = Some 3 /\ transs (s_trans s') !! 4 = None.
Proof. cbv zeta. eexists. do 3 (split; [vm_compute; reflexivity|]). vm_compute. reflexivity. Qed.

Definition effects_tee : list action :=
  [root (C_create_cluster ClPublic); by_ 1 (C_register_enclave 11 [1]); by_ 2 (C_register_enclave 12 [1]); by_ 3 (C_register_enclave 13 [1]);
   root (C_assign_enclave 1 0 7); root (C_assign_enclave 2 0 8); root (C_register_metrics_server 5 ClPublic); root (C_set_staking_amount 30);
   by_ 1 (C_update_enclave 14 [2])].
Lemma effects_tee_reachable : reachable (demo effects_tee).
Proof. by apply demo_reachable. Qed.
(** An operator tops up the stake; one that was not assigned leaves at once. *)
Example C95_case : exists s', dispatch (Signed 2) C_bond_extra (demo effects_tee) = (Ok tt, s') /\
  locked (demo effects_tee) 2 = Some 20 /\ locked s' 2 = Some 30 /\ staked s' 2 = Some 30 /\ head (s_events s') = Some (Ev_BondedExtra 2 10).
Proof. eexists. do 4 (split; [vm_compute; reflexivity|]). vm_compute. reflexivity. Qed.
Example C95_case_leave : exists s', dispatch (Signed 3) C_unregister_enclave (demo effects_tee) = (Ok tt, s') /\
  locked (demo effects_tee) 3 = Some 20 /\ locked s' 3 = None /\ staked s' 3 = None /\ regs (s_tee s') !! 3 = None.
Proof. eexists. do 4 (split; [vm_compute; reflexivity|]). vm_compute. reflexivity. Qed.
Definition effects_bridge : list action := [ext (C_add_chain 5); ext (C_set_relayers [1; 2; 3]); by_ 1 (C_vote_for_proposal 5 4 7 100)].
(** The second vote approves the proposal. *)
Example C96_case : reachable (demo effects_bridge) /\ exists s', dispatch (Signed 2) (C_vote_for_proposal 5 4 7 100) (demo effects_bridge) = (Ok tt, s') /\
  votes (s_brg s') !! (5, (4, 7, 100)) = Some (mkProposal [1; 2] Approved 11) /\ take 2 (s_events s') = [Ev_ProposalApproved 5 4; Ev_RelayerVoted 5 4 2].
Proof. split; [by apply demo_reachable|]. eexists. do 2 (split; [vm_compute; reflexivity|]). vm_compute. reflexivity. Qed.
(** Root approves the new enclave; a mandate that fails is reported. *)
Example C97_case : exists s', dispatch Root (C_approve_update_enclave 1) (demo effects_tee) = (Ok tt, s') /\
  encs (s_tee s') !! 1 = Some (mkEnclave 14 [2]) /\ addr_op (s_tee s') !! 14 = Some 1 /\ updates (s_tee s') !! 1 = None.
Proof. eexists. do 3 (split; [vm_compute; reflexivity|]). vm_compute. reflexivity. Qed.
Example C97_case_mandate : exists s', dispatch (OtherOrigin 1) (C_mandate (C_remove_cluster 0)) (demo effects_tee) = (Ok tt, s') /\
  is_Some (clusters (s_tee s') !! 0) /\ exists e, head (s_events s') = Some (Ev_RootOp (Some e)).
Proof. eexists. split; [vm_compute; reflexivity|]. split; [vm_compute; eauto|]. eexists. vm_compute. reflexivity. Qed.
(** A transmission on consent before a block costs 4. *)
Example C98_case : let s := demo effects_demo in let c := C_set_transmission_protocol 0 2 (OnConsentAtBlock [2; 3] 2 40) Anytime in
  service_fee s c = Some 4 /\ exists s', dispatch (Signed 1) c s = (Ok tt, s') /\ free (s_bal s') 1 + 4 = free (s_bal s) 1 /\
  free (s_bal s') 90 = free (s_bal s) 90 + 4.
Proof. cbv zeta. split; [vm_compute; reflexivity|]. eexists. do 2 (split; [vm_compute; reflexivity|]). vm_compute. reflexivity. Qed.
End examples.

Print Assumptions C90_nft_effects.
Print Assumptions C91_marketplace_effects.
Print Assumptions C92_auction_effects.
Print Assumptions C93_rent_effects.
Print Assumptions C94_transmission_effects.
Print Assumptions C95_tee_effects.
Print Assumptions C96_bridge_effects.
Print Assumptions C97_root_effects.
Print Assumptions C97_external_effects.
Print Assumptions C98_services_cost_the_published_fee.
