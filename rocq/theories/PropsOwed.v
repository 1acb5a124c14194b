(** Property theorems: whoever is owed money can take it out.  The terms are in SpecOwed.v. *)
From Verif Require Import SpecOwed OwedFacts OwedBids OwedAll Demo PropsAuction PropsRent PropsTee.
Local Open Scope N_scope.

Section props.
Context {C : Config}.

(** C117: a recorded refund can be claimed, in every state. *)
Theorem C117_refund_can_be_claimed s w x : config_ok -> ed <= 1 -> reachable s -> claims (s_auc s) !! w = Some x ->
  exists s', dispatch (Signed w) C_claim s = (Ok tt, s') /\ free (s_bal s') w = free (s_bal s) w + x /\ claims (s_auc s') !! w = None.
Proof. exact (owed_refund s w x). Qed.
(** A bid can be taken back until the last blocks of the auction. *)
Theorem C117_bid_can_be_withdrawn s i a w x :
  config_ok -> ed <= 1 -> reachable s -> auctions (s_auc s) !! i = Some a -> (w, x) ∈ a_bidders a -> s_now s + ending_period < a_end a ->
  exists s', dispatch (Signed w) (C_remove_bid i) s = (Ok tt, s') /\ free (s_bal s') w = free (s_bal s) w + x /\
    exists a', auctions (s_auc s') !! i = Some a' /\ forall v y, (v, y) ∈ a_bidders a' <-> (v, y) ∈ a_bidders a /\ v <> w.
Proof. exact (owed_bid s i a w x). Qed.
(** A bid that stays: if nobody does anything more, the bidder gets the NFT or a refund. *)
Theorem C117_bid_wins_or_returns s i a w x :
  config_ok -> ed <= 1 -> reachable s -> auctions (s_auc s) !! i = Some a -> (w, x) ∈ a_bidders a ->
  exists n, auctions (s_auc (blocks_pass n s)) !! i = None /\
    (last (a_bidders a) = Some (w, x) /\ owner_of (blocks_pass n s) i = Some w \/
     last (a_bidders a) <> Some (w, x) /\ x <= refund (blocks_pass n s) w).
Proof. exact (bid_returns s i a w x). Qed.
(** The deposit of an offer nobody has taken can be had back. *)
Theorem C117_deposit_can_be_recovered s i c : config_ok -> reachable s -> contracts (s_rent s) !! i = Some c -> r_rentee c = None ->
  exists s', dispatch (Signed (r_renter c)) (C_cancel_contract i) s = (Ok tt, s') /\
    free (s_bal s') (r_renter c) = free (s_bal s) (r_renter c) + token_deposit (r_renter_cf c) /\
    (forall j, r_renter_cf c = FeeNFT j -> owner_of s' j = Some (r_renter c)) /\ contracts (s_rent s') !! i = None.
Proof. exact (owed_deposit s i c). Qed.
(** An operator who waits for an assignment can leave at once and has the stake back. *)
Theorem C117_applicant_can_leave s w : config_ok -> reachable s -> w ∉ pots -> waiting s w ->
  exists s', dispatch (Signed w) C_unregister_enclave s = (Ok tt, s') /\ locked s' w = None /\ staked s' w = None /\ ~ waiting s' w.
Proof. exact (owed_registration s w). Qed.
(** The stake of an operator who left can be had back after the bonding duration (a u32). *)
Theorem C117_stake_can_be_withdrawn s w b :
  config_ok -> bonding_duration <= u32_max -> reachable s -> w ∉ pots -> unbonding s w b ->
  exists n s', s_now (blocks_pass n s) <= N.max (s_now s) (b + bonding_duration) /\
    dispatch (Signed w) C_withdraw_unbonded (blocks_pass n s) = (Ok tt, s') /\ locked s' w = None /\ staked s' w = None.
Proof. exact (owed_stake s w b). Qed.

(** C118: a block turns losing bids into refunds and changes neither sum otherwise. *)
Theorem C118_blocks_keep_what_is_owed s w : config_ok -> ed <= 1 -> reachable s ->
  refund (next_block s) w + standing (next_block s) w = refund s w + standing s w.
Proof. exact (block_due_to w s). Qed.

(** C119: whatever others do, and whatever happens in a block, the money of a bidder stays with
    the pallet to the last token, except for the highest bids in auctions that gave them the NFT. *)
Theorem C119_bidders_money s a w :
  config_ok -> ed <= 1 -> reachable s -> action_ok a -> (forall c, a <> Extrinsic (Signed w) c) ->
  exists l, NoDup (map fst l) /\ (forall i x, (i, x) ∈ l -> won s (step s a) w i x) /\
    owed (step s a) w + sum_of (map snd l) = owed s w.
Proof. exact (only_won_step w s a). Qed.
End props.

(** * Concrete cases *)
Local Existing Instance demo1.
Local Notation by_ w c := (Extrinsic (Signed w) c).

(** Accounts 3, 4, 5 have bids on NFT 0; the bid of 2 was dropped and is a refund.  Three blocks
    later 5 has the NFT and 3 and 4 have refunds. *)
Lemma owed_ed : ed <= 1.
Proof. vm_compute. discriminate. Qed.
Example C117_C118_case :
  let s := demo auction_demo2 in
  claims (s_auc s) !! 2 = Some 100 /\
  option_map a_bidders (auctions (s_auc s) !! 0) = Some [(3, 200); (4, 300); (5, 400)] /\
  map (standing s) [2; 3; 4; 5] = [0; 200; 300; 0] /\
  let t := blocks_pass 3 s in
  auctions (s_auc t) !! 0 = None /\ owner_of t 0 = Some 5 /\ map (standing t) [2; 3; 4; 5] = [0; 0; 0; 0] /\
  map (refund t) [2; 3; 4; 5] = [100; 200; 300; 0].
Proof. vm_compute. auto 10. Qed.
(** C119: 400 tokens of account 5 went into NFT 0, those of 2, 3 and 4 are still there. *)
Example C119_case :
  let s := blocks_pass 2 (demo auction_demo2) in let t := step s NextBlock in
  map (owed s) [2; 3; 4; 5] = [100; 200; 300; 400] /\ map (owed t) [2; 3; 4; 5] = [100; 200; 300; 0] /\ won s t 5 0 400 /\
  (* a higher bid of 2, who also has 60 on NFT 1, pushes out 3 *)
  let u := step (demo auction_demo2) (by_ 2 (C_add_bid 0 500)) in
  option_map a_bidders (auctions (s_auc u) !! 0) = Some [(4, 300); (5, 400); (2, 500)] /\
  map (owed u) [2; 3; 4; 5] = [660; 200; 300; 400] /\ refund u 3 = 200.
Proof.
  cbv zeta. split; [vm_compute; reflexivity|]. split; [vm_compute; reflexivity|]. split.
  - eexists. split; [vm_compute; reflexivity|]. split; [vm_compute; reflexivity|]. split; vm_compute; reflexivity.
  - split; [vm_compute; reflexivity|]. split; vm_compute; reflexivity.
Qed.
(** In block 2 the auction of NFT 0 has 18 blocks to go. *)
Example C117_bid_case :
  option_map a_end (auctions (s_auc (demo auction_demo)) !! 0) = Some 20 /\ s_now (demo auction_demo) + ending_period < 20 /\
  option_map a_bidders (auctions (s_auc (demo auction_demo)) !! 0) = Some [(2, 100); (3, 200); (4, 300)].
Proof. vm_compute. auto. Qed.
(** NFT 0 is offered with a deposit of 50 tokens, NFT 1 with NFT 2 as the deposit. *)
Example C117_deposit_case :
  option_map (fun c => (r_rentee c, r_renter_cf c)) (contracts (s_rent (demo rent_demo)) !! 0) = Some (None, FixedTokens 50) /\
  option_map (fun c => (r_rentee c, r_renter_cf c)) (contracts (s_rent (demo rent_demo)) !! 1) = Some (None, FeeNFT 2) /\
  owner_of (demo rent_demo) 2 = Some rent_pot.
Proof. vm_compute. auto. Qed.
(** 3 waits for an assignment; 1 leaves in block 3 and waits for ten blocks. *)
Definition tee_leaves : list action := tee_demo2 ++ [by_ 1 C_unregister_enclave].
Lemma tee_leaves_reachable : reachable (demo tee_leaves).
Proof. by apply demo_reachable. Qed.
Example C117_stake_case :
  waiting (demo tee_leaves) 3 /\ locked (demo tee_leaves) 3 = Some 20 /\
  unbonding (demo tee_leaves) 1 3 /\ locked (demo tee_leaves) 1 = Some 20 /\ bonding_duration <= u32_max /\
  fst (dispatch (Signed 1) C_withdraw_unbonded (blocks_pass 9 (demo tee_leaves))) <> Ok tt.
Proof.
  split; [vm_compute; eauto|]. split; [vm_compute; reflexivity|]. split; [eexists; split; [vm_compute; reflexivity|by split]|].
  split; [vm_compute; reflexivity|]. split; vm_compute; discriminate.
Qed.

Print Assumptions C117_refund_can_be_claimed.
Print Assumptions C117_bid_can_be_withdrawn.
Print Assumptions C117_bid_wins_or_returns.
Print Assumptions C117_deposit_can_be_recovered.
Print Assumptions C117_applicant_can_leave.
Print Assumptions C117_stake_can_be_withdrawn.
Print Assumptions C118_blocks_keep_what_is_owed.
Print Assumptions C119_bidders_money.
