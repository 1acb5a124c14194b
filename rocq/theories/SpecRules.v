(** When each call succeeds: one table per pallet, read off the documentation of the calls.
    A rule speaks about the state [s] before the call, the signer [w] and the arguments. *)
From Verif Require Export Spec SpecAuction SpecRent SpecTrans SpecTee SpecBridge.
Local Open Scope N_scope.

Section rules.
Context {C : Config}.

(** * Money *)

(** Account [w] can be charged [x] and survive: what is locked and the existential deposit
    stay untouched. *)
Definition affords (s : state) (w x : N) : Prop :=
  x = 0 \/ x + N.max ed (frozen (s_bal s) w) <= free (s_bal s) w.

(** What a list of payments (receiver, amount) of account [w] costs it, and what account [a]
    receives from it. *)
Definition cost (w : N) (l : list (N * N)) : N :=
  sum_of (map (fun p => if decide (fst p = w) then 0 else snd p) l).
Definition received (a : N) (l : list (N * N)) : N :=
  sum_of (map (fun p => if decide (fst p = a) then snd p else 0) l).

(** [w] can make these payments one after the other: it affords their sum, and no receiver is
    left with less than the existential deposit when it is paid. *)
Definition can_pay (s : state) (w : N) (l : list (N * N)) : Prop :=
  affords s w (cost w l) /\
  forall l1 a x l2, l = l1 ++ (a, x) :: l2 -> x <> 0 -> a <> w ->
    ed <= free (s_bal s) a + received a l1 + x.

(** Pot [p] can make these payments one after the other.  A pot may be emptied, but what is
    left below the existential deposit is lost: at every payment the pot must still be alive. *)
Definition pot_can_pay (s : state) (p : N) (l : list (N * N)) : Prop :=
  cost p l <= free (s_bal s) p /\
  forall l1 a x l2, l = l1 ++ (a, x) :: l2 -> x <> 0 -> a <> p ->
    ed <= free (s_bal s) a + received a l1 + x /\ cost p l1 + ed <= free (s_bal s) p.

(** * nft *)

(** [w] owns NFT [i] and it satisfies [P]. *)
Definition with_nft (s : state) (w i : N) (P : nft_data -> Prop) : Prop :=
  exists d, nfts (s_nft s) !! i = Some d /\ owner d = w /\ P d.
(** [w] owns collection [k] and it satisfies [P]. *)
Definition with_coll (s : state) (w k : N) (P : collection -> Prop) : Prop :=
  exists c, colls (s_nft s) !! k = Some c /\ c_owner c = w /\ P c.

(** The collection takes one more NFT. *)
Definition has_room (c : collection) : Prop :=
  c_closed c = false /\ nlen (c_nfts c) < coll_size_limit /\
  forall l, c_limit c = Some l -> nlen (c_nfts c) < l.

(** There is an identifier left, and the collection asked for is the signer's and has room. *)
Definition can_mint (s : state) (w : N) (co : option N) : Prop :=
  next_nft (s_nft s) < u32_max /\ forall k, co = Some k -> with_coll s w k has_room.

(** The signer is the enclave of an operator assigned to a cluster; all shards received so far
    come from other operators of the same cluster, and one more is needed. *)
Definition can_add_shard (s : state) (w : N) (l : list (N * N)) : Prop :=
  exists op cl, addr_op (s_tee s) !! w = Some op /\ enc_cluster (s_tee s) !! op = Some cl /\
    (forall c o, (c, o) ∈ l -> c = cl /\ o <> op) /\ nlen l < shards_number.

(** The calls of pallet nft. *)
Definition is_nft_call (c : call) : Prop :=
  match c with
  | C_create_nft _ _ _ _ | C_burn_nft _ | C_transfer_nft _ _ | C_delegate_nft _ _ | C_set_royalty _ _
  | C_set_nft_mint_fee _ | C_create_collection _ _ | C_burn_collection _ | C_close_collection _
  | C_limit_collection _ _ | C_add_nft_to_collection _ _ | C_add_secret _ _ | C_create_secret_nft _ _ _ _ _
  | C_add_secret_shard _ | C_set_secret_nft_mint_fee _ | C_convert_to_capsule _ _ | C_create_capsule _ _ _ _ _
  | C_set_capsule_offchaindata _ _ | C_set_capsule_mint_fee _ | C_add_capsule_shard _
  | C_notify_enclave_key_update _ | C_set_collection_offchaindata _ _ => True
  | _ => False
  end.

Definition nft_rule (s : state) (w : N) (c : call) : Prop :=
  match c with
  | C_create_nft _ _ co _ => affords s w (mint_fee (s_nft s)) /\ can_mint s w co
  | C_create_secret_nft _ _ _ co _ =>
      affords s w (mint_fee (s_nft s) + secret_fee (s_nft s)) /\ can_mint s w co
  | C_create_capsule _ _ _ co _ =>
      affords s w (mint_fee (s_nft s) + capsule_fee (s_nft s)) /\ can_mint s w co
  | C_burn_nft i => with_nft s w i (fun d =>
      is_listed (nstate d) = false /\ is_delegated (nstate d) = false /\
      is_rented (nstate d) = false /\ is_transmission (nstate d) = false)
  | C_transfer_nft i r => with_nft s w i (fun d => r <> w /\ unengaged d /\ ~ bound_to_owner d)
  | C_delegate_nft i _ => with_nft s w i (fun d =>
      is_listed (nstate d) = false /\ is_rented (nstate d) = false /\
      is_transmission (nstate d) = false /\ is_syncing_secret (nstate d) = false /\
      is_syncing_capsule (nstate d) = false)
  | C_set_royalty i _ => with_nft s w i (fun d => creator d = w /\ unengaged d)
  | C_create_collection _ l =>
      next_coll (s_nft s) < u32_max /\ forall x, l = Some x -> x <= coll_size_limit
  | C_burn_collection k => with_coll s w k (fun c => c_nfts c = [])
  | C_close_collection k => with_coll s w k (fun _ => True)
  | C_limit_collection k l => with_coll s w k (fun c =>
      c_limit c = None /\ c_closed c = false /\ nlen (c_nfts c) <= l <= coll_size_limit)
  | C_add_nft_to_collection i k =>
      with_coll s w k has_room /\ with_nft s w i (fun d => collection_id d = None)
  | C_add_secret i _ => with_nft s w i (fun d =>
      is_secret (nstate d) = false /\ unengaged d) /\ affords s w (secret_fee (s_nft s))
  | C_convert_to_capsule i _ => with_nft s w i (fun d =>
      is_capsule (nstate d) = false /\ unengaged d) /\ affords s w (capsule_fee (s_nft s))
  | C_add_secret_shard i => exists d, nfts (s_nft s) !! i = Some d /\
      is_syncing_secret (nstate d) = true /\ can_add_shard s w (default [] (secret_shards (s_nft s) !! i))
  | C_add_capsule_shard i => exists d, nfts (s_nft s) !! i = Some d /\
      is_syncing_capsule (nstate d) = true /\ can_add_shard s w (default [] (capsule_shards (s_nft s) !! i))
  | C_set_capsule_offchaindata i _ => with_nft s w i (fun d =>
      is_capsule (nstate d) = true /\ is_listed (nstate d) = false /\ is_delegated (nstate d) = false /\
      is_rented (nstate d) = false /\ is_syncing_secret (nstate d) = false /\
      is_syncing_capsule (nstate d) = false)
  | C_notify_enclave_key_update i => with_nft s w i (fun d => is_capsule (nstate d) = true /\ unengaged d)
  | C_set_collection_offchaindata k _ => with_coll s w k (fun _ => True)
  | _ => False
  end.

(** * marketplace *)

(** [w] owns marketplace [k]. *)
Definition runs_mkt (s : state) (w k : N) : Prop := exists m, mkts (s_mkt s) !! k = Some m /\ m_owner m = w.

(** The calls of pallet marketplace. *)
Definition is_mkt_call (c : call) : Prop :=
  match c with
  | C_create_marketplace _ | C_set_marketplace_owner _ _ | C_set_marketplace_kind _ _
  | C_set_marketplace_configuration _ _ _ _ _ _ | C_set_marketplace_mint_fee _ | C_list_nft _ _ _
  | C_unlist_nft _ | C_buy_nft _ _ => True
  | _ => False
  end.

Definition mkt_rule (s : state) (w : N) (c : call) : Prop :=
  match c with
  | C_create_marketplace _ => affords s w (mkt_fee (s_mkt s)) /\ next_mkt (s_mkt s) < u32_max
  | C_set_marketplace_owner k a => runs_mkt s w k /\ a <> w
  | C_set_marketplace_kind k _ => runs_mkt s w k
  | C_set_marketplace_configuration k _ _ _ _ _ => runs_mkt s w k
  | C_list_nft i k p => with_nft s w i (fun d =>
      unengaged d /\ ~ bound_to_owner d /\
      exists m fee, mkts (s_mkt s) !! k = Some m /\ admits m w (collection_id d) /\
        (forall x, m_commission m = Some (Flat x) -> x <= p) /\
        fee_share (m_listing m) p fee /\ can_pay s w [(m_owner m, fee)])
  | C_unlist_nft i => with_nft s w i (fun _ => is_Some (sales (s_mkt s) !! i))
  | C_buy_nft i p => exists d x m com roy rest,
      nfts (s_nft s) !! i = Some d /\ sales (s_mkt s) !! i = Some x /\
      mkts (s_mkt s) !! sale_mkt x = Some m /\
      sale_seller x <> w /\ sale_price x = p /\ p <= free (s_bal s) w /\
      division (sale_commission x) d p com roy rest /\
      can_pay s w [(m_owner m, com); (creator d, roy); (sale_seller x, rest)]
  | _ => False
  end.

(** * auction *)

(** The calls of pallet auction. *)
Definition is_auc_call (c : call) : Prop :=
  match c with
  | C_create_auction _ _ _ _ _ _ | C_cancel_auction _ | C_end_auction _ | C_add_bid _ _ | C_remove_bid _
  | C_buy_it_now _ _ | C_claim => True
  | _ => False
  end.

(** The standing bid of [w] in auction [a], zero if there is none. *)
Definition standing_bid (a : auction) (w x : N) : Prop :=
  (w, x) ∈ a_bidders a \/ ((forall y, (w, y) ∉ a_bidders a) /\ x = 0).

Definition auc_rule (s : state) (w : N) (c : call) : Prop :=
  match c with
  | C_create_auction i k st e sp bi =>
      s_now s <= st < e /\ min_auction_duration <= e - st <= max_auction_duration /\
      st <= s_now s + max_auction_delay /\ (forall p, bi = Some p -> sp < p) /\
      nlen (deadlines (s_auc s)) < parallel_auctions /\
      with_nft s w i (fun d => unengaged d /\ ~ bound_to_owner d /\
        exists m, mkts (s_mkt s) !! k = Some m /\ admits m w (collection_id d) /\
          forall x, m_commission m = Some (Flat x) -> x <= sp)
  | C_cancel_auction i => exists a, auctions (s_auc s) !! i = Some a /\ a_creator a = w /\ s_now s < a_start a
  | C_end_auction i => exists d a l v x m f com roy rest,
      nfts (s_nft s) !! i = Some d /\ auctions (s_auc s) !! i = Some a /\
      a_creator a = w /\ a_extended a = true /\ a_bidders a = l ++ [(v, x)] /\
      mkts (s_mkt s) !! a_mkt a = Some m /\ commissions (s_auc s) !! i = Some f /\
      division f d x com roy rest /\
      pot_can_pay s auction_pot [(m_owner m, com); (creator d, roy); (w, rest)]
  | C_add_bid i y => exists a x, auctions (s_auc s) !! i = Some a /\ a_creator a <> w /\
      a_start a <= s_now s /\ auction_ed < y /\ a_start_price a < y /\
      (forall v z, (v, z) ∈ a_bidders a -> z < y) /\
      standing_bid a w x /\ can_pay s w [(auction_pot, y - x)]
  | C_remove_bid i => exists a x, auctions (s_auc s) !! i = Some a /\ (w, x) ∈ a_bidders a /\
      s_now s + ending_period < a_end a /\ x <= free (s_bal s) auction_pot
  | C_buy_it_now i p => exists d a m f com roy rest,
      nfts (s_nft s) !! i = Some d /\ auctions (s_auc s) !! i = Some a /\
      a_buy_it a = Some p /\ a_creator a <> w /\ a_start a <= s_now s /\
      (forall v z, (v, z) ∈ a_bidders a -> z < p) /\
      mkts (s_mkt s) !! a_mkt a = Some m /\ commissions (s_auc s) !! i = Some f /\
      division f d p com roy rest /\
      can_pay s w [(m_owner m, com); (creator d, roy); (a_creator a, rest)]
  | C_claim => exists x, claims (s_auc s) !! w = Some x /\ x <= free (s_bal s) auction_pot
  | _ => False
  end.

(** * rent *)

(** The calls of pallet rent. *)
Definition is_rent_call (c : call) : Prop :=
  match c with
  | C_create_contract _ _ _ _ _ _ _ | C_cancel_contract _ | C_revoke_contract _ | C_rent _ _
  | C_make_rent_offer _ _ | C_accept_rent_offer _ _ | C_retract_rent_offer _
  | C_change_subscription_terms _ _ _ _ _ | C_accept_subscription_terms _ _ _ _ _ => True
  | _ => False
  end.

(** An NFT that may be rented out or given in payment: not engaged and not soulbound. *)
Definition lendable (d : nft_data) : Prop := unengaged d /\ is_soulbound (nstate d) = false.

(** Period and total length of the duration asked for, and whether it is a subscription. *)
Definition period_in (di : duration_input) : N := match di with FixedIn n => n | SubscriptionIn p _ _ => p end.
Definition total_in (di : duration_input) : N :=
  match di with FixedIn n => n | SubscriptionIn _ m _ => default duration_limit m end.
Definition sub_in (di : duration_input) : Prop := match di with FixedIn _ => False | SubscriptionIn _ _ _ => True end.

(** A length the pallet accepts. *)
Definition good_length (n : N) : Prop := 0 < n <= duration_limit.
(** A deposit large enough to be kept by the pot. *)
Definition good_deposit (f : cancel_fee) : Prop := token_deposit f = 0 \/ rent_ed < token_deposit f.

(** [w] is on the list of those who may rent contract [c], if it has one. *)
Definition invited (c : contract) (w : N) : Prop :=
  forall l, r_acceptance c = AutoAcceptance (Some l) \/ r_acceptance c = ManualAcceptance (Some l) -> w ∈ l.
Definition automatic (c : contract) : Prop := exists l, r_acceptance c = AutoAcceptance l.
Definition manual (c : contract) : Prop := exists l, r_acceptance c = ManualAcceptance l.

(** [w] owns the NFTs asked for by contract [c], and may give them away. *)
Definition has_rent_nfts (s : state) (w : N) (c : contract) : Prop :=
  (forall j, r_rent_fee c = RentNFT j -> with_nft s w j lendable) /\
  (forall j, r_rentee_cf c = FeeNFT j -> with_nft s w j lendable).
(** [w] can pay what it takes to start contract [c]. *)
Definition can_start (s : state) (w : N) (c : contract) : Prop :=
  can_pay s w [(r_renter c, token_fee (r_rent_fee c)); (rent_pot, token_deposit (r_rentee_cf c))] /\
  has_rent_nfts s w c.
(** [w] has [x] that is not locked. *)
Definition has_unlocked (s : state) (w x : N) : Prop := x = 0 \/ x + frozen (s_bal s) w <= free (s_bal s) w.

Definition rent_rule (s : state) (w : N) (c : call) : Prop :=
  match c with
  | C_create_contract i di _ _ fee cf1 cf2 =>
      nlen (q_fixed (queues (s_rent s))) + nlen (q_sub (queues (s_rent s))) + nlen (q_avail (queues (s_rent s))) < rent_limit /\
      with_nft s w i lendable /\ good_length (total_in di) /\ good_length (period_in di) /\
      (sub_in di -> (forall j, fee <> RentNFT j) /\ forall x, cf1 <> FlexibleTokens x /\ cf2 <> FlexibleTokens x) /\
      (forall j, fee = RentNFT j \/ cf2 = FeeNFT j -> is_Some (nfts (s_nft s) !! j)) /\
      good_deposit cf1 /\ good_deposit cf2 /\ affords s w (token_deposit cf1) /\
      (forall j, cf1 = FeeNFT j -> with_nft s w j lendable)
  | C_cancel_contract i => exists c, contracts (s_rent s) !! i = Some c /\ r_renter c = w /\ r_rentee c = None /\
      token_deposit (r_renter_cf c) <= free (s_bal s) rent_pot
  | C_revoke_contract i => exists c other own theirs x, contracts (s_rent s) !! i = Some c /\
      revokes c w other own theirs /\ kept_share c (s_now s) own x /\
      pot_can_pay s rent_pot [(other, token_deposit theirs); (w, x); (other, token_deposit own - x)]
  | C_rent i b => exists c, contracts (s_rent s) !! i = Some c /\ r_creation c = b /\ r_rentee c = None /\
      r_renter c <> w /\ automatic c /\ invited c w /\ can_start s w c
  | C_make_rent_offer i b => exists c, contracts (s_rent s) !! i = Some c /\ r_creation c = b /\ r_rentee c = None /\
      r_renter c <> w /\ manual c /\ invited c w /\ ~ offered s i w /\
      nlen (default [] (offers (s_rent s) !! i)) < rent_accounts_limit /\ has_rent_nfts s w c /\
      has_unlocked s w (token_fee (r_rent_fee c)) /\ has_unlocked s w (token_deposit (r_rentee_cf c)) /\
      has_unlocked s w ((token_fee (r_rent_fee c) + token_deposit (r_rentee_cf c)) mod (u128_max + 1))
  | C_accept_rent_offer i t => exists c, contracts (s_rent s) !! i = Some c /\ r_renter c = w /\
      offered s i t /\ can_start s t c
  | C_retract_rent_offer i => offered s i w
  | C_change_subscription_terms i _ p md _ => exists c, contracts (s_rent s) !! i = Some c /\ r_renter c = w /\
      changeable (r_duration c) /\ good_length (default duration_limit md) /\ good_length p
  | C_accept_subscription_terms i fee p md ch => exists c x, contracts (s_rent s) !! i = Some c /\
      r_rentee c = Some w /\ r_duration c = Subscription x /\ new_terms x = true /\
      r_rent_fee c = RentTokens fee /\ period_length x = p /\ (forall m, md = Some m -> max_duration x = m) /\
      is_changeable x = ch
  | _ => False
  end.

(** * transmission *)

(** The calls of pallet transmission-protocols. *)
Definition is_trans_call (c : call) : Prop :=
  match c with
  | C_set_transmission_protocol _ _ _ _ | C_remove_transmission_protocol _ | C_reset_timer _ _
  | C_add_consent _ | C_set_protocol_fee _ _ => True
  | _ => False
  end.

(** Block [b] lies ahead, and not too far (the distance saturates at 32 bits). *)
Definition in_time (s : state) (b : N) : Prop :=
  s_now s < b /\ N.min (b - s_now s) u32_max <= max_block_duration.
(** The published fee for a protocol. *)
Definition fee_for (s : state) (p : protocol) : N :=
  match p with
  | AtBlock _ => fee_at_block (s_trans s)
  | AtBlockWithReset _ => fee_at_block_reset (s_trans s)
  | OnConsent _ _ => fee_on_consent (s_trans s)
  | OnConsentAtBlock _ _ _ => fee_on_consent_at_block (s_trans s)
  end.
(** Who consented so far. *)
Definition consents_of (s : state) (i : N) : list N := default [] (consents (s_trans s) !! i).

Definition trans_rule (s : state) (w : N) (c : call) : Prop :=
  match c with
  | C_set_transmission_protocol i r p cn =>
      with_nft s w i (fun d => r <> w /\ unengaged d /\ ~ bound_to_owner d) /\
      (forall b, cn = UntilBlock b -> s_now s < b) /\
      (forall b, block_of p = Some b -> in_time s b) /\
      (forall l k, asks p l k -> NoDup l /\ 0 < k <= consent_limit /\ k <= nlen l) /\
      (forall b, timed p b -> nlen (t_queue (s_trans s)) < trans_limit) /\
      affords s w (fee_for s p)
  | C_remove_transmission_protocol i =>
      with_nft s w i (fun _ => exists t, under s i t /\ may_cancel (t_cancellation t) (s_now s))
  | C_reset_timer i b =>
      with_nft s w i (fun _ => exists t b0, under s i t /\ t_protocol t = AtBlockWithReset b0) /\ in_time s b
  | C_add_consent i => exists t l k, under s i t /\ asks (t_protocol t) l k /\ w ∈ l /\
      w ∉ consents_of s i /\ nlen (consents_of s i) < consent_limit /\
      (forall b, block_of (t_protocol t) = Some b -> forall b', ~ waits s i b') /\
      (forall b, block_of (t_protocol t) = Some b -> s_now s < b -> k <= nlen (consents_of s i) + 1 ->
        nlen (t_queue (s_trans s)) < trans_limit)
  | _ => False
  end.

(** * tee *)

(** The calls of pallet tee that are signed by an operator or a metrics server. *)
Definition is_tee_call (c : call) : Prop :=
  match c with
  | C_register_enclave _ _ | C_unregister_enclave | C_update_enclave _ _ | C_cancel_update
  | C_withdraw_unbonded | C_submit_metrics_server_report _ _ | C_claim_rewards _
  | C_bond_extra | C_refund_excess => True
  | _ => False
  end.

(** No operator uses, or used and never gave back, this enclave address. *)
Definition free_address (s : state) (a : N) : Prop := addr_op (s_tee s) !! a = None.
(** [y] is [p] billionths of [x], rounded to the nearest integer, halves down. *)
Definition billion_share (p x y : N) : Prop :=
  2 * 1000000000 * y < 2 * (x * p) + 1000000000 /\ 2 * (x * p) <= 2 * 1000000000 * y + 1000000000.
(** The reward [x] of operator [w] for era [e]: the pool is divided evenly among the operators
    (the fraction rounded down to billionths); if there are reports, the best score counts. *)
Definition reward (s : state) (w e x : N) : Prop :=
  exists share, billion_share (1000000000 / operators s) (reward_pool (s_tee s)) share /\
    match reports (s_tee s) !! (e, w) with
    | None => x = share
    | Some l => exists p, score (weights (s_tee s)) l p /\ billion_share (100000 * p) share x
    end.

Definition tee_rule (s : state) (w : N) (c : call) : Prop :=
  match c with
  | C_register_enclave a u => u <> [] /\ a <> w /\ ~ waiting s w /\ ~ assigned s w /\ free_address s a /\
      ledgers (s_tee s) !! w = None /\ has_unlocked s w (staking_amount (s_tee s))
  | C_unregister_enclave =>
      waiting s w \/ (assigned s w /\ ~ leaving s w /\ nlen (unregs (s_tee s)) < list_limit)
  | C_update_enclave a u => u <> [] /\ a <> w /\ assigned s w /\ ~ updating s w /\
      (enclave_at s w a \/ free_address s a)
  | C_cancel_update => updating s w
  | C_withdraw_unbonded => exists b, unbonding s w b /\ bonding_duration <= N.min (s_now s - b) u32_max
  | C_submit_metrics_server_report op r => public_server s w /\ assigned s op /\
      exists active, s_era s = Some active /\
        (rp_submitted_by r ∈ map rp_submitted_by (reports_of s (active - 1) op) \/
         nlen (reports_of s (active - 1) op) < list_limit)
  | C_claim_rewards e => assigned s w /\ claimed (s_tee s) !! (e, w) = None /\
      exists active since x, s_era s = Some active /\ assigned_era (s_tee s) !! w = Some since /\
        since <= e /\ 0 < e /\ e + 2 < active /\ active < e + history_depth /\
        reward s w e x /\ pot_can_pay s tee_pot [(w, x)]
  | C_bond_extra => exists n, staked s w = Some n /\ n < staking_amount (s_tee s) /\
      has_unlocked s w (staking_amount (s_tee s) - n)
  | C_refund_excess => exists n, staked s w = Some n /\ staking_amount (s_tee s) < n
  | _ => False
  end.

(** * bridge *)

(** The calls of pallet bridge that are signed by an account. *)
Definition is_bridge_call (c : call) : Prop :=
  match c with C_vote_for_proposal _ _ _ _ | C_deposit _ _ _ => True | _ => False end.

(** Chain [c] is on the list of chains. *)
Definition known_chain (s : state) (c : N) : Prop := is_Some (nonces (s_brg s) !! c).

(** A deposit may empty the account, unless something is locked in it. *)
Definition bridge_rule (s : state) (w : N) (c : call) : Prop :=
  match c with
  | C_vote_for_proposal ch n r m => w ∈ relayers (s_brg s) /\ known_chain s ch /\ 0 < relayer_limit /\
      (forall p, proposed s ch n r m p -> p_status p = Initiated /\ s_now s < p_expiry p /\
         w ∉ p_votes p /\ nlen (p_votes p) < relayer_limit)
  | C_deposit m _ ch => known_chain s ch /\ affords s w (bridge_fee (s_brg s)) /\
      (m = 0 \/ (bridge_fee (s_brg s) + m <= free (s_bal s) w /\
        (frozen (s_bal s) w = 0 \/ bridge_fee (s_brg s) + m + N.max ed (frozen (s_bal s) w) <= free (s_bal s) w)))
  | _ => False
  end.

(** * administration *)

(** Calls of root. *)
Definition root_rule (s : state) (c : call) : Prop :=
  match c with
  | C_assign_enclave op k _ => exists r l, regs (s_tee s) !! op = Some r /\ cluster_ops s k = Some l /\
      nlen l < cluster_size /\ free_address s (e_addr r) /\ is_Some (s_era s)
  | C_remove_registration op => waiting s op
  | C_reject_update op => updating s op
  | C_approve_enclave_unregistration op => leaving s op
  | C_force_remove_enclave op => assigned s op /\ is_Some (staked s op)
  | C_approve_update_enclave op => exists u, updates (s_tee s) !! op = Some u /\ e_uri u <> [] /\ e_addr u <> op /\
      (enclave_at s op (e_addr u) \/ free_address s (e_addr u))
  | C_force_update_enclave op a u => assigned s op /\ (a <> None \/ u <> None) /\ u <> Some [] /\
      forall x, a = Some x -> x <> op /\ (enclave_at s op x \/ free_address s x)
  | C_create_cluster _ => next_cluster (s_tee s) < u32_max
  | C_update_cluster k _ => exists_cluster s k
  | C_remove_cluster k => cluster_ops s k = Some []
  | C_register_metrics_server a _ => a ∉ (servers (s_tee s)).*1 /\ nlen (servers (s_tee s)) < list_limit
  | C_unregister_metrics_server a | C_force_update_metrics_server_type a _ => a ∈ (servers (s_tee s)).*1
  | C_update_operator_assigned_era op _ => assigned s op
  | C_set_nft_mint_fee _ | C_set_secret_nft_mint_fee _ | C_set_capsule_mint_fee _ | C_set_marketplace_mint_fee _
  | C_set_protocol_fee _ _ | C_set_report_params_weightage _ | C_set_staking_amount _ | C_set_daily_reward_pool _ => True
  | _ => False
  end.

(** Calls of the external origin. *)
Definition external_rule (s : state) (c : call) : Prop :=
  match c with
  | C_set_threshold n => 0 < n
  | C_add_chain k => k <> own_chain /\ ~ known_chain s k
  | C_set_deposit_nonce k n => exists m, nonces (s_brg s) !! k = Some m /\ m < n
  | C_set_relayers _ | C_set_bridge_fee _ | C_set_session_extra_reward_payout _ | C_mandate _ => True
  | _ => False
  end.

End rules.
