(** Property theorems: NFTs, collections, secrets and capsules, fixed price sales,
    marketplaces. *)
From Verif Require Import Spec NftFacts NftFacts2 MktFacts Demo.
Local Open Scope N_scope.

Section props.
Context {C : Config}.

(** C01: an NFT has at most one of the six engagements. *)
Theorem C01_one_engagement s i d :
  reachable s -> nfts (s_nft s) !! i = Some d ->
  (count_occ Bool.bool_dec (engagement_flags d) true <= 1)%nat.
Proof. exact (fact_one s i d). Qed.

(** C02: the flags say exactly which registries have an entry for the NFT. *)
Theorem C02_flags_match_registries s i d :
  reachable s -> nfts (s_nft s) !! i = Some d ->
  (is_listed (nstate d) = true <-> is_Some (sales (s_mkt s) !! i) \/ is_Some (auctions (s_auc s) !! i)) /\
  (is_Some (sales (s_mkt s) !! i) -> auctions (s_auc s) !! i = None) /\
  (is_rented (nstate d) = true <-> is_Some (contracts (s_rent s) !! i)) /\
  (is_transmission (nstate d) = true <-> is_Some (transs (s_trans s) !! i)) /\
  (is_delegated (nstate d) = true <-> is_Some (delegated (s_nft s) !! i)).
Proof. exact (fact_flags s i d). Qed.
Theorem C02_no_entry_without_nft s i :
  reachable s -> nfts (s_nft s) !! i = None ->
  sales (s_mkt s) !! i = None /\ auctions (s_auc s) !! i = None /\ contracts (s_rent s) !! i = None /\
  transs (s_trans s) !! i = None /\ delegated (s_nft s) !! i = None /\
  secret_data (s_nft s) !! i = None /\ capsule_data (s_nft s) !! i = None /\
  secret_shards (s_nft s) !! i = None /\ capsule_shards (s_nft s) !! i = None.
Proof. exact (fact_none s i). Qed.

(** C03: collections and NFTs refer to each other exactly. *)
Theorem C03_collections_cross_reference s :
  reachable s ->
  (forall i k, (exists d, nfts (s_nft s) !! i = Some d /\ collection_id d = Some k) <->
     (exists c, colls (s_nft s) !! k = Some c /\ i ∈ c_nfts c)) /\
  (forall k c, colls (s_nft s) !! k = Some c -> NoDup (c_nfts c)).
Proof. exact (fact_coll s). Qed.

(** C04: collection sizes respect both limits. *)
Theorem C04_collection_limits s k c :
  reachable s -> colls (s_nft s) !! k = Some c ->
  nlen (c_nfts c) <= coll_size_limit /\
  forall l, c_limit c = Some l -> nlen (c_nfts c) <= l /\ l <= coll_size_limit.
Proof. exact (fact_coll_limit s k c). Qed.

(** C05: a closed collection stays closed and gains no member; a limit never changes. *)
Theorem C05_closed_and_limited_forever s s' k c c' :
  reachable s -> later s s' -> colls (s_nft s) !! k = Some c -> colls (s_nft s') !! k = Some c' ->
  (c_closed c = true -> c_closed c' = true /\ forall i, i ∈ c_nfts c' -> i ∈ c_nfts c) /\
  (forall l, c_limit c = Some l -> c_limit c' = Some l).
Proof. exact (fact_closed s s' k c c'). Qed.

(** C06: what existed once and is gone never exists again; every new id is above all ids
    that ever existed before. *)
Theorem C06_ids_never_reused s0 s1 s2 :
  reachable s0 -> later s0 s1 -> later s1 s2 ->
  (forall i, is_Some (nfts (s_nft s0) !! i) -> nfts (s_nft s1) !! i = None -> nfts (s_nft s2) !! i = None) /\
  (forall k, is_Some (colls (s_nft s0) !! k) -> colls (s_nft s1) !! k = None -> colls (s_nft s2) !! k = None).
Proof. exact (fact_gone s0 s1 s2). Qed.
Theorem C06_new_nft_ids_increase s0 s o c s' :
  reachable s0 -> later s0 s -> mint_args c <> None -> dispatch o c s = (Ok tt, s') ->
  exists i d, nfts (s_nft s) !! i = None /\ nfts (s_nft s') !! i = Some d /\
    (forall j, is_Some (nfts (s_nft s0) !! j) -> j < i).
Proof. exact (fact_mint s0 s o c s'). Qed.
Theorem C06_new_collection_ids_increase s0 s who data limit s' :
  reachable s0 -> later s0 s -> dispatch (Signed who) (C_create_collection data limit) s = (Ok tt, s') ->
  exists k c, colls (s_nft s) !! k = None /\ colls (s_nft s') !! k = Some c /\
    c_owner c = who /\ c_nfts c = [] /\ c_limit c = limit /\ c_closed c = false /\
    (forall j, is_Some (colls (s_nft s0) !! j) -> j < k).
Proof. exact (fact_new_coll s0 s who data limit s'). Qed.

(** C07: what never changes, and who changes the royalty. *)
Theorem C07_immutable_attributes s s' i d d' :
  reachable s -> later s s' -> nfts (s_nft s) !! i = Some d -> nfts (s_nft s') !! i = Some d' ->
  creator d' = creator d /\ offchain_data d' = offchain_data d /\
  is_soulbound (nstate d') = is_soulbound (nstate d) /\
  (forall k, collection_id d = Some k -> collection_id d' = Some k).
Proof. exact (fact_record_later s s' i d d'). Qed.
Theorem C07_royalty_set_by_creator_owner s a i d d' :
  reachable s -> nfts (s_nft s) !! i = Some d -> nfts (s_nft (step s a)) !! i = Some d' ->
  royalty d' <> royalty d ->
  creator d = owner d /\ a = Extrinsic (Signed (owner d)) (C_set_royalty i (royalty d')) /\
  fst (dispatch (Signed (owner d)) (C_set_royalty i (royalty d')) s) = Ok tt.
Proof. intros Hs Hd Hd'. exact (proj2 (proj2 (proj2 (proj2 (fact_record s a i d d' Hs Hd Hd'))))). Qed.

(** C08: the ways an NFT changes hands. *)
Theorem C08_moves_are_authorised s a i d d' :
  reachable s -> nfts (s_nft s) !! i = Some d -> nfts (s_nft (step s a)) !! i = Some d' ->
  owner d' <> owner d -> moved_by s a i (owner d) (owner d').
Proof. exact (fact_moved s a i d d'). Qed.
Theorem C08_free_nft_moves_by_owner s a i d d' :
  reachable s -> nfts (s_nft s) !! i = Some d -> unengaged d -> owner d ∉ pots ->
  nfts (s_nft (step s a)) !! i = Some d' -> owner d' <> owner d ->
  (exists c, a = Extrinsic (Signed (owner d)) c) \/
  (exists id k l, a = Extrinsic (Signed (r_renter k)) (C_accept_rent_offer id (owner d)) /\
     contracts (s_rent s) !! id = Some k /\ offers (s_rent s) !! id = Some l /\ owner d ∈ l).
Proof. exact (fact_free s a i d d'). Qed.

(** C09: a soulbound NFT held by somebody else than its creator never moves again. *)
Theorem C09_soulbound_never_moves s s' i d d' :
  reachable s -> later s s' -> nfts (s_nft s) !! i = Some d -> bound_to_owner d ->
  nfts (s_nft s') !! i = Some d' -> owner d' = owner d.
Proof. exact (bound_stable s s' i d d'). Qed.

(** C10: a minting call takes exactly the published fees. The collector gets all of it
    unless its account is dead and cannot be created with a single fee. *)
Theorem C10_minting_costs_the_published_fee s who c l s' :
  reachable s -> published_fees s c = Some l -> dispatch (Signed who) c s = (Ok tt, s') ->
  let f := sum_of l in
  (forall a, fees_collector <> Some a -> free (s_bal s') a + at_acc who a f = free (s_bal s) a) /\
  (forall k, fees_collector = Some k ->
     free (s_bal s) k <> 0 \/ Forall (fun x => x = 0 \/ ed <= x) l ->
     free (s_bal s') k + at_acc who k f = free (s_bal s) k + f) /\
  (fees_collector = None -> issuance (s_bal s') + f = issuance (s_bal s)) /\
  (free (s_bal s) who <> 0 -> ed <= free (s_bal s') who).
Proof. exact (fact_mint_fee s who c l s'). Qed.

(** C11: recorded shards; what ends the synchronisation; what always ends it. *)
Theorem C11_shard_records s i :
  reachable s ->
  (forall l, secret_shards (s_nft s) !! i = Some l \/ capsule_shards (s_nft s) !! i = Some l ->
     l <> [] /\ nlen l < shards_number /\ NoDup (map snd l) /\ exists cl, Forall (fun x => fst x = cl) l) /\
  (is_Some (secret_shards (s_nft s) !! i) -> exists d, nfts (s_nft s) !! i = Some d /\ is_syncing_secret (nstate d) = true) /\
  (is_Some (capsule_shards (s_nft s) !! i) -> exists d, nfts (s_nft s) !! i = Some d /\ is_syncing_capsule (nstate d) = true).
Proof. exact (fact_shards s i). Qed.
Theorem C11_sync_ends_only_with_the_last_shard s a i d d' :
  reachable s -> nfts (s_nft s) !! i = Some d -> nfts (s_nft (step s a)) !! i = Some d' ->
  (is_syncing_secret (nstate d) = true -> is_syncing_secret (nstate d') = false ->
   exists addr, a = Extrinsic (Signed addr) (C_add_secret_shard i) /\
     fst (dispatch (Signed addr) (C_add_secret_shard i) s) = Ok tt /\
     completes_shards s (default [] (secret_shards (s_nft s) !! i)) addr) /\
  (is_syncing_capsule (nstate d) = true -> is_syncing_capsule (nstate d') = false ->
   exists addr, a = Extrinsic (Signed addr) (C_add_capsule_shard i) /\
     fst (dispatch (Signed addr) (C_add_capsule_shard i) s) = Ok tt /\
     completes_shards s (default [] (capsule_shards (s_nft s) !! i)) addr).
Proof. exact (fact_sync_end s a i d d'). Qed.
Theorem C11_last_shard_ends_sync s i d addr :
  reachable s -> nfts (s_nft s) !! i = Some d ->
  (is_syncing_secret (nstate d) = true -> completes_shards s (default [] (secret_shards (s_nft s) !! i)) addr ->
   exists s' d', dispatch (Signed addr) (C_add_secret_shard i) s = (Ok tt, s') /\
     nfts (s_nft s') !! i = Some d' /\ is_syncing_secret (nstate d') = false /\ secret_shards (s_nft s') !! i = None) /\
  (is_syncing_capsule (nstate d) = true -> completes_shards s (default [] (capsule_shards (s_nft s) !! i)) addr ->
   exists s' d', dispatch (Signed addr) (C_add_capsule_shard i) s = (Ok tt, s') /\
     nfts (s_nft s') !! i = Some d' /\ is_syncing_capsule (nstate d') = false /\ capsule_shards (s_nft s') !! i = None).
Proof. exact (fact_last_shard s i d addr). Qed.

(** C12: a burned NFT leaves no trace. *)
Theorem C12_burn_leaves_no_trace s o i s' :
  reachable s -> action_ok (Extrinsic o (C_burn_nft i)) -> dispatch o (C_burn_nft i) s = (Ok tt, s') ->
  nfts (s_nft s') !! i = None /\ (forall k c, colls (s_nft s') !! k = Some c -> i ∉ c_nfts c) /\
  delegated (s_nft s') !! i = None /\ secret_data (s_nft s') !! i = None /\ capsule_data (s_nft s') !! i = None /\
  secret_shards (s_nft s') !! i = None /\ capsule_shards (s_nft s') !! i = None /\
  sales (s_mkt s') !! i = None /\ auctions (s_auc s') !! i = None /\ contracts (s_rent s') !! i = None /\
  transs (s_trans s') !! i = None.
Proof. exact (fact_burn s o i s'). Qed.

(** C13: exactly when a transfer succeeds (NFT ids are 32 bit), and its only effect. *)
Theorem C13_transfer_rule s who i r :
  i <= u32_max ->
  (exists s', dispatch (Signed who) (C_transfer_nft i r) s = (Ok tt, s')) <->
  (exists d, nfts (s_nft s) !! i = Some d /\ owner d = who /\ r <> who /\ unengaged d /\ ~ bound_to_owner d).
Proof. exact (fact_transfer s who i r). Qed.
Theorem C13_transfer_effect s who i r s' :
  dispatch (Signed who) (C_transfer_nft i r) s = (Ok tt, s') ->
  exists d, nfts (s_nft s) !! i = Some d /\ nfts (s_nft s') = <[i := d <| owner := r |>]> (nfts (s_nft s)) /\
    only_nfts_differ s s'.
Proof. exact (fact_transfer_effect s who i r s'). Qed.

(** C14: secret and capsule data accompany the flags. *)
Theorem C14_offchain_data_accompanies_flags s i :
  reachable s ->
  match nfts (s_nft s) !! i with
  | Some d =>
     (is_Some (secret_data (s_nft s) !! i) <-> is_secret (nstate d) = true \/ is_syncing_secret (nstate d) = true) /\
     (is_Some (capsule_data (s_nft s) !! i) <-> is_capsule (nstate d) = true \/ is_syncing_capsule (nstate d) = true)
  | None => secret_data (s_nft s) !! i = None /\ capsule_data (s_nft s) !! i = None
  end.
Proof. exact (fact_data s i). Qed.

(** C15: buying splits the price exactly. *)
Theorem C15_buying_splits_the_price s who i p s' :
  dispatch (Signed who) (C_buy_nft i p) s = (Ok tt, s') ->
  exists d d' x m com roy rest,
    nfts (s_nft s) !! i = Some d /\ sales (s_mkt s) !! i = Some x /\ mkts (s_mkt s) !! sale_mkt x = Some m /\
    sale_price x = p /\ com + roy + rest = p /\
    fee_share (sale_commission x) p com /\ permill_share (royalty d) (p - com) roy /\
    (forall a, free (s_bal s') a + at_acc who a p =
       free (s_bal s) a + at_acc (m_owner m) a com + at_acc (creator d) a roy + at_acc (sale_seller x) a rest) /\
    issuance (s_bal s') = issuance (s_bal s) /\
    nfts (s_nft s') = <[i := d']> (nfts (s_nft s)) /\
    d' = d <| owner := who |> <| nstate ::= fun st => st <| is_listed := false |> |> /\
    sales (s_mkt s') = delete i (sales (s_mkt s)).
Proof. exact (fact_buy s who i p s'). Qed.

(** C16: what a successful listing needs and does; without a listing fee the conditions are
    also sufficient. *)
Theorem C16_listing_needs s who i k p s' :
  dispatch (Signed who) (C_list_nft i k p) s = (Ok tt, s') ->
  exists d d' m fee, nfts (s_nft s) !! i = Some d /\ mkts (s_mkt s) !! k = Some m /\
    owner d = who /\ unengaged d /\ ~ bound_to_owner d /\ admits m who (collection_id d) /\
    (forall x, m_commission m = Some (Flat x) -> x <= p) /\
    fee_share (m_listing m) p fee /\
    (forall a, free (s_bal s') a + at_acc who a fee = free (s_bal s) a + at_acc (m_owner m) a fee) /\
    sales (s_mkt s') = <[i := mkSale who k p (m_commission m)]> (sales (s_mkt s)) /\
    nfts (s_nft s') = <[i := d']> (nfts (s_nft s)) /\ d' = d <| nstate ::= fun st => st <| is_listed := true |> |>.
Proof. exact (fact_list s who i k p s'). Qed.
Theorem C16_listing_suffices s who i k p d m :
  i <= u32_max -> k <= u32_max -> p <= u128_max ->
  nfts (s_nft s) !! i = Some d -> mkts (s_mkt s) !! k = Some m -> m_listing m = None ->
  owner d = who -> unengaged d -> ~ bound_to_owner d -> admits m who (collection_id d) ->
  (forall x, m_commission m = Some (Flat x) -> x <= p) ->
  exists s', dispatch (Signed who) (C_list_nft i k p) s = (Ok tt, s').
Proof. exact (fact_list_ok s who i k p d m). Qed.

(** C17: sale records are truthful, and stay until the NFT is sold or unlisted. *)
Theorem C17_sale_records_truthful s i x :
  reachable s -> sales (s_mkt s) !! i = Some x ->
  owner_of s i = Some (sale_seller x) /\ is_Some (mkts (s_mkt s) !! sale_mkt x) /\
  forall com, fee_share (sale_commission x) (sale_price x) com -> com <= sale_price x.
Proof. exact (fact_sale s i x). Qed.
Theorem C17_sale_records_stay s a i x :
  reachable s -> sales (s_mkt s) !! i = Some x ->
  sales (s_mkt (step s a)) !! i = Some x \/
  (sales (s_mkt (step s a)) !! i = None /\
   exists who, fst (dispatch (Signed who) (C_unlist_nft i) s) = Ok tt /\ a = Extrinsic (Signed who) (C_unlist_nft i) \/
     exists p, fst (dispatch (Signed who) (C_buy_nft i p) s) = Ok tt /\ a = Extrinsic (Signed who) (C_buy_nft i p)).
Proof. exact (fact_sale_step s a i x). Qed.

(** C18: the owner of an NFT on sale can always take it back. *)
Theorem C18_owner_can_unlist s i d :
  reachable s -> nfts (s_nft s) !! i = Some d -> is_Some (sales (s_mkt s) !! i) ->
  exists s' d', dispatch (Signed (owner d)) (C_unlist_nft i) s = (Ok tt, s') /\
    sales (s_mkt s') = delete i (sales (s_mkt s)) /\ s_bal s' = s_bal s /\
    nfts (s_nft s') = <[i := d']> (nfts (s_nft s)) /\ owner d' = owner d /\ unengaged d'.
Proof. exact (fact_unlist s i d). Qed.

(** C19: only its owner changes a marketplace, and only as asked; it never vanishes. *)
Theorem C19_marketplace_changed_by_owner_only s a k m :
  reachable s -> mkts (s_mkt s) !! k = Some m ->
  exists m', mkts (s_mkt (step s a)) !! k = Some m' /\
    (m' = m \/ exists c, a = Extrinsic (Signed (m_owner m)) c /\ fst (dispatch (Signed (m_owner m)) c s) = Ok tt /\
       match c with
       | C_set_marketplace_owner k' r => k' = k /\ m' = m <| m_owner := r |>
       | C_set_marketplace_kind k' kd => k' = k /\ m' = m <| m_kind := kd |>
       | C_set_marketplace_configuration k' f1 f2 acc d co => k' = k /\
           m_owner m' = m_owner m /\ m_kind m' = m_kind m /\
           field_after f1 (m_commission m) (m_commission m') /\ field_after f2 (m_listing m) (m_listing m') /\
           field_after acc (m_accounts m) (m_accounts m') /\ field_after d (m_offchain m) (m_offchain m') /\
           field_after co (m_collections m) (m_collections m')
       | _ => False
       end).
Proof. exact (fact_mkt s a k m). Qed.
Theorem C19_marketplaces_never_vanish s s' k m :
  reachable s -> later s s' -> mkts (s_mkt s) !! k = Some m -> is_Some (mkts (s_mkt s') !! k).
Proof. exact (fact_mkt_later s s' k m). Qed.

End props.

Print Assumptions C01_one_engagement.
Print Assumptions C02_flags_match_registries.
Print Assumptions C02_no_entry_without_nft.
Print Assumptions C03_collections_cross_reference.
Print Assumptions C04_collection_limits.
Print Assumptions C05_closed_and_limited_forever.
Print Assumptions C06_ids_never_reused.
Print Assumptions C06_new_nft_ids_increase.
Print Assumptions C06_new_collection_ids_increase.
Print Assumptions C07_immutable_attributes.
Print Assumptions C07_royalty_set_by_creator_owner.
Print Assumptions C08_moves_are_authorised.
Print Assumptions C08_free_nft_moves_by_owner.
Print Assumptions C09_soulbound_never_moves.
Print Assumptions C10_minting_costs_the_published_fee.
Print Assumptions C11_shard_records.
Print Assumptions C11_sync_ends_only_with_the_last_shard.
Print Assumptions C11_last_shard_ends_sync.
Print Assumptions C12_burn_leaves_no_trace.
Print Assumptions C13_transfer_rule.
Print Assumptions C13_transfer_effect.
Print Assumptions C14_offchain_data_accompanies_flags.
Print Assumptions C15_buying_splits_the_price.
Print Assumptions C16_listing_needs.
Print Assumptions C16_listing_suffices.
Print Assumptions C17_sale_records_truthful.
Print Assumptions C17_sale_records_stay.
Print Assumptions C18_owner_can_unlist.
Print Assumptions C19_marketplace_changed_by_owner_only.
Print Assumptions C19_marketplaces_never_vanish.

(** * Concrete cases

    Every case below is a state reached by an explicit list of actions. *)
Section cases.
Local Existing Instance demo1.
Local Notation by_ w c := (Extrinsic (Signed w) c).
Local Notation root_ c := (Extrinsic Root c).

(** NFT 0 of account 1 (royalty 10%) on sale for 500 in the marketplace 0 of account 5,
    which takes 5%; NFT 1 of account 1 delegated to account 2; NFT 2 free. *)
Definition sale_demo : list action :=
  [by_ 5 (C_create_marketplace Public);
   by_ 5 (C_set_marketplace_configuration 0 (SetTo (Percentage 50000)) Noop Noop Noop Noop);
   by_ 1 (C_create_nft [] 100000 None false); by_ 1 (C_list_nft 0 0 500);
   by_ 1 (C_create_nft [] 0 None false); by_ 1 (C_delegate_nft 1 (Some 2));
   by_ 1 (C_create_nft [] 0 None false)].
Lemma sale_demo_reachable : reachable (demo sale_demo).
Proof. by apply demo_reachable. Qed.

Example C01_C02_case :
  option_map engagement_flags (nfts (s_nft (demo sale_demo)) !! 0) = Some [true; false; false; false; false; false] /\
  option_map engagement_flags (nfts (s_nft (demo sale_demo)) !! 1) = Some [false; true; false; false; false; false] /\
  sales (s_mkt (demo sale_demo)) !! 0 = Some (mkSale 1 0 500 (Some (Percentage 50000))) /\
  delegated (s_nft (demo sale_demo)) !! 1 = Some 2 /\ nfts (s_nft (demo sale_demo)) !! 3 = None.
Proof. vm_compute. auto. Qed.

(** C15, C17, C18: account 2 buys NFT 0: 25 to the marketplace owner, 47 (10% of 475,
    a tie rounded down) to the creator, who is also the seller and gets the rest. *)
Example C15_case :
  exists s', dispatch (Signed 2) (C_buy_nft 0 500) (demo sale_demo) = (Ok tt, s') /\
    owner_of s' 0 = Some 2 /\
    (free (s_bal s') 2, free (s_bal s') 5, free (s_bal s') 1) =
    (free (s_bal (demo sale_demo)) 2 - 500, free (s_bal (demo sale_demo)) 5 + 25, free (s_bal (demo sale_demo)) 1 + 475) /\
    fee_share (Some (Percentage 50000)) 500 25 /\ permill_share 100000 475 47.
Proof. eexists. vm_compute. repeat split; discriminate. Qed.
Example C18_case : fst (dispatch (Signed 1) (C_unlist_nft 0) (demo sale_demo)) = Ok tt.
Proof. vm_compute. auto. Qed.

(** C13: NFT 2 can be transferred, the listed NFT 0 cannot. *)
Example C13_case :
  fst (dispatch (Signed 1) (C_transfer_nft 2 3) (demo sale_demo)) = Ok tt /\
  fst (dispatch (Signed 1) (C_transfer_nft 0 3) (demo sale_demo)) = Err (Nft_err N_CannotTransferListedNFTs).
Proof. vm_compute. auto. Qed.

(** C16: a private marketplace with a listing fee admits account 1 only. *)
Definition private_demo : list action :=
  [by_ 5 (C_create_marketplace Private);
   by_ 5 (C_set_marketplace_configuration 0 (SetTo (Flat 100)) (SetTo (Flat 7)) (SetTo [1]) Noop Noop);
   by_ 1 (C_create_nft [] 0 None false); by_ 2 (C_create_nft [] 0 None false)].
Example C16_case :
  (exists s', dispatch (Signed 1) (C_list_nft 0 0 100) (demo private_demo) = (Ok tt, s') /\
     free (s_bal s') 5 = free (s_bal (demo private_demo)) 5 + 7) /\
  fst (dispatch (Signed 1) (C_list_nft 0 0 99) (demo private_demo)) = Err (Market_err M_PriceCannotCoverMarketplaceFee) /\
  fst (dispatch (Signed 2) (C_list_nft 1 0 100) (demo private_demo)) = Err (Market_err M_NotAllowedToList).
Proof. split; [eexists|]; vm_compute; auto. Qed.
Example C16_case_no_fee :
  exists d m, nfts (s_nft (demo sale_demo)) !! 2 = Some d /\ mkts (s_mkt (demo sale_demo)) !! 0 = Some m /\ m_listing m = None /\
    owner d = 1 /\ unengaged d /\ ~ bound_to_owner d /\ admits m 1 (collection_id d).
Proof.
  eexists _, _. split; [vm_compute; reflexivity|]. split; [vm_compute; reflexivity|].
  split; [done|]. split; [done|]. split; [repeat split|]. split; [by intros [? _]|].
  intros [(l&?&_)|(k&l&?&_)]; done.
Qed.

(** C19: the owner hands the marketplace over; the new owner is then in charge. *)
Example C19_case :
  let s := step (demo sale_demo) (by_ 5 (C_set_marketplace_owner 0 2)) in
  option_map m_owner (mkts (s_mkt s) !! 0) = Some 2 /\
  fst (dispatch (Signed 5) (C_set_marketplace_kind 0 Private) s) = Err (Market_err M_NotTheMarketplaceOwner) /\
  fst (dispatch (Signed 2) (C_set_marketplace_kind 0 Private) s) = Ok tt.
Proof. vm_compute. auto. Qed.

(** Collections: collection 0 of account 1, limited to 2, closed with NFTs 0 and 1 in it. *)
Definition coll_demo : list action :=
  [by_ 1 (C_create_collection [] (Some 2));
   by_ 1 (C_create_nft [] 0 (Some 0) false); by_ 1 (C_create_nft [] 0 None false);
   by_ 1 (C_add_nft_to_collection 1 0)].
Example C03_C04_case :
  reachable (demo coll_demo) /\
  colls (s_nft (demo coll_demo)) !! 0 = Some (mkColl 1 [] [0; 1] (Some 2) false) /\
  (collection_id <$> nfts (s_nft (demo coll_demo)) !! 1) = Some (Some 0) /\
  fst (dispatch (Signed 1) (C_create_nft [] 0 (Some 0) false) (demo coll_demo)) = Err (Nft_err N_CollectionHasReachedLimit).
Proof. split; [by apply demo_reachable|]. vm_compute. auto. Qed.

(** Later it is closed and loses NFT 0, whose id is then never used again. *)
Definition coll_later : list action := [by_ 1 (C_close_collection 0); by_ 1 (C_burn_nft 0); by_ 1 (C_create_nft [] 0 None false)].
Example C05_C06_C12_case :
  colls (s_nft (run (demo coll_demo) coll_later)) !! 0 = Some (mkColl 1 [] [1] (Some 2) true) /\
  nfts (s_nft (run (demo coll_demo) coll_later)) !! 0 = None /\
  is_Some (nfts (s_nft (run (demo coll_demo) coll_later)) !! 2) /\
  fst (dispatch (Signed 1) (C_create_nft [] 0 (Some 0) false) (run (demo coll_demo) coll_later)) = Err (Nft_err N_CollectionIsClosed) /\
  fst (dispatch (Signed 1) (C_create_collection [] None) (run (demo coll_demo) coll_later)) = Ok tt.
Proof. vm_compute. eauto 10. Qed.

(** C07, C08: the creator and owner sets the royalty; the owner sends the NFT away. *)
Example C07_C08_case :
  let s := demo sale_demo in
  let s1 := step s (by_ 1 (C_set_royalty 2 300000)) in
  let s2 := step s1 (by_ 1 (C_transfer_nft 2 3)) in
  (royalty <$> nfts (s_nft s1) !! 2) = Some 300000 /\ owner_of s1 2 = Some 1 /\ owner_of s2 2 = Some 3 /\
  (creator <$> nfts (s_nft s2) !! 2) = Some 1 /\
  fst (dispatch (Signed 3) (C_set_royalty 2 0) s2) = Err (Nft_err N_NotTheNFTCreator).
Proof. vm_compute. auto. Qed.

(** C09: a soulbound NFT given to account 2 is bound to it. *)
Definition soul_demo : list action := [by_ 1 (C_create_nft [] 0 None true); by_ 1 (C_transfer_nft 0 2)].
Example C09_case :
  reachable (demo soul_demo) /\
  exists d, nfts (s_nft (demo soul_demo)) !! 0 = Some d /\ bound_to_owner d /\
    fst (dispatch (Signed 2) (C_transfer_nft 0 1) (demo soul_demo)) = Err (Nft_err N_CannotTransferNotCreatedSoulboundNFTs).
Proof.
  split; [by apply demo_reachable|]. eexists. split; [vm_compute; reflexivity|].
  split; [split; [done|vm_compute; discriminate]|vm_compute; reflexivity].
Qed.

(** C10: a secret NFT costs 10 + 75, which the fee collector 90 receives. *)
Example C10_case :
  published_fees demo_init (C_create_secret_nft [] [7] 0 None false) = Some [10; 75] /\
  exists s', dispatch (Signed 1) (C_create_secret_nft [] [7] 0 None false) demo_init = (Ok tt, s') /\
    free (s_bal demo_init) 1 = 10000 /\ free (s_bal s') 1 = 9915 /\ free (s_bal s') 90 = 85.
Proof. split; [done|]. eexists. vm_compute. auto. Qed.

(** C11, C14: three enclaves of one cluster; the secret is synced by the third shard. *)
Definition enclave_demo : list action :=
  [root_ (C_create_cluster ClPublic);
   by_ 2 (C_register_enclave 22 [1]); by_ 3 (C_register_enclave 33 [1]); by_ 4 (C_register_enclave 44 [1]);
   root_ (C_assign_enclave 2 0 0); root_ (C_assign_enclave 3 0 1); root_ (C_assign_enclave 4 0 2)].
Definition shard_demo : list action :=
  enclave_demo ++ [by_ 1 (C_create_secret_nft [] [7] 0 None false);
                   by_ 22 (C_add_secret_shard 0); by_ 33 (C_add_secret_shard 0)].
Example C11_case :
  reachable (demo shard_demo) /\
  secret_shards (s_nft (demo shard_demo)) !! 0 = Some [(0, 2); (0, 3)] /\
  secret_data (s_nft (demo shard_demo)) !! 0 = Some [7] /\
  (is_syncing_secret ∘ nstate <$> nfts (s_nft (demo shard_demo)) !! 0) = Some true /\
  completes_shards (demo shard_demo) [(0, 2); (0, 3)] 44 /\
  let s' := step (demo shard_demo) (by_ 44 (C_add_secret_shard 0)) in
  (is_syncing_secret ∘ nstate <$> nfts (s_nft s') !! 0) = Some false /\ secret_shards (s_nft s') !! 0 = None.
Proof.
  split; [by apply demo_reachable|]. split; [vm_compute; reflexivity|]. split; [vm_compute; reflexivity|].
  split; [vm_compute; reflexivity|]. split; [|vm_compute; auto].
  exists 4, 0. split; [vm_compute; reflexivity|]. split; [vm_compute; reflexivity|]. split; [by repeat constructor|].
  split; [|vm_compute; reflexivity]. apply (bool_decide_unpack _). vm_compute. exact I.
Qed.
End cases.
