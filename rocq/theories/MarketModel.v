(** Model of pallet marketplace (marketplace/src/lib.rs). *)
From Verif Require Export NftModel.
Local Open Scope N_scope.

Section market.
Context {C : Config}.

(** models an error of marketplace/src/lib.rs:184-225. *)
Definition merr (e : mkt_error) : error := Market_err e.

(** [Marketplaces::get] (marketplace/src/lib.rs:117-132) *)
Definition get_mkt (id : N) : M (option marketplace) := gets (fun s => mkts (s_mkt s) !! id).
(** [Marketplaces::insert] (marketplace/src/lib.rs:117-132) *)
Definition set_mkt (id : N) (m : marketplace) : M unit := mod_mkt (fun k => k <| mkts ::= <[id := m]> |>).
(** [ListedNfts::get] (marketplace/src/lib.rs:134-138) *)
Definition get_sale (id : N) : M (option sale) := gets (fun s => sales (s_mkt s) !! id).

(** models primitives/src/marketplace.rs:93-116 ([allowed_to_list]) *)
Definition allowed_to_list (m : marketplace) (who : N) (coll : option N) : bool :=
  let in_accounts := match m_accounts m with Some l => memN who l | None => false end in
  let in_colls := match coll, m_collections m with
                  | Some c, Some l => memN c l
                  | _, _ => false
                  end in
  match m_kind m with
  | Public => negb in_accounts && negb in_colls
  | Private => in_accounts || in_colls
  end.

(** models the [match] on [CompoundFee] in marketplace/src/lib.rs:527-530, 549-552 and
    auction/src/lib.rs:676-681 *)
Definition fee_amount (f : compound_fee) (price : N) : N :=
  match f with Flat x => x | Percentage p => permill_mul p price end.

(** models common/src/macros.rs:17-25 ([config_op_field_exp]) *)
Definition config_op_apply {A} (op : config_op A) (old : option A) : option A :=
  match op with Noop => old | SetTo a => Some a | RemoveIt => None end.

(** models marketplace/src/lib.rs:501-509 ([get_next_marketplace_id]) *)
Definition next_mkt_id : M N :=
  let! i := gets (fun s => next_mkt (s_mkt s)) in
  ensure (i + 1 <=? u32_max) Panic ;;;
  mod_mkt (fun k => k <| next_mkt := i + 1 |>) ;;;
  ret i.

(** models marketplace/src/lib.rs:234-254 ([create_marketplace]) and 511-517 ([pay_mint_fee]) *)
Definition create_marketplace (who : N) (kind : mkt_kind) : M unit :=
  let! fee := gets (fun s => mkt_fee (s_mkt s)) in
  pay_fee who fee ;;;
  let! id := next_mkt_id in
  set_mkt id (mkMarket who kind None None None None None) ;;;
  emit (Ev_MarketplaceCreated id who kind).

(** models marketplace/src/lib.rs:259-284 ([set_marketplace_owner]) *)
Definition set_marketplace_owner (who id recipient : N) : M unit :=
  ensure (negb (recipient =? who)) (merr M_CannotTransferMarketplaceToYourself) ;;;
  let! o := get_mkt id in
  let! m := unwrap o (merr M_MarketplaceNotFound) in
  ensure (m_owner m =? who) (merr M_NotTheMarketplaceOwner) ;;;
  set_mkt id (m <| m_owner := recipient |>) ;;;
  emit (Ev_MarketplaceOwnerSet id recipient).

(** models marketplace/src/lib.rs:289-311 ([set_marketplace_kind]) *)
Definition set_marketplace_kind (who id : N) (kind : mkt_kind) : M unit :=
  let! o := get_mkt id in
  let! m := unwrap o (merr M_MarketplaceNotFound) in
  ensure (m_owner m =? who) (merr M_NotTheMarketplaceOwner) ;;;
  set_mkt id (m <| m_kind := kind |>) ;;;
  emit (Ev_MarketplaceKindSet id kind).

(** models marketplace/src/lib.rs:316-353 ([set_marketplace_configuration]) *)
Definition set_marketplace_configuration (who id : N)
    (commission listing : config_op compound_fee) (accounts : config_op (list N))
    (data : config_op bytes) (collections : config_op (list N)) : M unit :=
  let! o := get_mkt id in
  let! m := unwrap o (merr M_MarketplaceNotFound) in
  ensure (m_owner m =? who) (merr M_NotTheMarketplaceOwner) ;;;
  set_mkt id (m <| m_commission ::= config_op_apply commission |>
                <| m_listing ::= config_op_apply listing |>
                <| m_accounts ::= config_op_apply accounts |>
                <| m_offchain ::= config_op_apply data |>
                <| m_collections ::= config_op_apply collections |>) ;;;
  emit (Ev_MarketplaceConfigSet id commission listing accounts data collections).

(** models marketplace/src/lib.rs:358-367 ([set_marketplace_mint_fee]) *)
Definition set_marketplace_mint_fee (fee : N) : M unit :=
  mod_mkt (fun k => k <| mkt_fee := fee |>) ;;;
  emit (Ev_MarketplaceMintFeeSet fee).

(** models the check of marketplace/src/lib.rs:397-402 and auction/src/lib.rs:412-419:
    a flat commission must not exceed the price. *)
Definition covers_flat (c : option compound_fee) (price : N) : bool :=
  match c with Some (Flat x) => x <=? price | _ => true end.

(** models marketplace/src/lib.rs:519-537 ([pay_listing_fee]) *)
Definition pay_listing_fee (who : N) (m : marketplace) (price : N) : M unit :=
  on_some (m_listing m) (fun f => transfer who (m_owner m) (fee_amount f price) true).

(** models marketplace/src/lib.rs:539-561 ([pay_commission_fee]) *)
Definition pay_commission_fee (who : N) (m : marketplace) (sl : sale) (price : N) : M N :=
  match sale_commission sl with
  | Some f => transfer who (m_owner m) (fee_amount f price) true ;;; ret (fee_amount f price)
  | None => ret 0
  end.

(** models marketplace/src/lib.rs:372-426 ([list_nft]) *)
Definition list_nft (who id mkt price : N) : M unit :=
  let! o := get_nft id in
  let! d := unwrap o (merr M_NFTNotFound) in
  ensure (owner d =? who) (merr M_NotTheNFTOwner) ;;;
  ensure (negb (is_listed (nstate d))) (merr M_CannotListAlreadytListedNFTs) ;;;
  ensure (negb (is_delegated (nstate d))) (merr M_CannotListDelegatedNFTs) ;;;
  ensure (negb (soulbound_locked d)) (merr M_CannotListNotCreatedSoulboundNFTs) ;;;
  ensure (negb (is_syncing_secret (nstate d))) (merr M_CannotListNotSyncedSecretNFTs) ;;;
  ensure (negb (is_rented (nstate d))) (merr M_CannotListRentedNFTs) ;;;
  ensure (negb (is_syncing_capsule (nstate d))) (merr M_CannotListNotSyncedCapsules) ;;;
  ensure (negb (is_transmission (nstate d))) (merr M_CannotListNFTsInTransmission) ;;;
  let! om := get_mkt mkt in
  let! m := unwrap om (merr M_MarketplaceNotFound) in
  ensure (allowed_to_list m who (collection_id d)) (merr M_NotAllowedToList) ;;;
  ensure (covers_flat (m_commission m) price) (merr M_PriceCannotCoverMarketplaceFee) ;;;
  pay_listing_fee who m price ;;;
  mod_mkt (fun k => k <| sales ::= <[id := mkSale who mkt price (m_commission m)]> |>) ;;;
  set_nft_state id (nstate (put_listed true d)) ;;;
  emit (Ev_NFTListed id mkt price (m_commission m)).

(** models marketplace/src/lib.rs:431-446 ([unlist_nft]) *)
Definition unlist_nft (who id : N) : M unit :=
  let! o := get_nft id in
  let! d := unwrap o (merr M_NFTNotFound) in
  ensure (owner d =? who) (merr M_NotTheNFTOwner) ;;;
  let! os := get_sale id in
  ensure (match os with Some _ => true | None => false end) (merr M_NFTNotForSale) ;;;
  set_nft_state id (nstate (put_listed false d)) ;;;
  mod_mkt (fun k => k <| sales ::= delete id |>) ;;;
  emit (Ev_NFTUnlisted id).

(** models marketplace/src/lib.rs:451-496 ([buy_nft]) *)
Definition buy_nft (who id signed_price : N) : M unit :=
  let! o := get_nft id in
  let! d := unwrap o (merr M_NFTNotFound) in
  let! os := get_sale id in
  let! sl := unwrap os (merr M_NFTNotForSale) in
  let! om := get_mkt (sale_mkt sl) in
  let! m := unwrap om (merr M_MarketplaceNotFound) in
  let price := sale_price sl in
  ensure (negb (sale_seller sl =? who)) (merr M_CannotBuyOwnedNFT) ;;;
  ensure (price =? signed_price) (merr M_PriceDoesNotMatch) ;;;
  let! bal := free_balance who in
  ensure (price <=? bal) (merr M_NotEnoughBalanceToBuy) ;;;
  let! commission := pay_commission_fee who m sl price in
  ensure (commission <=? price) (merr M_InternalMathError) ;;;
  let price1 := price - commission in
  let roy := permill_mul (royalty d) price1 in
  transfer who (creator d) roy true ;;;
  ensure (roy <=? price1) (merr M_InternalMathError) ;;;
  transfer who (sale_seller sl) (price1 - roy) true ;;;
  set_nft id (put_listed false (d <| owner := who |>)) ;;;
  mod_mkt (fun k => k <| sales ::= delete id |>) ;;;
  emit (Ev_NFTSold id (sale_mkt sl) who price commission roy).

End market.
