(** Model of pallet nft (nft/src/lib.rs).  Each extrinsic takes the signer (or nothing for
    root calls); the origin check itself is in Runtime.v.  [Nfts::try_mutate] is modelled
    as a read, the closure's checks and writes, and one write of the mutated value at the
    end of the closure. Weights are not modelled. *)
From Verif Require Export Balances.
Local Open Scope N_scope.

Section nft.
Context {C : Config}.

(** models an error of nft/src/lib.rs:283-434. *)
Definition nerr (e : nft_error) : error := Nft_err e.

(** ** NFTExt (nft/src/lib.rs:1333-1433) and storage access *)

(** models nft/src/lib.rs:1383-1385 ([get_nft]) *)
Definition get_nft (id : N) : M (option nft_data) := gets (fun s => nfts (s_nft s) !! id).
(** models nft/src/lib.rs:1387-1394 ([set_nft]); also [Nfts::insert] *)
Definition set_nft (id : N) (d : nft_data) : M unit := mod_nft (fun n => n <| nfts ::= <[id := d]> |>).
(** models nft/src/lib.rs:1340-1349 ([set_nft_state]) *)
Definition set_nft_state (id : N) (st : nft_state) : M unit :=
  let! o := get_nft id in
  let! d := unwrap o (nerr N_NFTNotFound) in
  set_nft id (d <| nstate := st |>).

(** [Collections::get] (nft/src/lib.rs:145-154) *)
Definition get_coll (id : N) : M (option collection) := gets (fun s => colls (s_nft s) !! id).
(** [Collections::insert] (nft/src/lib.rs:145-154) *)
Definition set_coll (id : N) (c : collection) : M unit := mod_nft (fun n => n <| colls ::= <[id := c]> |>).

(** models primitives/src/nfts.rs:98-100 ([NFTState::new_default]) *)
Definition default_state (soulbound : bool) : nft_state :=
  mkNftState false false false false soulbound false false false false.

(** The flag updates written [nft.state.is_x = b] in the Rust code; this one in
    marketplace/src/lib.rs:414, 440, 482 and auction/src/lib.rs:169, 416, 464, 493, 632. *)
Definition put_listed (b : bool) (d : nft_data) := d <| nstate ::= fun st => st <| is_listed := b |> |>.
(** nft/src/lib.rs:623 *)
Definition put_delegated (b : bool) (d : nft_data) := d <| nstate ::= fun st => st <| is_delegated := b |> |>.
(** [is_rented], written in rent/src/lib.rs:462-463, 558-562, 984-1011 through [set_state]. *)
Definition put_rented (b : bool) (d : nft_data) := d <| nstate ::= fun st => st <| is_rented := b |> |>.
(** transmission-protocols/src/lib.rs:410, 447, 646 *)
Definition put_transmission (b : bool) (d : nft_data) := d <| nstate ::= fun st => st <| is_transmission := b |> |>.
(** nft/src/lib.rs:1002, 1492 *)
Definition put_syncing_secret (b : bool) (d : nft_data) := d <| nstate ::= fun st => st <| is_syncing_secret := b |> |>.
(** nft/src/lib.rs:1248, 1294, 1590 *)
Definition put_syncing_capsule (b : bool) (d : nft_data) := d <| nstate ::= fun st => st <| is_syncing_capsule := b |> |>.
(** nft/src/lib.rs:1491 *)
Definition put_secret (d : nft_data) := d <| nstate ::= fun st => st <| is_secret := true |> |>.
(** nft/src/lib.rs:1589 *)
Definition put_capsule (d : nft_data) := d <| nstate ::= fun st => st <| is_capsule := true |> |>.

(** [nft.state.is_soulbound && nft.creator != nft.owner]: nft/src/lib.rs:571,
    marketplace/src/lib.rs:386, auction/src/lib.rs:380, transmission-protocols/src/lib.rs:335 *)
Definition soulbound_locked (d : nft_data) : bool :=
  is_soulbound (nstate d) && negb (creator d =? owner d).

(** ** Helpers *)

(** models nft/src/lib.rs:1436-1444 ([get_next_nft_id]) *)
Definition next_nft_id : M N :=
  let! i := gets (fun s => next_nft (s_nft s)) in
  ensure (i + 1 <=? u32_max) Panic ;;;
  mod_nft (fun n => n <| next_nft := i + 1 |>) ;;;
  ret i.

(** models nft/src/lib.rs:1446-1454 ([get_next_collection_id]) *)
Definition next_coll_id : M N :=
  let! i := gets (fun s => next_coll (s_nft s)) in
  ensure (i + 1 <=? u32_max) Panic ;;;
  mod_nft (fun n => n <| next_coll := i + 1 |>) ;;;
  ret i.

(** models nft/src/lib.rs:1456-1465 and rent/src/lib.rs:1020-1029 ([balance_check]) *)
Definition balance_check (b : balances) (who amt : N) : bool :=
  if free b who <? amt then false else can_withdraw b who amt (free b who - amt).

(** models nft/src/lib.rs:1467-1503 ([add_secret_helper]) *)
Definition add_secret (who id : N) (data : bytes) : M unit :=
  let! o := get_nft id in
  let! d := unwrap o (nerr N_NFTNotFound) in
  ensure (owner d =? who) (nerr N_NotTheNFTOwner) ;;;
  ensure (negb (is_listed (nstate d))) (nerr N_CannotAddSecretToListedNFTs) ;;;
  ensure (negb (is_secret (nstate d))) (nerr N_CannotAddSecretToSecretNFTs) ;;;
  ensure (negb (is_rented (nstate d))) (nerr N_CannotAddSecretToRentedNFTs) ;;;
  ensure (negb (is_delegated (nstate d))) (nerr N_CannotAddSecretToDelegatedNFTs) ;;;
  ensure (negb (is_syncing_capsule (nstate d))) (nerr N_CannotAddSecretToSyncingCapsules) ;;;
  ensure (negb (is_transmission (nstate d))) (nerr N_CannotAddSecretToNFTsInTransmission) ;;;
  let! fee := gets (fun s => secret_fee (s_nft s)) in
  pay_fee who fee ;;;
  mod_nft (fun n => n <| secret_data ::= <[id := data]> |>) ;;;
  set_nft id (put_syncing_secret true (put_secret d)) ;;;
  emit (Ev_SecretAddedToNFT id data).

(** models nft/src/lib.rs:1505-1563 ([create_nft_helper]) *)
Definition create_nft (who : N) (data : bytes) (roy : N) (coll : option N) (soulbound : bool) : M unit :=
  let! fee := gets (fun s => mint_fee (s_nft s)) in
  pay_fee who fee ;;;
  let! id :=
    match coll with
    | Some c =>
        let! o := get_coll c in
        let! cd := unwrap o (nerr N_CollectionNotFound) in
        ensure (c_owner cd =? who) (nerr N_NotTheCollectionOwner) ;;;
        ensure (negb (c_closed cd)) (nerr N_CollectionIsClosed) ;;;
        ensure (nlen (c_nfts cd) <? default coll_size_limit (c_limit cd)) (nerr N_CollectionHasReachedLimit) ;;;
        let! id := next_nft_id in
        ensure (nlen (c_nfts cd) <? coll_size_limit) (nerr N_CannotAddMoreNFTsToCollection) ;;;
        set_coll c (cd <| c_nfts ::= fun l => l ++ [id] |>) ;;;
        ret id
    | None => next_nft_id
    end in
  set_nft id (mkNft who who data coll roy (default_state soulbound)) ;;;
  emit (Ev_NFTCreated id who data roy coll soulbound fee).

(** models nft/src/lib.rs:1565-1600 ([convert_to_capsule_helper]) *)
Definition convert_to_capsule (who id : N) (data : bytes) : M unit :=
  let! o := get_nft id in
  let! d := unwrap o (nerr N_NFTNotFound) in
  ensure (owner d =? who) (nerr N_NotTheNFTOwner) ;;;
  ensure (negb (is_listed (nstate d))) (nerr N_CannotConvertListedNFTs) ;;;
  ensure (negb (is_capsule (nstate d))) (nerr N_CannotConvertCapsules) ;;;
  ensure (negb (is_rented (nstate d))) (nerr N_CannotConvertRentedNFTs) ;;;
  ensure (negb (is_delegated (nstate d))) (nerr N_CannotConvertDelegatedNFTs) ;;;
  ensure (negb (is_syncing_secret (nstate d))) (nerr N_CannotConvertSyncingNFTs) ;;;
  ensure (negb (is_transmission (nstate d))) (nerr N_CannotConvertNFTsInTransmission) ;;;
  let! fee := gets (fun s => capsule_fee (s_nft s)) in
  pay_fee who fee ;;;
  mod_nft (fun n => n <| capsule_data ::= <[id := data]> |>) ;;;
  set_nft id (put_syncing_capsule true (put_capsule d)) ;;;
  emit (Ev_NFTConvertedToCapsule id data).

(** ** Extrinsics *)

(** models nft/src/lib.rs:501-548 ([burn_nft]) *)
Definition burn_nft (who id : N) : M unit :=
  let! o := get_nft id in
  let! d := unwrap o (nerr N_NFTNotFound) in
  ensure (owner d =? who) (nerr N_NotTheNFTOwner) ;;;
  ensure (negb (is_listed (nstate d))) (nerr N_CannotBurnListedNFTs) ;;;
  ensure (negb (is_delegated (nstate d))) (nerr N_CannotBurnDelegatedNFTs) ;;;
  ensure (negb (is_rented (nstate d))) (nerr N_CannotBurnRentedNFTs) ;;;
  ensure (negb (is_transmission (nstate d))) (nerr N_CannotBurnNFTsInTransmission) ;;;
  on_some (collection_id d) (fun c =>
    let! o := get_coll c in
    let! cd := unwrap o (nerr N_CollectionNotFound) in
    let! i := unwrap (position (N.eqb id) (c_nfts cd)) (nerr N_NFTNotFoundInCollection) in
    set_coll c (cd <| c_nfts ::= swap_remove i |>)) ;;;
  when (is_secret (nstate d)) (
    mod_nft (fun n => n <| secret_data ::= delete id |>) ;;;
    when (is_syncing_secret (nstate d)) (mod_nft (fun n => n <| secret_shards ::= delete id |>))) ;;;
  when (is_capsule (nstate d)) (
    mod_nft (fun n => n <| capsule_data ::= delete id |>) ;;;
    when (is_syncing_capsule (nstate d)) (mod_nft (fun n => n <| capsule_shards ::= delete id |>))) ;;;
  mod_nft (fun n => n <| nfts ::= delete id |>) ;;;
  emit (Ev_NFTBurned id).

(** models nft/src/lib.rs:554-592 ([transfer_nft]) *)
Definition transfer_nft (who id recipient : N) : M unit :=
  let! o := get_nft id in
  let! d := unwrap o (nerr N_NFTNotFound) in
  ensure (owner d =? who) (nerr N_NotTheNFTOwner) ;;;
  ensure (negb (owner d =? recipient)) (nerr N_CannotTransferNFTsToYourself) ;;;
  ensure (negb (is_listed (nstate d))) (nerr N_CannotTransferListedNFTs) ;;;
  ensure (negb (is_delegated (nstate d))) (nerr N_CannotTransferDelegatedNFTs) ;;;
  ensure (negb (soulbound_locked d)) (nerr N_CannotTransferNotCreatedSoulboundNFTs) ;;;
  ensure (negb (is_syncing_secret (nstate d))) (nerr N_CannotTransferNotSyncedSecretNFTs) ;;;
  ensure (negb (is_rented (nstate d))) (nerr N_CannotTransferRentedNFTs) ;;;
  ensure (negb (is_syncing_capsule (nstate d))) (nerr N_CannotTransferNotSyncedCapsules) ;;;
  ensure (negb (is_transmission (nstate d))) (nerr N_CannotTransferNFTsInTransmission) ;;;
  set_nft id (d <| owner := recipient |>) ;;;
  emit (Ev_NFTTransferred id who recipient).

(** models nft/src/lib.rs:598-639 ([delegate_nft]) *)
Definition delegate_nft (who id : N) (recipient : option N) : M unit :=
  let r := default who recipient in
  let is_del := negb (r =? who) in
  let! o := get_nft id in
  let! d := unwrap o (nerr N_NFTNotFound) in
  ensure (owner d =? who) (nerr N_NotTheNFTOwner) ;;;
  ensure (negb (is_listed (nstate d))) (nerr N_CannotDelegateListedNFTs) ;;;
  ensure (negb (is_rented (nstate d))) (nerr N_CannotDelegateRentedNFTs) ;;;
  ensure (negb (is_syncing_secret (nstate d))) (nerr N_CannotDelegateSyncingNFTs) ;;;
  ensure (negb (is_syncing_capsule (nstate d))) (nerr N_CannotDelegateSyncingCapsules) ;;;
  ensure (negb (is_transmission (nstate d))) (nerr N_CannotDelegateNFTsInTransmission) ;;;
  set_nft id (put_delegated is_del d) ;;;
  (if is_del
   then mod_nft (fun n => n <| delegated ::= <[id := r]> |>)
   else mod_nft (fun n => n <| delegated ::= delete id |>)) ;;;
  emit (Ev_NFTDelegated id (if is_del then Some r else None)).

(** models nft/src/lib.rs:645-681 ([set_royalty]) *)
Definition set_royalty (who id roy : N) : M unit :=
  let! o := get_nft id in
  let! d := unwrap o (nerr N_NFTNotFound) in
  ensure (owner d =? who) (nerr N_NotTheNFTOwner) ;;;
  ensure (creator d =? who) (nerr N_NotTheNFTCreator) ;;;
  ensure (negb (is_listed (nstate d))) (nerr N_CannotSetRoyaltyForListedNFTs) ;;;
  ensure (negb (is_delegated (nstate d))) (nerr N_CannotSetRoyaltyForDelegatedNFTs) ;;;
  ensure (negb (is_rented (nstate d))) (nerr N_CannotSetRoyaltyForRentedNFTs) ;;;
  ensure (negb (is_syncing_secret (nstate d))) (nerr N_CannotSetRoyaltyForSyncingNFTs) ;;;
  ensure (negb (is_syncing_capsule (nstate d))) (nerr N_CannotSetRoyaltyForSyncingCapsules) ;;;
  ensure (negb (is_transmission (nstate d))) (nerr N_CannotSetRoyaltyForNFTsInTransmission) ;;;
  set_nft id (d <| royalty := roy |>) ;;;
  emit (Ev_NFTRoyaltySet id roy).

(** models nft/src/lib.rs:686-697 ([set_nft_mint_fee]) *)
Definition set_nft_mint_fee (fee : N) : M unit :=
  mod_nft (fun n => n <| mint_fee := fee |>) ;;;
  emit (Ev_NFTMintFeeSet fee).

(** models nft/src/lib.rs:703-729 ([create_collection]) *)
Definition create_collection (who : N) (data : bytes) (limit : option N) : M unit :=
  on_some limit (fun l => ensure (l <=? coll_size_limit) (nerr N_CollectionLimitExceededMaximumAllowed)) ;;;
  let! c := next_coll_id in
  set_coll c (mkColl who data [] limit false) ;;;
  emit (Ev_CollectionCreated c who data limit).

(** models nft/src/lib.rs:737-755 ([burn_collection]) *)
Definition burn_collection (who c : N) : M unit :=
  let! o := get_coll c in
  let! cd := unwrap o (nerr N_CollectionNotFound) in
  ensure (c_owner cd =? who) (nerr N_NotTheCollectionOwner) ;;;
  ensure (nlen (c_nfts cd) =? 0) (nerr N_CollectionIsNotEmpty) ;;;
  mod_nft (fun n => n <| colls ::= delete c |>) ;;;
  emit (Ev_CollectionBurned c).

(** models nft/src/lib.rs:762-779 ([close_collection]) *)
Definition close_collection (who c : N) : M unit :=
  let! o := get_coll c in
  let! cd := unwrap o (nerr N_CollectionNotFound) in
  ensure (c_owner cd =? who) (nerr N_NotTheCollectionOwner) ;;;
  set_coll c (cd <| c_closed := true |>) ;;;
  emit (Ev_CollectionClosed c).

(** models nft/src/lib.rs:786-818 ([limit_collection]) *)
Definition limit_collection (who c limit : N) : M unit :=
  let! o := get_coll c in
  let! cd := unwrap o (nerr N_CollectionNotFound) in
  ensure (c_owner cd =? who) (nerr N_NotTheCollectionOwner) ;;;
  ensure (match c_limit cd with None => true | Some _ => false end) (nerr N_CollectionLimitAlreadySet) ;;;
  ensure (negb (c_closed cd)) (nerr N_CollectionIsClosed) ;;;
  ensure (nlen (c_nfts cd) <=? limit) (nerr N_CollectionHasTooManyNFTs) ;;;
  ensure (limit <=? coll_size_limit) (nerr N_CollectionLimitExceededMaximumAllowed) ;;;
  set_coll c (cd <| c_limit := Some limit |>) ;;;
  emit (Ev_CollectionLimited c limit).

(** models nft/src/lib.rs:836-878 ([add_nft_to_collection]) *)
Definition add_nft_to_collection (who id c : N) : M unit :=
  let! o := get_coll c in
  let! cd := unwrap o (nerr N_CollectionNotFound) in
  ensure (c_owner cd =? who) (nerr N_NotTheCollectionOwner) ;;;
  ensure (negb (c_closed cd)) (nerr N_CollectionIsClosed) ;;;
  ensure (nlen (c_nfts cd) <? default coll_size_limit (c_limit cd)) (nerr N_CollectionHasReachedLimit) ;;;
  let! od := get_nft id in
  let! d := unwrap od (nerr N_NFTNotFound) in
  ensure (owner d =? who) (nerr N_NotTheNFTOwner) ;;;
  ensure (match collection_id d with None => true | Some _ => false end) (nerr N_NFTBelongToACollection) ;;;
  set_nft id (d <| collection_id := Some c |>) ;;;
  ensure (nlen (c_nfts cd) <? coll_size_limit) (nerr N_CannotAddMoreNFTsToCollection) ;;;
  set_coll c (cd <| c_nfts ::= fun l => l ++ [id] |>) ;;;
  emit (Ev_NFTAddedToCollection id c).

(** models nft/src/lib.rs:916-946 ([create_secret_nft]) *)
Definition create_secret_nft (who : N) (data secret : bytes) (roy : N) (coll : option N) (soulbound : bool) : M unit :=
  let! ok := gets (fun s => balance_check (s_bal s) who (wadd (mint_fee (s_nft s)) (secret_fee (s_nft s)))) in
  ensure ok (nerr N_InsufficientBalance) ;;;
  create_nft who data roy coll soulbound ;;;
  let! nx := gets (fun s => next_nft (s_nft s)) in
  add_secret who (nx - 1) secret.

(** models nft/src/lib.rs:1069-1099 ([create_capsule]) *)
Definition create_capsule (who : N) (data capsule : bytes) (roy : N) (coll : option N) (soulbound : bool) : M unit :=
  let! ok := gets (fun s => balance_check (s_bal s) who (wadd (mint_fee (s_nft s)) (capsule_fee (s_nft s)))) in
  ensure ok (nerr N_InsufficientBalance) ;;;
  create_nft who data roy coll soulbound ;;;
  let! nx := gets (fun s => next_nft (s_nft s)) in
  convert_to_capsule who (nx - 1) capsule.

(** models tee/src/lib.rs:1588-1596 ([ensure_enclave]) *)
Definition ensure_enclave (t : tee_st) (addr : N) : option (N * N) :=
  match addr_op t !! addr with
  | Some op => match enc_cluster t !! op with
               | Some c => Some (c, op)
               | None => None
               end
  | None => None
  end.

(** models the closure of nft/src/lib.rs:971-1003 and 1217-1249: the new value of the
    shard list and whether the synchronisation is finished. *)
Definition shard_step (full : nft_error) (c op : N) (sh : option (list (N * N)))
  : res (option (list (N * N)) * bool) :=
  match sh with
  | Some [] => Err Panic
  | Some (((c0, _) :: _) as l) =>
      if negb (c =? c0) then Err (nerr N_ShareNotFromValidCluster)
      else if negb (nlen l <? shards_number) then Err (nerr full)
      else if existsb (fun x => (fst x =? c) && (snd x =? op)) l then Err (nerr N_EnclaveAlreadyAddedShard)
      else if nlen (l ++ [(c, op)]) =? shards_number then Ok (None, true)
      else Ok (Some (l ++ [(c, op)]), false)
  | None =>
      if shards_number <? 1 then Err (nerr full)
      else if shards_number =? 1 then Ok (None, true)
      else Ok (Some [(c, op)], false)
  end.

(** models nft/src/lib.rs:952-1017 ([add_secret_shard]) *)
Definition add_secret_shard (who id : N) : M unit :=
  let! e := gets (fun s => ensure_enclave (s_tee s) who) in
  let! co := unwrap e (nerr N_NotARegisteredEnclave) in
  let! o := get_nft id in
  let! d := unwrap o (nerr N_NFTNotFound) in
  ensure (is_secret (nstate d)) (nerr N_NFTIsNotSecret) ;;;
  ensure (is_syncing_secret (nstate d)) (nerr N_NFTAlreadySynced) ;;;
  let! sh := gets (fun s => secret_shards (s_nft s) !! id) in
  let! r := of_res (shard_step N_NFTHasReceivedAllShards (fst co) (snd co) sh) in
  mod_nft (fun n => n <| secret_shards ::= partial_alter (fun _ => fst r) id |>) ;;;
  set_nft id (if snd r : bool then put_syncing_secret false d else d) ;;;
  emit (Ev_ShardAdded id who) ;;;
  when (snd r) (emit (Ev_SecretNFTSynced id)).

(** models nft/src/lib.rs:1195-1263 ([add_capsule_shard]) *)
Definition add_capsule_shard (who id : N) : M unit :=
  let! e := gets (fun s => ensure_enclave (s_tee s) who) in
  let! co := unwrap e (nerr N_NotARegisteredEnclave) in
  let! o := get_nft id in
  let! d := unwrap o (nerr N_NFTNotFound) in
  ensure (is_capsule (nstate d)) (nerr N_NFTIsNotCapsule) ;;;
  ensure (is_syncing_capsule (nstate d)) (nerr N_NFTAlreadySynced) ;;;
  let! sh := gets (fun s => capsule_shards (s_nft s) !! id) in
  let! r := of_res (shard_step N_CapsuleHasReceivedAllShards (fst co) (snd co) sh) in
  mod_nft (fun n => n <| capsule_shards ::= partial_alter (fun _ => fst r) id |>) ;;;
  set_nft id (if snd r : bool then put_syncing_capsule false d else d) ;;;
  emit (Ev_CapsuleShardAdded id who) ;;;
  when (snd r) (emit (Ev_CapsuleSynced id)).

(** models nft/src/lib.rs:1022-1032 ([set_secret_nft_mint_fee]) *)
Definition set_secret_nft_mint_fee (fee : N) : M unit :=
  mod_nft (fun n => n <| secret_fee := fee |>) ;;;
  emit (Ev_SecretNFTMintFeeSet fee).

(** models nft/src/lib.rs:1179-1190 ([set_capsule_mint_fee]) *)
Definition set_capsule_mint_fee (fee : N) : M unit :=
  mod_nft (fun n => n <| capsule_fee := fee |>) ;;;
  emit (Ev_CapsuleMintFeeSet fee).

(** models nft/src/lib.rs:1140-1174 ([set_capsule_offchaindata]) *)
Definition set_capsule_offchaindata (who id : N) (data : bytes) : M unit :=
  let! o := get_nft id in
  let! d := unwrap o (nerr N_NFTNotFound) in
  ensure (owner d =? who) (nerr N_NotTheNFTOwner) ;;;
  ensure (is_capsule (nstate d)) (nerr N_NFTIsNotCapsule) ;;;
  ensure (negb (is_listed (nstate d))) (nerr N_CannotSetOffchainDataForListedNFTs) ;;;
  ensure (negb (is_rented (nstate d))) (nerr N_CannotSetOffchainDataForRentedNFTs) ;;;
  ensure (negb (is_delegated (nstate d))) (nerr N_CannotSetOffchainDataForDelegatedNFTs) ;;;
  ensure (negb (is_syncing_secret (nstate d))) (nerr N_CannotSetOffchainDataForSyncingNFTs) ;;;
  ensure (negb (is_syncing_capsule (nstate d))) (nerr N_CannotSetOffchainDataForSyncingCapsules) ;;;
  mod_nft (fun n => n <| capsule_data ::= <[id := data]> |>) ;;;
  set_nft id d ;;;
  emit (Ev_CapsuleOffchainDataSet id data).

(** models nft/src/lib.rs:1268-1302 ([notify_enclave_key_update]) *)
Definition notify_enclave_key_update (who id : N) : M unit :=
  let! o := get_nft id in
  let! d := unwrap o (nerr N_NFTNotFound) in
  ensure (owner d =? who) (nerr N_NotTheNFTOwner) ;;;
  ensure (is_capsule (nstate d)) (nerr N_NFTIsNotCapsule) ;;;
  ensure (negb (is_listed (nstate d))) (nerr N_CannotChangeKeyForListedNFTs) ;;;
  ensure (negb (is_rented (nstate d))) (nerr N_CannotChangeKeyForRentedNFTs) ;;;
  ensure (negb (is_delegated (nstate d))) (nerr N_CannotChangeKeyForDelegatedNFTs) ;;;
  ensure (negb (is_syncing_secret (nstate d))) (nerr N_CannotChangeKeyForSyncingNFTs) ;;;
  ensure (negb (is_syncing_capsule (nstate d))) (nerr N_CannotChangeKeyForSyncingCapsules) ;;;
  ensure (negb (is_transmission (nstate d))) (nerr N_CannotChangeKeyForNFTsInTransmission) ;;;
  set_nft id (put_syncing_capsule true d) ;;;
  emit (Ev_CapsuleKeyUpdateNotified id).

(** models nft/src/lib.rs:1307-1329 ([set_collection_offchaindata]) *)
Definition set_collection_offchaindata (who c : N) (data : bytes) : M unit :=
  let! o := get_coll c in
  let! cd := unwrap o (nerr N_CollectionNotFound) in
  ensure (c_owner cd =? who) (nerr N_NotTheCollectionOwner) ;;;
  set_coll c (cd <| c_offchain := data |>) ;;;
  emit (Ev_CollectionOffchainDataSet c data).

End nft.
