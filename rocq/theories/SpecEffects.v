(** What each call does: one table per pallet.  A row speaks about the state [s] before a
    successful call, the signer [w], the arguments, and the state [s'] after it. *)
From Coq Require Export Sorting.Sorted.
From Verif Require Export SpecRules.
Local Open Scope N_scope.

Section effects.
Context {C : Config}.

(** [s'] is [s1] apart from the balances, and the events [news] were reported since. *)
Definition becomes (s' s1 : state) (news : list event) : Prop :=
  s' = s1 <| s_bal := s_bal s' |> <| s_events := rev news ++ s_events s1 |>.

(** * nft *)

(** NFT [i] now has the record [d]. *)
Definition write (i : N) (d : nft_data) (s : state) : state := s <| s_nft ::= fun n => n <| nfts ::= <[i := d]> |> |>.
(** Collection [k] now has the record [c]. *)
Definition write_coll (k : N) (c : collection) (s : state) : state := s <| s_nft ::= fun n => n <| colls ::= <[k := c]> |> |>.

(** The flags of a new NFT. *)
Definition plain (soulbound : bool) : nft_state := {|
  is_capsule := false; is_listed := false; is_secret := false; is_delegated := false;
  is_soulbound := soulbound; is_syncing_secret := false; is_rented := false;
  is_syncing_capsule := false; is_transmission := false |}.

(** NFT [i] joins collection [co], if one is named. *)
Definition joins (s : state) (co : option N) (i : N) (s1 : state) : Prop :=
  match co with
  | None => s1 = s
  | Some k => exists c, colls (s_nft s) !! k = Some c /\ s1 = write_coll k (c <| c_nfts := c_nfts c ++ [i] |>) s
  end.
(** NFT [i] leaves collection [co], if it is in one. *)
Definition quits (s : state) (co : option N) (i : N) (s1 : state) : Prop :=
  match co with
  | None => s1 = s
  | Some k => exists c l, colls (s_nft s) !! k = Some c /\ c_nfts c ≡ₚ i :: l /\ s1 = write_coll k (c <| c_nfts := l |>) s
  end.
(** A new NFT with the next identifier. *)
Definition mint (d : nft_data) (s : state) : state :=
  s <| s_nft ::= fun n => n <| nfts ::= <[next_nft n := d]> |> <| next_nft ::= fun i => i + 1 |> |>.

(** The signer is enclave address of operator [op] in cluster [cl]. *)
Definition enclave_of (s : state) (w op cl : N) : Prop :=
  addr_op (s_tee s) !! w = Some op /\ enc_cluster (s_tee s) !! op = Some cl.
(** The account an NFT is delegated to, if it is another one than [w]. *)
Definition delegate (w : N) (r : option N) : option N :=
  match r with Some a => if decide (a = w) then None else Some a | None => None end.

Definition nft_does (s : state) (w : N) (c : call) (s' : state) : Prop :=
  let i0 := next_nft (s_nft s) in
  match c with
  | C_create_nft x r co sb => exists s1, joins s co i0 s1 /\
      becomes s' (mint (mkNft w w x co r (plain sb)) s1) [Ev_NFTCreated i0 w x r co sb (mint_fee (s_nft s))]
  | C_create_secret_nft x y r co sb => exists s1, joins s co i0 s1 /\
      becomes s' (mint (mkNft w w x co r (plain sb <| is_secret := true |> <| is_syncing_secret := true |>)) s1
                    <| s_nft ::= fun n => n <| secret_data ::= <[i0 := y]> |> |>)
        [Ev_NFTCreated i0 w x r co sb (mint_fee (s_nft s)); Ev_SecretAddedToNFT i0 y]
  | C_create_capsule x y r co sb => exists s1, joins s co i0 s1 /\
      becomes s' (mint (mkNft w w x co r (plain sb <| is_capsule := true |> <| is_syncing_capsule := true |>)) s1
                    <| s_nft ::= fun n => n <| capsule_data ::= <[i0 := y]> |> |>)
        [Ev_NFTCreated i0 w x r co sb (mint_fee (s_nft s)); Ev_NFTConvertedToCapsule i0 y]
  | C_burn_nft i => exists d s1, nfts (s_nft s) !! i = Some d /\ quits s (collection_id d) i s1 /\
      becomes s' (s1 <| s_nft ::= fun n => n <| nfts ::= delete i |> <| secret_data ::= delete i |> <| secret_shards ::= delete i |>
                                             <| capsule_data ::= delete i |> <| capsule_shards ::= delete i |> |>) [Ev_NFTBurned i]
  | C_transfer_nft i r => exists d, nfts (s_nft s) !! i = Some d /\
      becomes s' (write i (d <| owner := r |>) s) [Ev_NFTTransferred i w r]
  | C_delegate_nft i r => exists d, nfts (s_nft s) !! i = Some d /\
      becomes s' (match delegate w r with
                  | Some a => write i (d <| nstate ::= fun f => f <| is_delegated := true |> |>) s <| s_nft ::= fun n => n <| delegated ::= <[i := a]> |> |>
                  | None => write i (d <| nstate ::= fun f => f <| is_delegated := false |> |>) s <| s_nft ::= fun n => n <| delegated ::= delete i |> |>
                  end) [Ev_NFTDelegated i (delegate w r)]
  | C_set_royalty i r => exists d, nfts (s_nft s) !! i = Some d /\
      becomes s' (write i (d <| royalty := r |>) s) [Ev_NFTRoyaltySet i r]
  | C_create_collection x l => let k := next_coll (s_nft s) in
      becomes s' (write_coll k (mkColl w x [] l false) s <| s_nft ::= fun n => n <| next_coll := k + 1 |> |>) [Ev_CollectionCreated k w x l]
  | C_burn_collection k => becomes s' (s <| s_nft ::= fun n => n <| colls ::= delete k |> |>) [Ev_CollectionBurned k]
  | C_close_collection k => exists c, colls (s_nft s) !! k = Some c /\
      becomes s' (write_coll k (c <| c_closed := true |>) s) [Ev_CollectionClosed k]
  | C_limit_collection k l => exists c, colls (s_nft s) !! k = Some c /\
      becomes s' (write_coll k (c <| c_limit := Some l |>) s) [Ev_CollectionLimited k l]
  | C_set_collection_offchaindata k x => exists c, colls (s_nft s) !! k = Some c /\
      becomes s' (write_coll k (c <| c_offchain := x |>) s) [Ev_CollectionOffchainDataSet k x]
  | C_add_nft_to_collection i k => exists d s1, nfts (s_nft s) !! i = Some d /\ joins s (Some k) i s1 /\
      becomes s' (write i (d <| collection_id := Some k |>) s1) [Ev_NFTAddedToCollection i k]
  | C_add_secret i y => exists d, nfts (s_nft s) !! i = Some d /\
      becomes s' (write i (d <| nstate ::= fun f => f <| is_secret := true |> <| is_syncing_secret := true |> |>) s
                    <| s_nft ::= fun n => n <| secret_data ::= <[i := y]> |> |>) [Ev_SecretAddedToNFT i y]
  | C_convert_to_capsule i y => exists d, nfts (s_nft s) !! i = Some d /\
      becomes s' (write i (d <| nstate ::= fun f => f <| is_capsule := true |> <| is_syncing_capsule := true |> |>) s
                    <| s_nft ::= fun n => n <| capsule_data ::= <[i := y]> |> |>) [Ev_NFTConvertedToCapsule i y]
  | C_add_secret_shard i => exists d op cl, nfts (s_nft s) !! i = Some d /\ enclave_of s w op cl /\
      let l := default [] (secret_shards (s_nft s) !! i) ++ [(cl, op)] in
      if decide (nlen l = shards_number)
      then becomes s' (write i (d <| nstate ::= fun f => f <| is_syncing_secret := false |> |>) s
                         <| s_nft ::= fun n => n <| secret_shards ::= delete i |> |>) [Ev_ShardAdded i w; Ev_SecretNFTSynced i]
      else becomes s' (s <| s_nft ::= fun n => n <| secret_shards ::= <[i := l]> |> |>) [Ev_ShardAdded i w]
  | C_add_capsule_shard i => exists d op cl, nfts (s_nft s) !! i = Some d /\ enclave_of s w op cl /\
      let l := default [] (capsule_shards (s_nft s) !! i) ++ [(cl, op)] in
      if decide (nlen l = shards_number)
      then becomes s' (write i (d <| nstate ::= fun f => f <| is_syncing_capsule := false |> |>) s
                         <| s_nft ::= fun n => n <| capsule_shards ::= delete i |> |>) [Ev_CapsuleShardAdded i w; Ev_CapsuleSynced i]
      else becomes s' (s <| s_nft ::= fun n => n <| capsule_shards ::= <[i := l]> |> |>) [Ev_CapsuleShardAdded i w]
  | C_set_capsule_offchaindata i y => becomes s' (s <| s_nft ::= fun n => n <| capsule_data ::= <[i := y]> |> |>) [Ev_CapsuleOffchainDataSet i y]
  | C_notify_enclave_key_update i => exists d, nfts (s_nft s) !! i = Some d /\
      becomes s' (write i (d <| nstate ::= fun f => f <| is_syncing_capsule := true |> |>) s) [Ev_CapsuleKeyUpdateNotified i]
  | _ => False
  end.

(** * marketplace *)

(** Marketplace [k] now has the record [m]. *)
Definition write_mkt (k : N) (m : marketplace) (s : state) : state := s <| s_mkt ::= fun x => x <| mkts ::= <[k := m]> |> |>.
(** What a [ConfigOp] makes of a field. *)
Definition configured {A} (op : config_op A) (old : option A) : option A :=
  match op with Noop => old | SetTo v => Some v | RemoveIt => None end.

Definition mkt_does (s : state) (w : N) (c : call) (s' : state) : Prop :=
  match c with
  | C_create_marketplace kind => let k := next_mkt (s_mkt s) in
      becomes s' (write_mkt k {| m_owner := w; m_kind := kind; m_commission := None; m_listing := None; m_accounts := None;
                                 m_offchain := None; m_collections := None |} s <| s_mkt ::= fun x => x <| next_mkt := k + 1 |> |>)
        [Ev_MarketplaceCreated k w kind]
  | C_set_marketplace_owner k a => exists m, mkts (s_mkt s) !! k = Some m /\
      becomes s' (write_mkt k (m <| m_owner := a |>) s) [Ev_MarketplaceOwnerSet k a]
  | C_set_marketplace_kind k kind => exists m, mkts (s_mkt s) !! k = Some m /\
      becomes s' (write_mkt k (m <| m_kind := kind |>) s) [Ev_MarketplaceKindSet k kind]
  | C_set_marketplace_configuration k f1 f2 la x lc => exists m, mkts (s_mkt s) !! k = Some m /\
      becomes s' (write_mkt k {| m_owner := m_owner m; m_kind := m_kind m; m_commission := configured f1 (m_commission m);
                                 m_listing := configured f2 (m_listing m); m_accounts := configured la (m_accounts m);
                                 m_offchain := configured x (m_offchain m); m_collections := configured lc (m_collections m) |} s)
        [Ev_MarketplaceConfigSet k f1 f2 la x lc]
  | C_list_nft i k p => exists d m, nfts (s_nft s) !! i = Some d /\ mkts (s_mkt s) !! k = Some m /\
      becomes s' (write i (d <| nstate ::= fun f => f <| is_listed := true |> |>) s
                    <| s_mkt ::= fun x => x <| sales ::= <[i := {| sale_seller := w; sale_mkt := k; sale_price := p; sale_commission := m_commission m |}]> |> |>)
        [Ev_NFTListed i k p (m_commission m)]
  | C_unlist_nft i => exists d, nfts (s_nft s) !! i = Some d /\
      becomes s' (write i (d <| nstate ::= fun f => f <| is_listed := false |> |>) s
                    <| s_mkt ::= fun x => x <| sales ::= delete i |> |>) [Ev_NFTUnlisted i]
  | C_buy_nft i p => exists d x com roy rest, nfts (s_nft s) !! i = Some d /\ sales (s_mkt s) !! i = Some x /\
      division (sale_commission x) d p com roy rest /\
      becomes s' (write i (d <| owner := w |> <| nstate ::= fun f => f <| is_listed := false |> |>) s
                    <| s_mkt ::= fun x => x <| sales ::= delete i |> |>) [Ev_NFTSold i (sale_mkt x) w p com roy]
  | _ => False
  end.

(** * auction *)

(** A queue is in the order of its blocks. *)
Definition in_order (q : list (N * N)) : Prop := StronglySorted (fun x y => snd x <= snd y) q.
(** The entry of [i], if there is one, is set to block [e]. *)
Definition rescheduled (i e : N) (q q' : list (N * N)) : Prop :=
  in_order q' /\ q' ≡ₚ map (fun x => if decide (fst x = i) then (i, e) else x) q.
(** The list without the entry of [i]. *)
Definition without (i : N) (l : list (N * N)) : list (N * N) := filter (fun x => fst x <> i) l.
(** The refunds [m] grow by the bids in [l] (up to the largest u128). *)
Definition credited (l : list (N * N)) (m m' : gmap N N) : Prop :=
  (forall w x, (w, x) ∈ l -> m' !! w = Some (N.min u128_max (default 0 (m !! w) + x))) /\
  (forall w, (forall x, (w, x) ∉ l) -> m' !! w = m !! w).
(** The auction of NFT [i] is over: NFT [i] belongs to [o]; the refunds are now [cl]. *)
Definition auction_over (i o : N) (d : nft_data) (cl : gmap N N) (s : state) : state :=
  write i (d <| owner := o |> <| nstate ::= fun f => f <| is_listed := false |> |>) s
    <| s_auc ::= fun x => mkAucSt (delete i (auctions x)) (commissions x) (without i (deadlines x)) cl |>.

Definition auc_does (s : state) (w : N) (c : call) (s' : state) : Prop :=
  let x0 := s_auc s in
  match c with
  | C_create_auction i k st e sp bi => exists d m dl, nfts (s_nft s) !! i = Some d /\ mkts (s_mkt s) !! k = Some m /\
      in_order dl /\ dl ≡ₚ (i, e) :: deadlines x0 /\
      becomes s' (write i (d <| nstate ::= fun f => f <| is_listed := true |> |>) s
                    <| s_auc := mkAucSt (<[i := mkAuction w st e sp bi [] k false]> (auctions x0)) (<[i := m_commission m]> (commissions x0)) dl (claims x0) |>)
        [Ev_AuctionCreated i k w sp bi st e]
  | C_cancel_auction i => exists d a cl, nfts (s_nft s) !! i = Some d /\ auctions x0 !! i = Some a /\
      credited (a_bidders a) (claims x0) cl /\
      becomes s' (auction_over i (owner d) d cl s) [Ev_AuctionCancelled i]
  | C_end_auction i => exists d a l v x f com roy rest cl, nfts (s_nft s) !! i = Some d /\ auctions x0 !! i = Some a /\
      a_bidders a = l ++ [(v, x)] /\ commissions x0 !! i = Some f /\ division f d x com roy rest /\
      credited l (claims x0) cl /\
      becomes s' (auction_over i v d cl s) [Ev_AuctionCompleted i (Some v) (Some x) (Some com) (Some roy) (Some rest)]
  | C_add_bid i y => exists a l dl cl news, auctions x0 !! i = Some a /\
      (let others := without w (a_bidders a) in
       (nlen others < bidder_limit /\ l = others /\ cl = claims x0 /\ news = []) \/
       (exists v z, bidder_limit <= nlen others /\ others = (v, z) :: l /\ credited [(v, z)] (claims x0) cl /\ news = [Ev_BidDropped i v z])) /\
      let late := bool_decide (a_end a - s_now s < grace_period) in
      let e := if late then N.min (s_now s) (a_end a) + grace_period else a_end a in
      (if late then rescheduled i e (deadlines x0) dl else dl = deadlines x0) /\
      becomes s' (s <| s_auc := mkAucSt (<[i := a <| a_bidders := l ++ [(w, y)] |> <| a_end := e |> <| a_extended := late || a_extended a |>]> (auctions x0))
                                  (commissions x0) dl cl |>) (news ++ [Ev_BidAdded i w y])
  | C_remove_bid i => exists a x, auctions x0 !! i = Some a /\ (w, x) ∈ a_bidders a /\
      becomes s' (s <| s_auc ::= fun z => z <| auctions ::= <[i := a <| a_bidders := without w (a_bidders a) |>]> |> |>) [Ev_BidRemoved i w x]
  | C_buy_it_now i p => exists d a f com roy rest cl, nfts (s_nft s) !! i = Some d /\ auctions x0 !! i = Some a /\
      commissions x0 !! i = Some f /\ division f d p com roy rest /\ credited (a_bidders a) (claims x0) cl /\
      becomes s' (auction_over i w d cl s) [Ev_AuctionCompleted i (Some w) (Some p) (Some com) (Some roy) (Some rest)]
  | C_claim => exists x, claims x0 !! w = Some x /\
      becomes s' (s <| s_auc ::= fun z => z <| claims ::= delete w |> |>) [Ev_BalanceClaimed w x]
  | _ => False
  end.

(** * rent *)

(** NFT [j] goes to [o]; as a deposit; as a rent. *)
Definition passed (j o : N) (s : state) : state := s <| s_nft ::= fun n => n <| nfts ::= alter (fun d => d <| owner := o |>) j |> |>.
Definition deposit_to (f : cancel_fee) (o : N) (s : state) : state := match f with FeeNFT j => passed j o s | _ => s end.
Definition rent_to (f : rent_fee) (o : N) (s : state) : state := match f with RentNFT j => passed j o s | _ => s end.
(** [q'] is [q] with a new entry. *)
Definition enters (i b : N) (q q' : list (N * N)) : Prop := in_order q' /\ q' ≡ₚ (i, b) :: q.
(** Contract [i] is in none of the queues any more. *)
Definition unscheduled (i : N) (q : rent_queues) : rent_queues :=
  mkQueues (without i (q_fixed q)) (without i (q_sub q)) (without i (q_avail q)).
(** Contract [c] of NFT [i] starts at block [now]: its next block, and the queue it is in. *)
Definition starts (i now : N) (c : contract) (q q' : rent_queues) : Prop :=
  q_avail q' = without i (q_avail q) /\
  match r_duration c with
  | Fixed n => enters i (now + n) (q_fixed q) (q_fixed q') /\ q_sub q' = q_sub q
  | Subscription x => q_fixed q' = q_fixed q /\ enters i (now + period_length x) (q_sub q) (q_sub q')
  end.
(** [t] has rented NFT [i] under contract [c]. *)
Definition begun (i t : N) (c : contract) (q : rent_queues) (s : state) : state :=
  deposit_to (r_rentee_cf c) rent_pot (rent_to (r_rent_fee c) (r_renter c) s)
    <| s_rent ::= fun x => mkRentSt (<[i := c <| r_rentee := Some t |> <| r_start := Some (s_now s) |>]> (contracts x)) (delete i (offers x)) q |>.
(** The duration asked for; without a maximum it is the largest possible one. *)
Definition duration_asked (di : duration_input) : duration :=
  match di with
  | FixedIn n => Fixed n
  | SubscriptionIn p m ch => Subscription (mkSub p (match m with Some x => x | None => duration_limit end) ch false)
  end.

Definition rent_does (s : state) (w : N) (c : call) (s' : state) : Prop :=
  let x0 := s_rent s in
  match c with
  | C_create_contract i di acc cr fee cf1 cf2 => exists d q, nfts (s_nft s) !! i = Some d /\
      enters i (s_now s + availability_limit) (q_avail (queues x0)) q /\
      becomes s' (write i (d <| nstate ::= fun f => f <| is_rented := true |> |>) (deposit_to cf1 rent_pot s)
                    <| s_rent := mkRentSt (<[i := mkContract None w None (duration_asked di) acc cr fee cf1 cf2 (s_now s)]> (contracts x0))
                                   (offers x0) (queues x0 <| q_avail := q |>) |>)
        [Ev_ContractCreated i w (duration_asked di) acc cr fee cf1 cf2]
  | C_cancel_contract i => exists d c, nfts (s_nft s) !! i = Some d /\ contracts x0 !! i = Some c /\
      becomes s' (write i (d <| nstate ::= fun f => f <| is_rented := false |> |>) (deposit_to (r_renter_cf c) (r_renter c) s)
                    <| s_rent := mkRentSt (delete i (contracts x0)) (delete i (offers x0)) (unscheduled i (queues x0)) |>)
        [Ev_ContractCanceled i]
  | C_revoke_contract i => exists c other own theirs, contracts x0 !! i = Some c /\ revokes c w other own theirs /\
      becomes s' (deposit_to own other (deposit_to theirs other s)
                    <| s_nft ::= fun n => n <| nfts ::= alter (fun d => d <| nstate ::= fun f => f <| is_rented := false |> |>) i |> |>
                    <| s_rent := mkRentSt (delete i (contracts x0)) (offers x0) (unscheduled i (queues x0)) |>)
        [Ev_ContractRevoked i w]
  | C_rent i _ => exists c q, contracts x0 !! i = Some c /\ starts i (s_now s) c (queues x0) q /\
      becomes s' (begun i w c q s) [Ev_ContractStarted i w]
  | C_accept_rent_offer i t => exists c q, contracts x0 !! i = Some c /\ starts i (s_now s) c (queues x0) q /\
      becomes s' (begun i t c q s) [Ev_ContractStarted i t]
  | C_make_rent_offer i _ =>
      becomes s' (s <| s_rent ::= fun x => x <| offers ::= <[i := default [] (offers x !! i) ++ [w]]> |> |>) [Ev_ContractOfferCreated i w]
  | C_retract_rent_offer i => exists l1 l2, offers x0 !! i = Some (l1 ++ w :: l2) /\
      becomes s' (s <| s_rent ::= fun x => x <| offers ::= <[i := l1 ++ l2]> |> |>) [Ev_ContractOfferRetracted i w]
  | C_change_subscription_terms i fee p md ch => exists c, contracts x0 !! i = Some c /\
      let m := match md with Some x => x | None => duration_limit end in
      becomes s' (s <| s_rent ::= fun x => x
                    <| contracts ::= <[i := c <| r_duration := Subscription (mkSub p m ch true) |> <| r_rent_fee := RentTokens fee |>]> |>
                    <| offers ::= match r_rentee c with None => delete i | Some _ => id end |> |>)
        [Ev_ContractSubscriptionTermsChanged i p m ch fee]
  | C_accept_subscription_terms i _ _ _ _ => exists c x, contracts x0 !! i = Some c /\ r_duration c = Subscription x /\
      becomes s' (s <| s_rent ::= fun z => z
                    <| contracts ::= <[i := c <| r_duration := Subscription (mkSub (period_length x) (max_duration x) (is_changeable x) false) |>]> |> |>)
        [Ev_ContractSubscriptionTermsAccepted i]
  | _ => False
  end.

(** * transmission *)

Definition trans_does (s : state) (w : N) (c : call) (s' : state) : Prop :=
  let x0 := s_trans s in
  match c with
  | C_set_transmission_protocol i r p cn => exists d q, nfts (s_nft s) !! i = Some d /\
      match p with
      | AtBlock b | AtBlockWithReset b => enters i b (t_queue x0) q
      | _ => q = t_queue x0
      end /\
      becomes s' (write i (d <| nstate ::= fun f => f <| is_transmission := true |> |>) s
                    <| s_trans ::= fun x => x <| transs ::= <[i := mkTrans r p cn]> |> <| t_queue := q |> |>) [Ev_ProtocolSet i r p cn]
  | C_remove_transmission_protocol i => exists d, nfts (s_nft s) !! i = Some d /\
      becomes s' (write i (d <| nstate ::= fun f => f <| is_transmission := false |> |>) s
                    <| s_trans ::= fun x => x <| transs ::= delete i |> <| consents ::= delete i |> <| t_queue ::= without i |> |>)
        [Ev_ProtocolRemoved i]
  | C_reset_timer i b => exists t q, transs x0 !! i = Some t /\ rescheduled i b (t_queue x0) q /\
      becomes s' (s <| s_trans ::= fun x => x <| transs ::= <[i := t <| t_protocol := AtBlockWithReset b |>]> |> <| t_queue := q |> |>)
        [Ev_TimerReset i b]
  | C_add_consent i => exists t l k, transs x0 !! i = Some t /\ asks (t_protocol t) l k /\
      let cs := consents_of s i ++ [w] in
      (nlen cs < k /\ becomes s' (s <| s_trans ::= fun x => x <| consents ::= <[i := cs]> |> |>) [Ev_ConsentAdded i w]) \/
      (k <= nlen cs /\ exists b q, block_of (t_protocol t) = Some b /\ s_now s < b /\ enters i b (t_queue x0) q /\
        becomes s' (s <| s_trans ::= fun x => x <| consents ::= delete i |> <| t_queue := q |> |>)
          [Ev_ConsentAdded i w; Ev_ThresholdReached i]) \/
      (k <= nlen cs /\ (forall b, block_of (t_protocol t) = Some b -> b <= s_now s) /\ exists d, nfts (s_nft s) !! i = Some d /\
        becomes s' (write i (d <| owner := t_recipient t |> <| nstate ::= fun f => f <| is_transmission := false |> |>) s
                      <| s_trans ::= fun x => x <| transs ::= delete i |> <| consents ::= delete i |> |>)
          [Ev_ConsentAdded i w; Ev_ThresholdReached i; Ev_Transmitted i])
  | _ => False
  end.

(** * tee *)

Definition in_tee (f : tee_st -> tee_st) (s : state) : state := s <| s_tee ::= f |>.
(** Report [r] replaces the one of the same metrics server, or is added. *)
Definition reported (r : report) (l l' : list report) : Prop :=
  (exists l1 x l2, l = l1 ++ x :: l2 /\ rp_submitted_by x = rp_submitted_by r /\ l' = l1 ++ r :: l2) \/
  (rp_submitted_by r ∉ map rp_submitted_by l /\ l' = l ++ [r]).

Definition tee_does (s : state) (w : N) (c : call) (s' : state) : Prop :=
  let x0 := s_tee s in
  let amt := staking_amount x0 in
  match c with
  | C_register_enclave a u =>
      becomes s' (in_tee (fun x => x <| regs ::= <[w := mkEnclave a u]> |> <| ledgers ::= <[w := mkLedger w amt false 0]> |>) s)
        [Ev_EnclaveAddedForRegistration w a u; Ev_Bonded w amt]
  | C_unregister_enclave =>
      (assigned s w /\ exists l, ledgers x0 !! w = Some l /\
         becomes s' (in_tee (fun x => x <| unregs := unregs x0 ++ [w] |>
                                        <| ledgers ::= <[w := mkLedger (l_operator l) (l_staked l) true (s_now s)]> |>) s)
           [Ev_MovedForUnregistration w; Ev_Unbonded w (l_staked l)]) \/
      (~ assigned s w /\
         becomes s' (in_tee (fun x => x <| regs ::= delete w |> <| ledgers ::= delete w |>) s) [Ev_RegistrationRemoved w; Ev_Withdrawn w amt])
  | C_update_enclave a u => becomes s' (in_tee (fun x => x <| updates ::= <[w := mkEnclave a u]> |>) s) [Ev_MovedForUpdate w a u]
  | C_cancel_update => becomes s' (in_tee (fun x => x <| updates ::= delete w |>) s) [Ev_UpdateRequestCancelled w]
  | C_withdraw_unbonded => becomes s' (in_tee (fun x => x <| ledgers ::= delete w |>) s) [Ev_Withdrawn w amt]
  | C_submit_metrics_server_report op r => exists active l, s_era s = Some active /\
      reported r (reports_of s (active - 1) op) l /\
      becomes s' (in_tee (fun x => x <| reports ::= <[(active - 1, op) := l]> |>) s) [Ev_MetricsServerReportSubmitted (active - 1) op r]
  | C_claim_rewards e => exists x, reward s w e x /\
      becomes s' (in_tee (fun z => z <| claimed ::= <[(e, w) := x]> |>) s) [Ev_RewardsClaimed e w x]
  | C_bond_extra => exists l, ledgers x0 !! w = Some l /\
      becomes s' (in_tee (fun x => x <| ledgers ::= <[w := l <| l_staked := amt |>]> |>) s) [Ev_BondedExtra w (amt - l_staked l)]
  | C_refund_excess => exists l, ledgers x0 !! w = Some l /\
      becomes s' (in_tee (fun x => x <| ledgers ::= <[w := l <| l_staked := amt |>]> |>) s) [Ev_RefundedExcess w (l_staked l - amt)]
  | _ => False
  end.

(** The lock of [v] after call [c] of [w]: the stake, nothing, or what it was.  (What setting a
    lock of zero does depends on the balances pallet.) *)
Definition set_to (amt : N) (old : option N) : option N :=
  if decide (amt = 0) then (if zero_lock_clears then None else old) else Some amt.
Definition lock_after (s : state) (w : N) (c : call) (v : N) (l : option N) : Prop :=
  match c with
  | C_register_enclave _ _ | C_bond_extra | C_refund_excess =>
      l = if decide (v = w) then set_to (staking_amount (s_tee s)) (locked s v) else locked s v
  | C_withdraw_unbonded => l = if decide (v = w) then None else locked s v
  | C_unregister_enclave => (v = w /\ ~ assigned s w /\ l = None) \/ ((v <> w \/ assigned s w) /\ l = locked s v)
  | C_remove_registration op => l = if decide (v = op) then None else locked s v
  | _ => l = locked s v
  end.

(** * bridge *)

Definition bridge_does (s : state) (w : N) (c : call) (s' : state) : Prop :=
  let x0 := s_brg s in
  match c with
  | C_vote_for_proposal ch n r m =>
      let key := (ch, (n, r, m)) in
      let p := default (mkProposal [] Initiated (s_now s + proposal_lifetime)) (votes x0 !! key) in
      let l := p_votes p ++ [w] in
      if decide (vote_threshold x0 <= nlen l)
      then becomes s' (s <| s_brg ::= fun x => x <| votes ::= <[key := mkProposal l Approved (p_expiry p)]> |> |>)
             [Ev_RelayerVoted ch n w; Ev_ProposalApproved ch n]
      else becomes s' (s <| s_brg ::= fun x => x <| votes ::= <[key := mkProposal l Initiated (p_expiry p)]> |> |>)
             [Ev_RelayerVoted ch n w]
  | C_deposit m r ch => exists n, nonces x0 !! ch = Some n /\
      let n' := if decide (n < u64_max) then n + 1 else 0 in
      becomes s' (s <| s_brg ::= fun x => x <| nonces ::= <[ch := n']> |> |>) [Ev_DepositMade ch n' m r]
  | _ => False
  end.

(** * administration *)

(** Operator [op] with enclave [e] leaves cluster [k], in which [l] remain. *)
Definition detached (op : N) (e : enclave) (k : N) (cl : cluster) (l : list (N * N)) (x : tee_st) : tee_st :=
  x <| encs ::= delete op |> <| addr_op ::= delete (e_addr e) |> <| enc_cluster ::= delete op |> <| assigned_era ::= delete op |>
    <| updates ::= delete op |> <| clusters ::= <[k := mkCluster l (cl_type cl)]> |>.
Definition leaves (s : state) (op : N) (e : enclave) (k : N) (cl : cluster) (l : list (N * N)) : Prop :=
  encs (s_tee s) !! op = Some e /\ enc_cluster (s_tee s) !! op = Some k /\ clusters (s_tee s) !! k = Some cl /\
  exists sl, cl_enclaves cl ≡ₚ (op, sl) :: l.

Definition root_does (s : state) (c : call) (s' : state) : Prop :=
  let x0 := s_tee s in
  match c with
  | C_assign_enclave op k sl => exists r cl era, regs x0 !! op = Some r /\ clusters x0 !! k = Some cl /\ s_era s = Some era /\
      becomes s' (in_tee (fun x => x <| regs ::= delete op |> <| encs ::= <[op := r]> |> <| addr_op ::= <[e_addr r := op]> |>
                                     <| enc_cluster ::= <[op := k]> |> <| assigned_era ::= <[op := era]> |>
                                     <| clusters ::= <[k := mkCluster (cl_enclaves cl ++ [(op, sl)]) (cl_type cl)]> |>) s) [Ev_EnclaveAssigned op k]
  | C_remove_registration op =>
      becomes s' (in_tee (fun x => x <| regs ::= delete op |> <| ledgers ::= delete op |>) s) [Ev_RegistrationRemoved op]
  | C_reject_update op => becomes s' (in_tee (fun x => x <| updates ::= delete op |>) s) [Ev_UpdateRequestRemoved op]
  | C_approve_enclave_unregistration op => exists e k cl l u, leaves s op e k cl l /\ unregs x0 ≡ₚ op :: u /\
      becomes s' (in_tee (fun x => detached op e k cl l x <| unregs := u |>) s) [Ev_EnclaveRemoved op]
  | C_force_remove_enclave op => exists e k cl l u g, leaves s op e k cl l /\
      (unregs x0 ≡ₚ op :: u \/ (op ∉ unregs x0 /\ u = unregs x0)) /\ ledgers x0 !! op = Some g /\
      becomes s' (in_tee (fun x => detached op e k cl l x <| unregs := u |>
                                     <| ledgers ::= <[op := mkLedger (l_operator g) (l_staked g) true (s_now s)]> |>) s)
        [Ev_Unbonded op (l_staked g); Ev_EnclaveRemoved op]
  | C_approve_update_enclave op => exists u, updates x0 !! op = Some u /\
      becomes s' (in_tee (fun x => x <| encs ::= <[op := u]> |> <| addr_op ::= <[e_addr u := op]> |> <| updates ::= delete op |>) s)
        [Ev_EnclaveUpdated op (e_addr u) (e_uri u)]
  | C_force_update_enclave op a u => exists e, encs x0 !! op = Some e /\
      let e' := mkEnclave (default (e_addr e) a) (default (e_uri e) u) in
      becomes s' (in_tee (fun x => x <| encs ::= <[op := e']> |> <| addr_op ::= fun m => <[e_addr e' := op]> (delete (e_addr e) m) |>
                                     <| updates ::= delete op |>) s) [Ev_EnclaveForceUpdated op a u]
  | C_create_cluster ty => let k := next_cluster x0 in
      becomes s' (in_tee (fun x => x <| clusters ::= <[k := mkCluster [] ty]> |> <| next_cluster := k + 1 |>) s) [Ev_ClusterAdded k ty]
  | C_update_cluster k ty => exists cl, clusters x0 !! k = Some cl /\
      becomes s' (in_tee (fun x => x <| clusters ::= <[k := mkCluster (cl_enclaves cl) ty]> |>) s) [Ev_ClusterUpdated k ty]
  | C_remove_cluster k => becomes s' (in_tee (fun x => x <| clusters ::= delete k |>) s) [Ev_ClusterRemoved k]
  | C_register_metrics_server a ty =>
      becomes s' (in_tee (fun x => x <| servers := servers x0 ++ [(a, ty)] |>) s) [Ev_MetricsServerAdded a ty]
  | C_unregister_metrics_server a => exists ty l, servers x0 ≡ₚ (a, ty) :: l /\
      becomes s' (in_tee (fun x => x <| servers := l |>) s) [Ev_MetricsServerRemoved a]
  | C_force_update_metrics_server_type a ty => exists l1 old l2, servers x0 = l1 ++ (a, old) :: l2 /\
      becomes s' (in_tee (fun x => x <| servers := l1 ++ (a, ty) :: l2 |>) s) [Ev_MetricsServerTypeUpdated a ty]
  | C_update_operator_assigned_era op e =>
      becomes s' (in_tee (fun x => x <| assigned_era ::= <[op := e]> |>) s) [Ev_OperatorAssignedEraUpdated op e]
  | C_set_report_params_weightage g => becomes s' (in_tee (fun x => x <| weights := g |>) s) [Ev_ReportParamsWeightageModified g]
  | C_set_staking_amount y => becomes s' (in_tee (fun x => x <| staking_amount := y |>) s) [Ev_StakingAmountIsSet y]
  | C_set_daily_reward_pool y => becomes s' (in_tee (fun x => x <| reward_pool := y |>) s) [Ev_RewardAmountIsSet y]
  | C_set_nft_mint_fee y => becomes s' (s <| s_nft ::= fun x => x <| mint_fee := y |> |>) [Ev_NFTMintFeeSet y]
  | C_set_secret_nft_mint_fee y => becomes s' (s <| s_nft ::= fun x => x <| secret_fee := y |> |>) [Ev_SecretNFTMintFeeSet y]
  | C_set_capsule_mint_fee y => becomes s' (s <| s_nft ::= fun x => x <| capsule_fee := y |> |>) [Ev_CapsuleMintFeeSet y]
  | C_set_marketplace_mint_fee y => becomes s' (s <| s_mkt ::= fun x => x <| mkt_fee := y |> |>) [Ev_MarketplaceMintFeeSet y]
  | C_set_protocol_fee KAtBlock y => becomes s' (s <| s_trans ::= fun x => x <| fee_at_block := y |> |>) [Ev_ProtocolFeeSet KAtBlock y]
  | C_set_protocol_fee KAtBlockWithReset y =>
      becomes s' (s <| s_trans ::= fun x => x <| fee_at_block_reset := y |> |>) [Ev_ProtocolFeeSet KAtBlockWithReset y]
  | C_set_protocol_fee KOnConsent y => becomes s' (s <| s_trans ::= fun x => x <| fee_on_consent := y |> |>) [Ev_ProtocolFeeSet KOnConsent y]
  | C_set_protocol_fee KOnConsentAtBlock y =>
      becomes s' (s <| s_trans ::= fun x => x <| fee_on_consent_at_block := y |> |>) [Ev_ProtocolFeeSet KOnConsentAtBlock y]
  | _ => False
  end.

(** [C_mandate] runs a call as root, all or nothing, and reports how it went. *)
Definition external_does (s : state) (c : call) (s' : state) : Prop :=
  match c with
  | C_set_threshold n => becomes s' (s <| s_brg ::= fun x => x <| vote_threshold := n |> |>) [Ev_RelayerThresholdUpdated n]
  | C_add_chain k => becomes s' (s <| s_brg ::= fun x => x <| nonces ::= <[k := 0]> |> |>) [Ev_ChainAllowed k]
  | C_set_relayers l => becomes s' (s <| s_brg ::= fun x => x <| relayers := l |> |>) [Ev_RelayersUpdated l]
  | C_set_deposit_nonce k n => becomes s' (s <| s_brg ::= fun x => x <| nonces ::= <[k := n]> |> |>) [Ev_DepositNonceUpdated k n]
  | C_set_bridge_fee y => becomes s' (s <| s_brg ::= fun x => x <| bridge_fee := y |> |>) [Ev_BridgeFeeUpdated y]
  | C_set_session_extra_reward_payout y =>
      becomes s' (s <| s_srw ::= fun x => x <| session_extra := y |> |>) [Ev_SessionExtraRewardPayoutChanged y]
  | C_mandate c =>
      (exists s1, dispatch Root c s = (Ok tt, s1) /\ s' = s1 <| s_events ::= cons (Ev_RootOp None) |>) \/
      (exists e, fst (dispatch Root c s) = Err e /\ s' = s <| s_events ::= cons (Ev_RootOp (Some e)) |>)
  | _ => False
  end.

(** The calls of these pallets that move tokens. *)
Definition moves_tokens (c : call) : Prop :=
  match c with
  | C_create_nft _ _ _ _ | C_create_secret_nft _ _ _ _ _ | C_create_capsule _ _ _ _ _ | C_add_secret _ _ | C_convert_to_capsule _ _
  | C_create_marketplace _ | C_list_nft _ _ _ | C_buy_nft _ _
  | C_end_auction _ | C_add_bid _ _ | C_remove_bid _ | C_buy_it_now _ _ | C_claim
  | C_create_contract _ _ _ _ _ _ _ | C_cancel_contract _ | C_revoke_contract _ | C_rent _ _ | C_accept_rent_offer _ _
  | C_set_transmission_protocol _ _ _ _ | C_claim_rewards _ | C_vote_for_proposal _ _ _ _ | C_deposit _ _ _ | C_mandate _ => True
  | _ => False
  end.
(** The published fee for the services of the other pallets. *)
Definition service_fee (s : state) (c : call) : option N :=
  match c with
  | C_create_marketplace _ => Some (mkt_fee (s_mkt s))
  | C_set_transmission_protocol _ _ p _ => Some (fee_for s p)
  | _ => None
  end.
End effects.
