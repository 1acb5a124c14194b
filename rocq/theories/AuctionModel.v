(** Model of pallet auction (auction/src/lib.rs, auction/src/types.rs). *)
From Verif Require Export MarketModel.
Local Open Scope N_scope.

Section auction.
Context {C : Config}.

(** models an error of auction/src/lib.rs:259-336. *)
Definition aerr (e : auc_error) : error := Auction_err e.

(** [Auctions::get] (auction/src/lib.rs:188-197) *)
Definition get_auction (id : N) : M (option auction) := gets (fun s => auctions (s_auc s) !! id).
(** [Auctions::insert] (auction/src/lib.rs:188-197) *)
Definition set_auction (id : N) (a : auction) : M unit := mod_auc (fun x => x <| auctions ::= <[id := a]> |>).
(** [Auctions::remove] (auction/src/lib.rs:188-197) *)
Definition del_auction (id : N) : M unit := mod_auc (fun x => x <| auctions ::= delete id |>).

(** ** Bidder lists (auction/src/types.rs:143-215) *)

(** models auction/src/types.rs:179-181 ([get_highest_bid]) *)
Definition highest_bid (l : list (N * N)) : option (N * N) := last l.

(** models auction/src/types.rs:194-199 ([remove_highest_bid]): the bid and the rest. *)
Definition pop_highest (l : list (N * N)) : option ((N * N) * list (N * N)) :=
  match last l with
  | None => None
  | Some b => Some (b, take (length l - 1) l)
  end.

(** models auction/src/types.rs:210-215 ([find_bid]): the amount of the first bid of [who]. *)
Fixpoint find_bid (who : N) (l : list (N * N)) : option N :=
  match l with
  | [] => None
  | (w, x) :: l' => if w =? who then Some x else find_bid who l'
  end.

(** models auction/src/types.rs:202-207 ([remove_bid]) *)
Fixpoint del_bid (who : N) (l : list (N * N)) : list (N * N) :=
  match l with
  | [] => []
  | (w, x) :: l' => if w =? who then l' else (w, x) :: del_bid who l'
  end.

(** models auction/src/types.rs:156-171 ([insert_new_bid]): the dropped bid, if the list was
    full, and the new list.  On a full list of capacity zero [self.list.remove(0)] panics
    (handled in [add_bid]). *)
Definition insert_new_bid (who amt : N) (l : list (N * N)) : option (N * N) * list (N * N) :=
  if bidder_limit <=? nlen l
  then (head l, tail l ++ [(who, amt)])
  else (None, l ++ [(who, amt)]).

(** models auction/src/types.rs:106-124 ([extend_if_necessary]): the new auction and the new
    end block if it was extended.  Block numbers do not overflow in the model. *)
Definition extend_if_necessary (now : N) (a : auction) : auction * option N :=
  let remaining := a_end a - now in
  if remaining <? grace_period
  then let e := a_end a + (grace_period - remaining) in
       (a <| a_end := e |> <| a_extended := true |>, Some e)
  else (a, None).

(** ** Helpers (auction/src/lib.rs:660-729) *)

(** models auction/src/lib.rs:704-708 ([add_claim]) *)
Definition add_claim (who amt : N) : M unit :=
  mod_auc (fun x => x <| claims ::= <[who := sadd (default 0 (claims x !! who)) amt]> |>).

(** models [auction.for_each_bidder(..add_claim..)] (auction/src/lib.rs:154, 462, 489, 629; auction/src/types.rs:84-86) *)
Definition claim_all (l : list (N * N)) : M unit := for_each l (fun x => add_claim (fst x) (snd x)).

(** models auction/src/lib.rs:666-702 ([pay_for_nft]): the three amounts paid. *)
Definition pay_for_nft (id from amount : N) (d : nft_data) (a : auction) : M (N * N * N) :=
  let! om := get_mkt (a_mkt a) in
  let! m := unwrap om (aerr A_MarketplaceNotFound) in
  let! oc := gets (fun s => commissions (s_auc s) !! id) in
  let! c := unwrap oc (aerr A_AuctionCommissionDoesNotExist) in
  let to_mkt := match c with None => 0 | Some f => fee_amount f amount end in
  let to_creator := permill_mul (royalty d) (amount - to_mkt) in
  let to_auctioneer := amount - to_mkt - to_creator in
  let keep := negb (from =? auction_pot) in
  transfer from (m_owner m) to_mkt keep ;;;
  transfer from (creator d) to_creator keep ;;;
  transfer from (a_creator a) to_auctioneer keep ;;;
  ret (to_mkt, to_creator, to_auctioneer).

(** models auction/src/lib.rs:714-729 ([emit_auction_completed_event]) *)
Definition emit_completed (id : N) (r : option (N * N * (N * N * N))) : M unit :=
  match r with
  | Some (w, paid, (m, c, t)) => emit (Ev_AuctionCompleted id (Some w) (Some paid) (Some m) (Some c) (Some t))
  | None => emit (Ev_AuctionCompleted id None None None None None)
  end.

(** ** Extrinsics *)

(** models auction/src/lib.rs:342-447 ([create_auction]) *)
Definition create_auction (who id mkt start end_ start_price : N) (buy_it : option N) : M unit :=
  let! now := gets s_now in
  ensure (now <=? start) (aerr A_AuctionCannotStartInThePast) ;;;
  ensure (start <? end_) (aerr A_AuctionCannotEndBeforeItHasStarted) ;;;
  ensure (end_ - start <=? max_auction_duration) (aerr A_AuctionDurationIsTooLong) ;;;
  ensure (min_auction_duration <=? end_ - start) (aerr A_AuctionDurationIsTooShort) ;;;
  ensure (start - now <=? max_auction_delay) (aerr A_AuctionStartIsTooFarAway) ;;;
  on_some buy_it (fun p => ensure (start_price <? p) (aerr A_BuyItPriceCannotBeLessOrEqualThanStartPrice)) ;;;
  let! o := get_nft id in
  let! d := unwrap o (aerr A_NFTNotFound) in
  ensure (owner d =? who) (aerr A_CannotListNotOwnedNFTs) ;;;
  ensure (negb (is_listed (nstate d))) (aerr A_CannotListListedNFTs) ;;;
  ensure (negb (is_delegated (nstate d))) (aerr A_CannotListDelegatedNFTs) ;;;
  ensure (negb (soulbound_locked d)) (aerr A_CannotListNotCreatedSoulboundNFTs) ;;;
  ensure (negb (is_syncing_secret (nstate d))) (aerr A_CannotListNotSyncedSecretNFTs) ;;;
  ensure (negb (is_rented (nstate d))) (aerr A_CannotListRentedNFTs) ;;;
  ensure (negb (is_syncing_capsule (nstate d))) (aerr A_CannotListNotSyncedCapsules) ;;;
  ensure (negb (is_transmission (nstate d))) (aerr A_CannotListNFTsInTransmission) ;;;
  let! om := get_mkt mkt in
  let! m := unwrap om (aerr A_MarketplaceNotFound) in
  ensure (allowed_to_list m who (collection_id d)) (aerr A_NotAllowedToList) ;;;
  mod_auc (fun x => x <| commissions ::= <[id := m_commission m]> |>) ;;;
  ensure (covers_flat (m_commission m) start_price) (aerr A_PriceCannotCoverMarketplaceFee) ;;;
  let! dl := gets (fun s => deadlines (s_auc s)) in
  let! dl' := unwrap (q_insert parallel_auctions id end_ dl) (aerr A_MaximumAuctionsLimitReached) in
  mod_auc (fun x => x <| deadlines := dl' |>) ;;;
  set_nft id (put_listed true d) ;;;
  set_auction id (mkAuction who start end_ start_price buy_it [] mkt false) ;;;
  emit (Ev_AuctionCreated id mkt who start_price buy_it start end_).

(** models auction/src/lib.rs:451-472 ([cancel_auction]) *)
Definition cancel_auction (who id : N) : M unit :=
  let! now := gets s_now in
  let! o := get_nft id in
  let! d := unwrap o (aerr A_NFTNotFound) in
  let! oa := get_auction id in
  let! a := unwrap oa (aerr A_AuctionDoesNotExist) in
  ensure (a_creator a =? who) (aerr A_NotTheAuctionCreator) ;;;
  ensure (negb (a_start a <=? now)) (aerr A_CannotCancelAuctionInProgress) ;;;
  claim_all (a_bidders a) ;;;
  set_nft id (put_listed false d) ;;;
  del_auction id ;;;
  mod_auc (fun x => x <| deadlines ::= q_del id |>) ;;;
  emit (Ev_AuctionCancelled id).

(** models auction/src/lib.rs:476-502 ([end_auction]) *)
Definition end_auction (who id : N) : M unit :=
  let! o := get_nft id in
  let! d := unwrap o (aerr A_NFTNotFound) in
  let! oa := get_auction id in
  let! a := unwrap oa (aerr A_AuctionDoesNotExist) in
  ensure (a_creator a =? who) (aerr A_NotTheAuctionCreator) ;;;
  ensure (a_extended a) (aerr A_CannotEndAuctionThatWasNotExtended) ;;;
  let! hb := unwrap (pop_highest (a_bidders a)) (aerr A_CannotEndAuctionWithoutBids) in
  let! cut := pay_for_nft id auction_pot (snd (fst hb)) d (a <| a_bidders := snd hb |>) in
  claim_all (snd hb) ;;;
  set_nft id (put_listed false (d <| owner := fst (fst hb) |>)) ;;;
  del_auction id ;;;
  mod_auc (fun x => x <| deadlines ::= q_del id |>) ;;;
  emit_completed id (Some (fst hb, cut)).

(** models auction/src/lib.rs:512-566 ([add_bid]) *)
Definition add_bid (who id amount : N) : M unit :=
  let! now := gets s_now in
  let! oa := get_auction id in
  let! a := unwrap oa (aerr A_AuctionDoesNotExist) in
  ensure (negb (a_creator a =? who)) (aerr A_CannotAddBidToYourOwnAuctions) ;;;
  ensure (a_start a <=? now) (aerr A_AuctionNotStarted) ;;;
  ensure (auction_ed <? amount) (aerr A_AmountTooLow) ;;;
  match highest_bid (a_bidders a) with
  | Some hb => ensure (snd hb <? amount) (aerr A_CannotBidLessThanTheHighestBid)
  | None => ensure (a_start_price a <? amount) (aerr A_CannotBidLessThanTheStartingPrice)
  end ;;;
  match find_bid who (a_bidders a) with
  | Some x => transfer who auction_pot (amount - x) true
  | None => transfer who auction_pot amount true
  end ;;;
  let l := del_bid who (a_bidders a) in
  ensure (negb (bidder_limit =? 0)) Panic ;;;
  let r := insert_new_bid who amount l in
  on_some (fst r) (fun b => add_claim (fst b) (snd b) ;;; emit (Ev_BidDropped id (fst b) (snd b))) ;;;
  let ae := extend_if_necessary now (a <| a_bidders := snd r |>) in
  on_some (snd ae) (fun e => mod_auc (fun x => x <| deadlines ::= q_update id e |>)) ;;;
  set_auction id (fst ae) ;;;
  emit (Ev_BidAdded id who amount).

(** models auction/src/lib.rs:576-602 ([remove_bid]) *)
Definition remove_bid (who id : N) : M unit :=
  let! now := gets s_now in
  let! oa := get_auction id in
  let! a := unwrap oa (aerr A_AuctionDoesNotExist) in
  ensure (ending_period <? a_end a - now) (aerr A_CannotRemoveBidAtTheEndOfAuction) ;;;
  let! x := unwrap (find_bid who (a_bidders a)) (aerr A_BidDoesNotExist) in
  transfer auction_pot who x false ;;;
  set_auction id (a <| a_bidders ::= del_bid who |>) ;;;
  emit (Ev_BidRemoved id who x).

(** models auction/src/lib.rs:606-641 ([buy_it_now]) *)
Definition buy_it_now (who id signed_price : N) : M unit :=
  let! now := gets s_now in
  let! o := get_nft id in
  let! d := unwrap o (aerr A_NFTNotFound) in
  let! oa := get_auction id in
  let! a := unwrap oa (aerr A_AuctionDoesNotExist) in
  let! paid := unwrap (a_buy_it a) (aerr A_AuctionDoesNotSupportBuyItNow) in
  ensure (paid =? signed_price) (aerr A_PriceDoesNotMatch) ;;;
  ensure (negb (a_creator a =? who)) (aerr A_CannotBuyItNowToYourOwnAuctions) ;;;
  ensure (a_start a <=? now) (aerr A_AuctionNotStarted) ;;;
  on_some (highest_bid (a_bidders a)) (fun hb =>
    ensure (snd hb <? paid) (aerr A_CannotBuyItWhenABidIsHigherThanBuyItPrice)) ;;;
  let! cut := pay_for_nft id who paid d a in
  claim_all (a_bidders a) ;;;
  set_nft id (put_listed false (d <| owner := who |>)) ;;;
  del_auction id ;;;
  mod_auc (fun x => x <| deadlines ::= q_del id |>) ;;;
  emit_completed id (Some (who, paid, cut)).

(** models auction/src/lib.rs:645-656 ([claim]) *)
Definition claim (who : N) : M unit :=
  let! oc := gets (fun s => claims (s_auc s) !! who) in
  let! x := unwrap oc (aerr A_ClaimDoesNotExist) in
  transfer auction_pot who x false ;;;
  mod_auc (fun y => y <| claims ::= delete who |>) ;;;
  emit (Ev_BalanceClaimed who x).

(** ** on_initialize (auction/src/lib.rs:124-184) *)

(** models the tail of the loop body, auction/src/lib.rs:169-171 *)
Definition finish_auction (id : N) (d : nft_data) : M unit :=
  set_nft id (put_listed false d) ;;;
  del_auction id.

(** models the loop body, auction/src/lib.rs:135-175; the result says whether the iteration
    reached [actions += 1] (it does not on [continue]). *)
Definition settle_one (id : N) : M bool :=
  let! oa := get_auction id in
  match oa with
  | None => ret false
  | Some a =>
      let! o := get_nft id in
      match o with
      | None => ret false
      | Some d =>
          match pop_highest (a_bidders a) with
          | Some ((w, paid), rest) =>
              let! r := catch (pay_for_nft id auction_pot paid d (a <| a_bidders := rest |>)) in
              match r with
              | Err _ => ret false
              | Ok cut =>
                  claim_all rest ;;;
                  emit_completed id (Some (w, paid, cut)) ;;;
                  finish_auction id (d <| owner := w |>) ;;;
                  ret true
              end
          | None =>
              emit_completed id None ;;;
              finish_auction id d ;;;
              ret true
          end
      end
  end.

(** models the [while let] loop, auction/src/lib.rs:134-180; fuel is the queue length. *)
Fixpoint auction_loop (fuel : nat) (now : N) (dl : list (N * N)) (actions : N) : M (list (N * N)) :=
  match fuel with
  | O => ret dl
  | S f =>
      match q_pop now dl with
      | None => ret dl
      | Some (id, dl') =>
          let! done := settle_one id in
          let actions' := if done : bool then actions + 1 else actions in
          if done && (auction_actions <=? actions')
          then ret dl'
          else auction_loop f now dl' actions'
      end
  end.

(** models auction/src/lib.rs:124-184 ([on_initialize]) *)
Definition auction_on_initialize : M unit :=
  let! now := gets s_now in
  let! dl := gets (fun s => deadlines (s_auc s)) in
  let! dl' := auction_loop (length dl) now dl 0 in
  mod_auc (fun x => x <| deadlines := dl' |>).

End auction.
