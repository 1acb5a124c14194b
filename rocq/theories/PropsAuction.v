(** Property theorems: auctions. *)
From Verif Require Import SpecAuction AucFacts Demo Demo5.
Local Open Scope N_scope.

Section props.
Context {C : Config}.

(** C20: the bid book is ordered and fair, and a bid is accepted only above the highest. *)
Theorem C20_bid_book s i a :
  reachable s -> auctions (s_auc s) !! i = Some a ->
  StronglySorted (fun x y => snd x < snd y) (a_bidders a) /\ NoDup (map fst (a_bidders a)) /\
  (forall w x, (w, x) ∈ a_bidders a -> a_start_price a < x /\ w <> a_creator a) /\
  nlen (a_bidders a) <= bidder_limit.
Proof. exact (fact_book s i a). Qed.
Theorem C20_bid_accepted_above_highest s who i amt s' :
  reachable s -> dispatch (Signed who) (C_add_bid i amt) s = (Ok tt, s') ->
  exists a a', auctions (s_auc s) !! i = Some a /\ auctions (s_auc s') = <[i := a']> (auctions (s_auc s)) /\
    who <> a_creator a /\ a_start_price a < amt /\ (forall w x, (w, x) ∈ a_bidders a -> x < amt) /\
    last (a_bidders a') = Some (who, amt).
Proof. exact (fact_bid_book s who i amt s'). Qed.

(** C21, full claim: [forall s, reachable s -> pot_covers s].  Proved for an existential
    deposit of at most 1; for any existential deposit every step other than the block
    initialisation keeps the pot solvent.  See [C21_refuted] for the rest. *)
Theorem C21_pot_covers_partial s :
  config_ok -> ed <= 1 -> reachable s -> pot_covers s.
Proof. exact (fact_covers s). Qed.
Theorem C21_pot_covers_between_blocks_partial s a :
  config_ok -> reachable s -> pot_covers s -> action_ok a -> a <> NextBlock -> pot_covers (step s a).
Proof. exact (fact_covers_step s a). Qed.

(** C22: settlement by [end_auction].  The balance of the pot itself is exact when no dust
    can arise ([ed <= 1]); in general at least the winning bid leaves it. *)
Theorem C22_end_auction_exact s who i s' :
  reachable s -> dispatch (Signed who) (C_end_auction i) s = (Ok tt, s') ->
  exists d a m f w b rest com roy r,
    nfts (s_nft s) !! i = Some d /\ auctions (s_auc s) !! i = Some a /\ mkts (s_mkt s) !! a_mkt a = Some m /\
    commissions (s_auc s) !! i = Some f /\ a_bidders a = rest ++ [(w, b)] /\ (forall v y, (v, y) ∈ rest -> y < b) /\
    division f d b com roy r /\
    (forall k, k <> auction_pot \/ ed <= 1 -> pays3 s s' auction_pot (m_owner m) com (creator d) roy (a_creator a) r k) /\
    free (s_bal s') auction_pot + b <= free (s_bal s) auction_pot + at_acc (m_owner m) auction_pot com + at_acc (creator d) auction_pot roy /\
    handed_over s s' i w /\ closed s s' i /\ refunded rest s s'.
Proof. exact (fact_end s who i s'). Qed.
(** The same for the settlement inside a block initialisation. *)
Theorem C22_hook_settlement_exact s i s' :
  reachable s -> settle_one i s = (Ok true, s') ->
  exists d a, nfts (s_nft s) !! i = Some d /\ auctions (s_auc s) !! i = Some a /\ auctions (s_auc s') = delete i (auctions (s_auc s)) /\
  ((a_bidders a = [] /\ handed_over s s' i (owner d) /\ s_bal s' = s_bal s /\ claims (s_auc s') = claims (s_auc s)) \/
   exists m f w b rest com roy r, mkts (s_mkt s) !! a_mkt a = Some m /\
    commissions (s_auc s) !! i = Some f /\ a_bidders a = rest ++ [(w, b)] /\ (forall v y, (v, y) ∈ rest -> y < b) /\
    division f d b com roy r /\
    (forall k, k <> auction_pot \/ ed <= 1 -> pays3 s s' auction_pot (m_owner m) com (creator d) roy (a_creator a) r k) /\
    free (s_bal s') auction_pot + b <= free (s_bal s) auction_pot + at_acc (m_owner m) auction_pot com + at_acc (creator d) auction_pot roy /\
    handed_over s s' i w /\ refunded rest s s').
Proof. exact (fact_settle s i s'). Qed.
(** The commission is the marketplace's at creation, and the terms of a live auction stay. *)
Theorem C22_commission_agreed_at_creation s who i k st e sp bi s' :
  reachable s -> dispatch (Signed who) (C_create_auction i k st e sp bi) s = (Ok tt, s') ->
  exists m, mkts (s_mkt s) !! k = Some m /\ commissions (s_auc s') !! i = Some (m_commission m) /\
    auctions (s_auc s') !! i = Some (mkAuction who st e sp bi [] k false) /\ auctions (s_auc s) !! i = None /\
    claims (s_auc s') = claims (s_auc s) /\ s_bal s' = s_bal s /\
    (forall j b, (j, b) ∈ deadlines (s_auc s') <-> (j, b) ∈ deadlines (s_auc s) \/ j = i /\ b = e).
Proof. exact (fact_create s who i k st e sp bi s'). Qed.
Theorem C22_terms_stay s a i x x' :
  reachable s -> action_ok a -> auctions (s_auc s) !! i = Some x -> auctions (s_auc (step s a)) !! i = Some x' ->
  commissions (s_auc (step s a)) !! i = commissions (s_auc s) !! i /\ a_mkt x' = a_mkt x /\ a_creator x' = a_creator x /\
  a_start x' = a_start x /\ a_start_price x' = a_start_price x /\ a_buy_it x' = a_buy_it x /\ a_end x <= a_end x'.
Proof. exact (fact_terms_kept s a i x x'). Qed.
(** The cap in [refunded] is never active when no dust can arise. *)
Theorem C22_refunds_do_not_saturate s i a v y :
  config_ok -> ed <= 1 -> reachable s -> auctions (s_auc s) !! i = Some a -> (v, y) ∈ a_bidders a ->
  refund s v + y <= u128_max.
Proof. exact (fact_no_saturation s i a v y). Qed.

(** C23, full claim: without [ed <= 1].  [l] lists the due auctions.  See [C23_refuted]. *)
Theorem C23_due_auctions_settled_partial s l i a :
  config_ok -> ed <= 1 -> reachable s ->
  (forall j b, auctions (s_auc s) !! j = Some b -> a_end b <= s_now s + 1 -> j ∈ l) -> nlen l <= N.max 1 auction_actions ->
  auctions (s_auc s) !! i = Some a -> a_end a <= s_now s + 1 -> auctions (s_auc (next_block s)) !! i = None.
Proof. exact (fact_settled s l i a). Qed.

(** C24: the deadline list. *)
Theorem C24_deadlines_mirror_auctions s :
  reachable s ->
  StronglySorted (fun x y => snd x <= snd y) (deadlines (s_auc s)) /\ NoDup (map fst (deadlines (s_auc s))) /\
  (forall i b, (i, b) ∈ deadlines (s_auc s) -> exists a, auctions (s_auc s) !! i = Some a /\ a_end a = b) /\
  nlen (deadlines (s_auc s)) <= parallel_auctions.
Proof. exact (fact_deadlines s). Qed.
Theorem C24_every_auction_has_a_deadline s i a :
  config_ok -> ed <= 1 -> reachable s -> auctions (s_auc s) !! i = Some a -> (i, a_end a) ∈ deadlines (s_auc s).
Proof. exact (fact_all_due s i a). Qed.

(** C25: refunds are paid exactly once and never shrink otherwise. *)
Theorem C25_claim_exact s who s' :
  who ∉ pots -> dispatch (Signed who) C_claim s = (Ok tt, s') ->
  exists x, claims (s_auc s) !! who = Some x /\ free (s_bal s') who = free (s_bal s) who + x /\
    (ed <= 1 -> free (s_bal s') auction_pot + x = free (s_bal s) auction_pot) /\
    (forall a, a <> who -> a <> auction_pot -> free (s_bal s') a = free (s_bal s) a) /\
    (forall w, refund s' w = if decide (w = who) then 0 else refund s w) /\
    auctions (s_auc s') = auctions (s_auc s) /\ s_nft s' = s_nft s /\
    dispatch (Signed who) C_claim s' = (Err (Auction_err A_ClaimDoesNotExist), s').
Proof. exact (fact_claim s who s'). Qed.
Theorem C25_refunds_never_shrink s a w :
  reachable s -> action_ok a -> a <> Extrinsic (Signed w) C_claim -> refund s w <= refund (step s a) w.
Proof. exact (fact_refund_grows s a w). Qed.

(** C26: bids are escrowed and given back exactly. *)
Theorem C26_add_bid_exact s who i amt s' :
  reachable s -> who ∉ pots -> dispatch (Signed who) (C_add_bid i amt) s = (Ok tt, s') ->
  exists a a' old kept, auctions (s_auc s) !! i = Some a /\ auctions (s_auc s') = <[i := a']> (auctions (s_auc s)) /\
    ((who, old) ∈ a_bidders a \/ old = 0 /\ who ∉ map fst (a_bidders a)) /\ old <= amt /\
    (forall k, free (s_bal s') k + at_acc who k (amt - old) = free (s_bal s) k + at_acc auction_pot k (amt - old)) /\
    a_bidders a' = kept ++ [(who, amt)] /\ s_nft s' = s_nft s /\
    ((refunded [] s s' /\ forall v y, (v, y) ∈ kept <-> (v, y) ∈ a_bidders a /\ v <> who) \/
     exists lv ly, (lv, ly) ∈ a_bidders a /\ lv <> who /\ (forall v y, (v, y) ∈ kept -> ly < y) /\
       (forall v y, (v, y) ∈ kept <-> (v, y) ∈ a_bidders a /\ v <> who /\ v <> lv) /\
       refunded [(lv, ly)] s s' /\ nlen kept + 1 = bidder_limit).
Proof. exact (fact_bid s who i amt s'). Qed.
Theorem C26_remove_bid_exact s who i s' :
  reachable s -> who ∉ pots -> dispatch (Signed who) (C_remove_bid i) s = (Ok tt, s') ->
  exists a x l, auctions (s_auc s) !! i = Some a /\ (who, x) ∈ a_bidders a /\
    auctions (s_auc s') = <[i := a <| a_bidders := l |>]> (auctions (s_auc s)) /\
    (forall v y, (v, y) ∈ l <-> (v, y) ∈ a_bidders a /\ v <> who) /\
    (forall k, k <> auction_pot \/ ed <= 1 -> free (s_bal s') k + at_acc auction_pot k x = free (s_bal s) k + at_acc who k x) /\
    claims (s_auc s') = claims (s_auc s) /\ deadlines (s_auc s') = deadlines (s_auc s) /\ s_nft s' = s_nft s.
Proof. exact (fact_unbid s who i s'). Qed.

(** C27: the windows and the parties of the five calls. *)
Theorem C27_windows_and_parties s who s' :
  (forall i, dispatch (Signed who) (C_cancel_auction i) s = (Ok tt, s') ->
     exists a, auctions (s_auc s) !! i = Some a /\ a_creator a = who /\ s_now s < a_start a) /\
  (forall i x, dispatch (Signed who) (C_add_bid i x) s = (Ok tt, s') ->
     exists a, auctions (s_auc s) !! i = Some a /\ a_creator a <> who /\ a_start a <= s_now s) /\
  (forall i x, dispatch (Signed who) (C_buy_it_now i x) s = (Ok tt, s') ->
     exists a, auctions (s_auc s) !! i = Some a /\ a_creator a <> who /\ a_start a <= s_now s) /\
  (forall i, dispatch (Signed who) (C_remove_bid i) s = (Ok tt, s') ->
     exists a, auctions (s_auc s) !! i = Some a /\ who ∈ map fst (a_bidders a) /\ s_now s + ending_period < a_end a) /\
  (forall i, dispatch (Signed who) (C_end_auction i) s = (Ok tt, s') ->
     exists a, auctions (s_auc s) !! i = Some a /\ a_creator a = who /\ a_extended a = true /\ a_bidders a <> []).
Proof. exact (fact_windows s who s'). Qed.

(** C28: late bids extend the auction. *)
Theorem C28_late_bids_extend s who i amt s' :
  dispatch (Signed who) (C_add_bid i amt) s = (Ok tt, s') ->
  exists a a', auctions (s_auc s) !! i = Some a /\ auctions (s_auc s') !! i = Some a' /\
    a_end a <= a_end a' /\ (s_now s <= a_end a -> s_now s + grace_period <= a_end a') /\
    (a_end a' <> a_end a -> a_end a < s_now s + grace_period /\ a_extended a' = true) /\
    (a_extended a' = true -> a_extended a = true \/ a_end a < s_now s + grace_period).
Proof. exact (fact_extension s who i amt s'). Qed.

(** C29: buy it now. *)
Theorem C29_buy_it_now_exact s who i p s' :
  reachable s -> who ∉ pots -> dispatch (Signed who) (C_buy_it_now i p) s = (Ok tt, s') ->
  exists d a m f com roy r,
    nfts (s_nft s) !! i = Some d /\ auctions (s_auc s) !! i = Some a /\ mkts (s_mkt s) !! a_mkt a = Some m /\
    commissions (s_auc s) !! i = Some f /\ a_buy_it a = Some p /\ (forall v y, (v, y) ∈ a_bidders a -> y < p) /\
    division f d p com roy r /\
    (forall k, pays3 s s' who (m_owner m) com (creator d) roy (a_creator a) r k) /\
    handed_over s s' i who /\ closed s s' i /\ refunded (a_bidders a) s s'.
Proof. exact (fact_buy_now s who i p s'). Qed.

(** C30: one block touches at most the configured number of auctions. *)
Theorem C30_hook_bounded s :
  config_ok -> reachable s -> exists l, nlen l <= N.max 1 auction_actions /\
  forall i, i ∉ l -> auctions (s_auc (next_block s)) !! i = auctions (s_auc s) !! i.
Proof. exact (fact_bounded s). Qed.
End props.

(** * Refutations with an existential deposit above 1 *)

(** Account 1 mints an NFT with 1% royalty, gives it away and empties their account.  The
    auction of the NFT ends with a bid of 100: the marketplace owner gets 10, then the
    royalty of 1 cannot be paid to the dead account, so the settlement stops half way. *)
Definition stuck_demo : list action :=
  [Extrinsic (Signed 1) (C_create_nft [] 10000 None false);
   Extrinsic (Signed 1) (C_transfer_nft 0 2);
   Env (EnvTransfer 1 2 9990 false);
   Extrinsic (Signed 5) (C_create_marketplace Public);
   Extrinsic (Signed 5) (C_set_marketplace_configuration 0 (SetTo (Flat 10)) Noop Noop Noop Noop);
   Extrinsic (Signed 2) (C_create_auction 0 0 1 11 20 None);
   Extrinsic (Signed 3) (C_add_bid 0 100)].
Definition before_stuck : state := run5 (stuck_demo ++ replicate 9 NextBlock).
Definition after_stuck : state := run5 (stuck_demo ++ replicate 10 NextBlock).
Lemma before_stuck_reachable : @reachable demo5 before_stuck.
Proof. by apply run5_reachable. Qed.
Lemma after_stuck_reachable : @reachable demo5 after_stuck.
Proof. by apply run5_reachable. Qed.

Theorem C21_refuted : exists (C : Config) s, config_ok /\ reachable s /\ ~ pot_covers s.
Proof.
  exists demo5, after_stuck. split; [apply demo5_ok|]. split; [apply after_stuck_reachable|].
  intros H. vm_compute in H. by apply H.
Qed.
Theorem C23_refuted : exists (C : Config) s i a, config_ok /\ reachable s /\ 1 < auction_actions /\
  auctions (s_auc s) = {[ i := a ]} /\ a_end a <= s_now s + 1 /\
  is_Some (auctions (s_auc (next_block s)) !! i) /\ deadlines (s_auc (next_block s)) = [].
Proof.
  exists demo5, before_stuck, 0, (mkAuction 2 1 11 20 None [(3, 100)] 0 false). split; [apply demo5_ok|]. split; [apply before_stuck_reachable|].
  split; [done|]. split; [apply map_to_list_inj; vm_compute; reflexivity|]. split; [done|].
  split; [eexists; vm_compute; reflexivity|vm_compute; reflexivity].
Qed.

(** * Concrete cases *)
Local Existing Instance demo1.
Local Notation by_ w c := (Extrinsic (Signed w) c).

(** Account 1 auctions NFT 0 (royalty 10%, commission 5%) in blocks 2 to 20, NFT 1 with a
    buy-it-now price; accounts 2, 3, 4, 5 bid on NFT 0, so the lowest bid is dropped. *)
Definition auction_demo : list action :=
  [by_ 5 (C_create_marketplace Public);
   by_ 5 (C_set_marketplace_configuration 0 (SetTo (Percentage 50000)) Noop Noop Noop Noop);
   by_ 1 (C_create_nft [] 100000 None false); by_ 1 (C_create_nft [] 0 None false); by_ 1 (C_create_nft [] 0 None false);
   by_ 1 (C_create_auction 0 0 2 20 50 None); by_ 1 (C_create_auction 1 0 2 18 50 (Some 400)); by_ 1 (C_create_auction 2 0 4 16 50 None);
   NextBlock; by_ 2 (C_add_bid 0 100); by_ 3 (C_add_bid 0 200); by_ 4 (C_add_bid 0 300); by_ 2 (C_add_bid 1 60)].
Definition auction_demo2 : list action := auction_demo ++ [by_ 5 (C_add_bid 0 400)] ++ replicate 15 NextBlock.
Lemma auction_demo_reachable : reachable (demo auction_demo).
Proof. by apply demo_reachable. Qed.
Lemma auction_demo2_reachable : reachable (demo auction_demo2).
Proof. by apply demo_reachable. Qed.

Example C20_C21_C24_case :
  option_map a_bidders (auctions (s_auc (demo auction_demo)) !! 0) = Some [(2, 100); (3, 200); (4, 300)] /\
  option_map a_bidders (auctions (s_auc (demo (auction_demo ++ [by_ 5 (C_add_bid 0 400)]))) !! 0) = Some [(3, 200); (4, 300); (5, 400)] /\
  deadlines (s_auc (demo auction_demo)) = [(2, 16); (1, 18); (0, 20)] /\
  live_bids (demo auction_demo) = 660 /\ free (s_bal (demo auction_demo)) auction_pot = 660 /\
  fst (dispatch (Signed 5) (C_add_bid 0 300) (demo auction_demo)) = Err (Auction_err A_CannotBidLessThanTheHighestBid).
Proof. vm_compute. auto 10. Qed.

(** C22: block 17; a late bid extends the auction, then the seller ends it.  Of 500 the
    marketplace owner gets 25, the creator (the seller) 47 and 428. *)
Definition late_demo : list action := auction_demo2 ++ [by_ 2 (C_add_bid 0 500)].
Example C22_C28_case :
  s_now (demo auction_demo2) = 17 /\
  option_map (fun a => (a_end a, a_extended a)) (auctions (s_auc (demo auction_demo2)) !! 0) = Some (20, false) /\
  option_map (fun a => (a_end a, a_extended a)) (auctions (s_auc (demo late_demo)) !! 0) = Some (22, true) /\
  exists s', dispatch (Signed 1) (C_end_auction 0) (demo late_demo) = (Ok tt, s') /\ owner_of s' 0 = Some 2 /\
    free (s_bal s') 5 = free (s_bal (demo late_demo)) 5 + 25 /\ free (s_bal s') 1 = free (s_bal (demo late_demo)) 1 + 475 /\
    refund s' 4 = refund (demo late_demo) 4 + 300 /\ refund s' 5 = refund (demo late_demo) 5 + 400 /\ refund (demo late_demo) 3 = 200 /\
    commissions (s_auc (demo late_demo)) !! 0 = Some (Some (Percentage 50000)).
Proof.
  split; [done|]. split; [vm_compute; reflexivity|]. split; [vm_compute; reflexivity|].
  eexists. vm_compute. auto 10.
Qed.
(** C22 (hook), C23, C30: NFT 1 is due in block 18. *)
Example C23_case :
  let s := demo auction_demo2 in
  (exists a, auctions (s_auc s) !! 1 = Some a /\ a_end a = s_now s + 1) /\
  (forall j b, auctions (s_auc s) !! j = Some b -> a_end b <= s_now s + 1 -> j ∈ [1]) /\
  owner_of (next_block s) 1 = Some 2 /\ is_Some (auctions (s_auc (next_block s)) !! 0) /\
  (exists s', settle_one 1 s = (Ok true, s')).
Proof.
  cbv zeta. split; [eexists; split; [vm_compute; reflexivity|vm_compute; reflexivity]|]. split; [|split; [|split]].
  - assert (E : auctions (s_auc (demo auction_demo2)) =
       {[ 0 := mkAuction 1 2 20 50 None [(3, 200); (4, 300); (5, 400)] 0 false; 1 := mkAuction 1 2 18 50 (Some 400) [(2, 60)] 0 false ]})
      by (apply map_to_list_inj; vm_compute; reflexivity).
    rewrite E. intros j b [[<- <-]|[_ [<- _]%lookup_singleton_Some]]%lookup_insert_Some He.
    + exfalso. vm_compute in He. by apply He.
    + left.
  - vm_compute. reflexivity.
  - eexists. vm_compute. reflexivity.
  - eexists. vm_compute. reflexivity.
Qed.
Example C25_case :
  let s := demo (auction_demo ++ [by_ 5 (C_add_bid 0 400)]) in
  claims (s_auc s) !! 2 = Some 100 /\ exists s', dispatch (Signed 2) C_claim s = (Ok tt, s').
Proof. cbv zeta. split; [vm_compute; reflexivity|]. eexists. vm_compute. reflexivity. Qed.
Example C26_case :
  (exists s', dispatch (Signed 3) (C_add_bid 0 500) (demo auction_demo) = (Ok tt, s') /\
     free (s_bal s') auction_pot = 960 /\ option_map a_bidders (auctions (s_auc s') !! 0) = Some [(2, 100); (4, 300); (3, 500)]) /\
  (exists s', dispatch (Signed 3) (C_remove_bid 0) (demo auction_demo) = (Ok tt, s')).
Proof. split; eexists; vm_compute; auto. Qed.
Example C27_case :
  fst (dispatch (Signed 1) (C_cancel_auction 2) (demo auction_demo)) = Ok tt /\
  fst (dispatch (Signed 1) (C_cancel_auction 0) (demo auction_demo)) = Err (Auction_err A_CannotCancelAuctionInProgress) /\
  fst (dispatch (Signed 2) (C_add_bid 2 100) (demo auction_demo)) = Err (Auction_err A_AuctionNotStarted) /\
  fst (dispatch (Signed 3) (C_remove_bid 0) (demo auction_demo2)) = Err (Auction_err A_CannotRemoveBidAtTheEndOfAuction) /\
  fst (dispatch (Signed 1) (C_end_auction 0) (demo auction_demo2)) = Err (Auction_err A_CannotEndAuctionThatWasNotExtended).
Proof. vm_compute. auto. Qed.
Example C29_case :
  exists s', dispatch (Signed 3) (C_buy_it_now 1 400) (demo auction_demo) = (Ok tt, s') /\ owner_of s' 1 = Some 3 /\
    free (s_bal s') 3 = free (s_bal (demo auction_demo)) 3 - 400 /\ refund s' 2 = 60 /\ deadlines (s_auc s') = [(2, 16); (0, 20)].
Proof. eexists. vm_compute. auto 10. Qed.

Print Assumptions C20_bid_book.
Print Assumptions C20_bid_accepted_above_highest.
Print Assumptions C21_pot_covers_partial.
Print Assumptions C21_pot_covers_between_blocks_partial.
Print Assumptions C22_end_auction_exact.
Print Assumptions C22_hook_settlement_exact.
Print Assumptions C22_commission_agreed_at_creation.
Print Assumptions C22_terms_stay.
Print Assumptions C22_refunds_do_not_saturate.
Print Assumptions C23_due_auctions_settled_partial.
Print Assumptions C24_deadlines_mirror_auctions.
Print Assumptions C24_every_auction_has_a_deadline.
Print Assumptions C25_claim_exact.
Print Assumptions C25_refunds_never_shrink.
Print Assumptions C26_add_bid_exact.
Print Assumptions C26_remove_bid_exact.
Print Assumptions C27_windows_and_parties.
Print Assumptions C28_late_bids_extend.
Print Assumptions C29_buy_it_now_exact.
Print Assumptions C30_hook_bounded.
Print Assumptions C21_refuted.
Print Assumptions C23_refuted.
