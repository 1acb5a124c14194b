(** Property theorems: the lists calls work on, and the size their weight is computed from.
    What they say is in SpecCall.v. *)
From Verif Require Import SpecCall CallFacts Demo.
Local Open Scope N_scope.

Section props.
Context {C : Config}.

(** C114: no bounded list outgrows its limit or names anything twice. *)
Theorem C114_lists_within_limits b s : config_ok -> reachable s ->
  NoDup (map fst (entries b s)) /\ nlen (entries b s) <= capacity b.
Proof. exact (fact_capacity b s). Qed.

(** C27: no bids before an auction starts (a cancelled auction has nobody to refund). *)
Theorem C27_no_bids_before_start s i a : reachable s -> auctions (s_auc s) !! i = Some a -> s_now s < a_start a -> a_bidders a = [].
Proof. intros Hs. exact (reachable_waits s Hs i a). Qed.

(** C115: the size a call is charged for is the length of one of these lists, or one; it has a
    bound in the configuration. *)
Theorem C115_size_bounded c s n : config_ok -> reachable s -> weight_size s c = Some n ->
  exists b, (n = 1 \/ n = nlen (entries b s)) /\ n <= N.max 1 (capacity b).
Proof. exact (fact_size c s n). Qed.

(** C116: a call that changes a list is charged for the length of this list.  False for the
    lists in [undeclared], see the refutations.  Proved: for all others. *)
Theorem C116_size_covers_partial s o c s' b : config_ok -> reachable s -> dispatch o c s = (Ok tt, s') ->
  entries b s' <> entries b s -> ~ undeclared c b -> weight_size s c = Some (nlen (entries b s)).
Proof. intros HC Hs Hd Hn Hu. destruct (fact_cover s o c s' b HC Hs Hd Hn) as [?|?]; [by exfalso; apply Hu|done]. Qed.
End props.

(** * Refutations: the list that is changed is longer than the size declared. *)
Definition undercharged (C : Config) (s : state) (o : origin) (c : call) (b : book) : Prop :=
  config_ok /\ reachable s /\
  exists s' n, dispatch o c s = (Ok tt, s') /\ entries b s' <> entries b s /\ weight_size s c = Some n /\ n < nlen (entries b s).

Section refuted.
Local Existing Instance demo1.
Let by_ (w : N) (c : call) : action := Extrinsic (Signed w) c.

(** Two auctions, no bid before the last blocks: the first bid is charged for an empty list, and
    moves an entry in the list of two deadlines. *)
Definition late_first : list action :=
  [by_ 5 (C_create_marketplace Public); by_ 1 (C_create_nft [] 0 None false); by_ 1 (C_create_nft [] 0 None false);
   by_ 1 (C_create_auction 0 0 1 20 50 None); by_ 1 (C_create_auction 1 0 1 20 50 (Some 400))] ++ replicate 16 NextBlock.
Lemma late_first_reachable : reachable (demo late_first).
Proof. by apply demo_reachable. Qed.
Theorem C116_late_bid_refuted : exists (C : Config) s w i x, undercharged C s (Signed w) (C_add_bid i x) B_deadlines.
Proof.
  exists demo1, (demo late_first), 2, 0, 100. split; [exact demo1_ok|]. split; [exact late_first_reachable|].
  eexists _, 0. split; [vm_compute; reflexivity|]. split; [vm_compute; discriminate|]. split; vm_compute; reflexivity.
Qed.

(** One auction with two bidders is bought: charged for one deadline. *)
Definition bought : list action :=
  [by_ 5 (C_create_marketplace Public); by_ 1 (C_create_nft [] 0 None false);
   by_ 1 (C_create_auction 0 0 1 20 50 (Some 400)); by_ 2 (C_add_bid 0 100); by_ 3 (C_add_bid 0 200)].
Lemma bought_reachable : reachable (demo bought).
Proof. by apply demo_reachable. Qed.
Theorem C116_buy_it_now_refuted : exists (C : Config) s w i x, undercharged C s (Signed w) (C_buy_it_now i x) (B_bidders i).
Proof.
  exists demo1, (demo bought), 4, 0, 400. split; [exact demo1_ok|]. split; [exact bought_reachable|].
  eexists _, 1. split; [vm_compute; reflexivity|]. split; [vm_compute; discriminate|]. split; vm_compute; reflexivity.
Qed.

(** A late bid, and the seller ends the auction. *)
Definition ended : list action := bought ++ replicate 16 NextBlock ++ [by_ 4 (C_add_bid 0 300)].
Lemma ended_reachable : reachable (demo ended).
Proof. by apply demo_reachable. Qed.
Theorem C116_end_auction_refuted : exists (C : Config) s w i, undercharged C s (Signed w) (C_end_auction i) (B_bidders i).
Proof.
  exists demo1, (demo ended), 1, 0. split; [exact demo1_ok|]. split; [exact ended_reachable|].
  eexists _, 1. split; [vm_compute; reflexivity|]. split; [vm_compute; discriminate|]. split; vm_compute; reflexivity.
Qed.

(** One contract, two offers: the third is charged for one entry in the queues. *)
Definition offered_twice : list action :=
  [by_ 1 (C_create_nft [] 0 None false);
   by_ 1 (C_create_contract 0 (FixedIn 10) (ManualAcceptance None) true (RentTokens 100) NoFee NoFee);
   by_ 2 (C_make_rent_offer 0 1); by_ 3 (C_make_rent_offer 0 1)].
Lemma offered_twice_reachable : reachable (demo offered_twice).
Proof. by apply demo_reachable. Qed.
Theorem C116_offer_refuted : exists (C : Config) s w i k, undercharged C s (Signed w) (C_make_rent_offer i k) (B_offers i).
Proof.
  exists demo1, (demo offered_twice), 4, 0, 1. split; [exact demo1_ok|]. split; [exact offered_twice_reachable|].
  eexists _, 1. split; [vm_compute; reflexivity|]. split; [vm_compute; discriminate|]. split; vm_compute; reflexivity.
Qed.

(** * Concrete cases *)
Definition lists : list action :=
  [by_ 1 (C_create_collection [] None); by_ 1 (C_create_nft [] 0 (Some 0) false); by_ 1 (C_create_nft [] 0 (Some 0) false);
   by_ 1 (C_create_nft [] 0 (Some 0) false);
   by_ 1 (C_create_contract 0 (FixedIn 10) (ManualAcceptance None) true (RentTokens 100) NoFee NoFee);
   by_ 2 (C_make_rent_offer 0 1); by_ 3 (C_make_rent_offer 0 1);
   by_ 1 (C_set_transmission_protocol 1 2 (AtBlock 20) Anytime)].
Lemma lists_reachable : reachable (demo lists).
Proof. by apply demo_reachable. Qed.

(** C114: full lists turn the next entry away; the offers of one account are not doubled. *)
Example C114_case :
  map (fun b => map fst (entries b (demo lists))) [B_members 0; B_offers 0; B_rent_queues; B_trans_queue] = [[0; 1; 2]; [2; 3]; [0]; [1]] /\
  fst (dispatch (Signed 2) (C_make_rent_offer 0 1) (demo lists)) = Err (Rent_err R_OfferAlreadyExists) /\
  fst (dispatch (Signed 5) (C_make_rent_offer 0 1) (demo (lists ++ [by_ 4 (C_make_rent_offer 0 1)]))) = Err (Rent_err R_MaximumOffersReached).
Proof. split; [vm_compute; reflexivity|]. split; vm_compute; reflexivity. Qed.

(** C115, C116: burning NFT 2 is charged for a collection of three, retracting for two offers,
    the contract and the transmission for one entry each. *)
Example C115_C116_case :
  map (weight_size (demo lists)) [C_burn_nft 2; C_retract_rent_offer 0; C_cancel_contract 0; C_remove_transmission_protocol 1; C_transfer_nft 2 3] =
    [Some 3; Some 2; Some 1; Some 1; None] /\
  (exists s', dispatch (Signed 1) (C_burn_nft 2) (demo lists) = (Ok tt, s') /\ entries (B_members 0) s' <> entries (B_members 0) (demo lists)) /\
  (exists s', dispatch (Signed 2) (C_retract_rent_offer 0) (demo lists) = (Ok tt, s') /\ entries (B_offers 0) s' <> entries (B_offers 0) (demo lists)) /\
  (exists s', dispatch (Signed 1) (C_cancel_contract 0) (demo lists) = (Ok tt, s') /\ entries B_rent_queues s' <> entries B_rent_queues (demo lists)).
Proof.
  split; [vm_compute; reflexivity|].
  split; [|split]; (eexists; split; [vm_compute; reflexivity|vm_compute; discriminate]).
Qed.

(** C27: an auction created but not started. *)
Example C27_start_case :
  let s := demo [by_ 5 (C_create_marketplace Public); by_ 1 (C_create_nft [] 0 None false); by_ 1 (C_create_auction 0 0 4 20 50 None)] in
  exists a, auctions (s_auc s) !! 0 = Some a /\ s_now s < a_start a /\ fst (dispatch (Signed 2) (C_add_bid 0 100) s) = Err (Auction_err A_AuctionNotStarted).
Proof. cbv zeta. eexists. split; [vm_compute; reflexivity|]. split; vm_compute; reflexivity. Qed.
End refuted.

Print Assumptions C114_lists_within_limits.
Print Assumptions C27_no_bids_before_start.
Print Assumptions C115_size_bounded.
Print Assumptions C116_size_covers_partial.
Print Assumptions C116_late_bid_refuted.
Print Assumptions C116_buy_it_now_refuted.
Print Assumptions C116_end_auction_refuted.
Print Assumptions C116_offer_refuted.
