(** Vocabulary: what bidders are owed. *)
From Verif Require Export SpecRules SpecEffects SpecRent SpecTee SpecAuction.
Local Open Scope N_scope.

Section spec.
Context {C : Config}.

(** What [w] has bid in auction [a] without leading it: bids are listed in growing order, the
    last one leads. *)
Definition losing (w : N) (a : auction) : N :=
  sum_of (map (fun b => if decide (fst b = w) then snd b else 0) (removelast (a_bidders a))).
(** The same over all live auctions. *)
Definition standing (s : state) (w : N) : N := msum (losing w <$> auctions (s_auc s)).

(** All money [w] has with the auction pallet: the refund and every bid in a live auction. *)
Definition bid_of (w : N) (a : auction) : N :=
  sum_of (map (fun b => if decide (fst b = w) then snd b else 0) (a_bidders a)).
Definition owed (s : state) (w : N) : N := refund s w + msum (bid_of w <$> auctions (s_auc s)).
(** Between [s] and [s'] auction [i] ended, and [w] has the NFT for the highest bid [x]. *)
Definition won (s s' : state) (w i x : N) : Prop :=
  exists a, auctions (s_auc s) !! i = Some a /\ last (a_bidders a) = Some (w, x) /\
    auctions (s_auc s') !! i = None /\ owner_of s' i = Some w.

(** [n] blocks without any call. *)
Definition blocks_pass (n : nat) (s : state) : state := after s (replicate n NextBlock).
End spec.
