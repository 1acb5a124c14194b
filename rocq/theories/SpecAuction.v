(** Vocabulary of the auction properties. *)
From Verif Require Export Spec.
Local Open Scope N_scope.

Section spec.
Context {C : Config}.

(** The refund recorded for an account (none counts as zero). *)
Definition refund (s : state) (w : N) : N := default 0 (claims (s_auc s) !! w).

(** The refunds of the bidders in [l] grow by exactly their bids (up to the largest u128),
    and nobody else's refund changes. *)
Definition refunded (l : list (N * N)) (s s' : state) : Prop :=
  (forall w x, (w, x) ∈ l -> refund s' w = N.min u128_max (refund s w + x)) /\
  (forall w, (forall x, (w, x) ∉ l) -> refund s' w = refund s w).

(** The sum of all bids of all live auctions, and the sum of all recorded refunds. *)
Definition live_bids (s : state) : N := msum ((fun a => sum_of (map snd (a_bidders a))) <$> auctions (s_auc s)).
Definition open_refunds (s : state) : N := msum (claims (s_auc s)).
Definition pot_covers (s : state) : Prop := live_bids s + open_refunds s <= free (s_bal s) auction_pot.

(** How a price [p] is divided under commission [f] and the royalty of NFT [d]. *)
Definition division (f : option compound_fee) (d : nft_data) (p com roy rest : N) : Prop :=
  fee_share f p com /\ permill_share (royalty d) (p - com) roy /\ com + roy + rest = p.

(** [from] pays [com], [roy] and [rest] to three accounts; all other balances stay.  The
    equation is about account [a] (the accounts may coincide). *)
Definition pays3 (s s' : state) (from mo com cr roy se rest a : N) : Prop :=
  free (s_bal s') a + at_acc from a (com + roy + rest) =
  free (s_bal s) a + at_acc mo a com + at_acc cr a roy + at_acc se a rest.

(** NFT [i] now belongs to [w], is not listed, and is otherwise unchanged. *)
Definition handed_over (s s' : state) (i w : N) : Prop :=
  exists d, nfts (s_nft s) !! i = Some d /\
    nfts (s_nft s') = <[i := d <| owner := w |> <| nstate ::= fun st => st <| is_listed := false |> |>]> (nfts (s_nft s)).

(** Auction [i] is gone, the others are untouched, and so are their deadlines. *)
Definition closed (s s' : state) (i : N) : Prop :=
  auctions (s_auc s') = delete i (auctions (s_auc s)) /\
  forall j b, (j, b) ∈ deadlines (s_auc s') <-> (j, b) ∈ deadlines (s_auc s) /\ j <> i.
End spec.
