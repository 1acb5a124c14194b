(** Vocabulary: everything an account has in tokens. *)
From Verif Require Export SpecOwed SpecTokens.
Local Open Scope N_scope.

Section spec.
Context {C : Config}.

(** The tokens [w] has deposited for rent contracts: as the renter of some, as the rentee of others. *)
Definition deposited (s : state) (w : N) : N := msum ((fun c => end_gets c w) <$> contracts (s_rent s)).

(** The tokens of [w]: the balance, the deposits for rent contracts, and the bids and refunds
    the auction pallet holds for [w]. *)
Definition assets (s : state) (w : N) : N := free (s_bal s) w + deposited s w + owed s w.

(** By action [a] in state [s], [w] pays [fee] for the use of NFT [i]: a period of a subscription
    starts, or the renter accepts an offer of [w]. *)
Definition pays_rent (s : state) (a : action) (w i fee : N) : Prop :=
  (a = NextBlock /\ owes s w i fee) \/
  (exists c, contracts (s_rent s) !! i = Some c /\ r_rentee c = None /\ offered s i w /\ fee = token_fee (r_rent_fee c) /\
     a = Extrinsic (Signed (r_renter c)) (C_accept_rent_offer i w)).

(** Whether [acts] are all done by others: no call of [w], and nothing outside takes from [w]. *)
Definition by_others (w : N) (acts : list action) : Prop :=
  forall a, a ∈ acts -> (forall c, a <> Extrinsic (Signed w) c) /\ (forall e, a = Env e -> ~ env_takes e w).

(** What [w] spends while [acts] run from [s]: highest bids for NFTs that [w] gets, and rent. *)
Inductive spends (w : N) : state -> list action -> N -> Prop :=
  | Spends_nothing s : spends w s [] 0
  | Spends_step s a acts l r x :
      NoDup (map fst l) -> (forall i x, (i, x) ∈ l -> won s (step s a) w i x) ->
      NoDup (map fst r) -> (forall i fee, (i, fee) ∈ r -> pays_rent s a w i fee) ->
      spends w (step s a) acts x -> spends w s (a :: acts) (sum_of (map snd l) + sum_of (map snd r) + x).

(** [w] has no bid, rents nothing, and has offered to rent nothing. *)
Definition uninvolved (s : state) (w : N) : Prop :=
  (forall i a x, auctions (s_auc s) !! i = Some a -> (w, x) ∉ a_bidders a) /\
  (forall i c, contracts (s_rent s) !! i = Some c -> r_rentee c <> Some w) /\
  (forall i, ~ offered s i w).
End spec.
