(** What the start of a block may touch. *)
From Verif Require Export SpecRent.
Local Open Scope N_scope.

Section spec.
Context {C : Config}.

(** In the block that follows state [s], something is due: the auction of NFT [i], the
    transmission of NFT [i], the contract of NFT [i]. *)
Definition due_auction (s : state) (i : N) : Prop :=
  exists b, (i, b) ∈ deadlines (s_auc s) /\ b <= s_now s + 1.
Definition due_transmission (s : state) (i : N) : Prop :=
  exists b, (i, b) ∈ t_queue (s_trans s) /\ b <= s_now s + 1.
Definition due_contract (s : state) (i : N) : Prop :=
  exists b, scheduled s i b /\ b <= s_now s + 1.

(** NFT [i] has something due, or is a deposit of a contract that is due. *)
Definition due_nft (s : state) (i : N) : Prop :=
  due_auction s i \/ due_transmission s i \/ due_contract s i \/
  exists k c, due_contract s k /\ contracts (s_rent s) !! k = Some c /\ secures c i.

(** Account [w] takes part in the settlement of a due auction with a bid (the pallet's
    account, the auctioneer, the creator of the NFT, the owner of the marketplace), or of a
    due contract (the pallet's account, the renter, the rentee). *)
Definition due_party (s : state) (w : N) : Prop :=
  (exists i a d m, due_auction s i /\ auctions (s_auc s) !! i = Some a /\ a_bidders a <> [] /\
     nfts (s_nft s) !! i = Some d /\ mkts (s_mkt s) !! a_mkt a = Some m /\
     (w = auction_pot \/ w = a_creator a \/ w = creator d \/ w = m_owner m)) \/
  (exists i c, due_contract s i /\ contracts (s_rent s) !! i = Some c /\
     (w = rent_pot \/ w = r_renter c \/ r_rentee c = Some w)).
(** Account [w] has a bid in a due auction. *)
Definition due_bidder (s : state) (w : N) : Prop :=
  exists i a x, due_auction s i /\ auctions (s_auc s) !! i = Some a /\ (w, x) ∈ a_bidders a.

(** The records of the old era [e] expire. *)
Definition expired_era (s : state) (e : N) : Prop := s_era s = Some (e + history_depth).

(** A map without some of the entries that meet [P]. *)
Definition loses {A} (P : N -> Prop) (m m' : gmap N A) : Prop :=
  forall i, m' !! i = m !! i \/ (P i /\ m' !! i = None).
(** A schedule without some of its first entries, all of them due at [now]. *)
Definition advanced (now : N) (q q' : list (N * N)) : Prop :=
  exists l, q = l ++ q' /\ forall i b, (i, b) ∈ l -> b <= now.

(** The block that leads from [s] to [s'] touches only what is due. *)
Record touches_only_due (s s' : state) : Prop := {
  td_now : s_now s' = s_now s + 1;
  (* whole pallets *)
  td_rest : s_era s' = s_era s /\ s_mkt s' = s_mkt s /\ s_brg s' = s_brg s /\ s_srw s' = s_srw s;
  (* all storage not named below *)
  td_nft : s_nft s' = s_nft s <| nfts := nfts (s_nft s') |>;
  td_auc : s_auc s' = s_auc s <| auctions := auctions (s_auc s') |> <| deadlines := deadlines (s_auc s') |>
                              <| claims := claims (s_auc s') |>;
  td_rent : s_rent s' = s_rent s <| contracts := contracts (s_rent s') |> <| queues := queues (s_rent s') |>;
  td_trans : s_trans s' = s_trans s <| transs := transs (s_trans s') |> <| t_queue := t_queue (s_trans s') |>;
  td_tee : s_tee s' = s_tee s <| claimed := claimed (s_tee s') |> <| reports := reports (s_tee s') |>;
  (* NFTs: only the due ones, and of those only the owner and three flags *)
  td_nfts : forall i, ~ due_nft s i -> nfts (s_nft s') !! i = nfts (s_nft s) !! i;
  td_nfts_dom : forall i, nfts (s_nft s') !! i = None <-> nfts (s_nft s) !! i = None;
  td_nfts_rest : forall i d d', nfts (s_nft s) !! i = Some d -> nfts (s_nft s') !! i = Some d' ->
    d' = d <| owner := owner d' |>
           <| nstate ::= fun st => st <| is_listed := is_listed (nstate d') |> <| is_rented := is_rented (nstate d') |>
                                      <| is_transmission := is_transmission (nstate d') |> |>;
  (* records leave only when due *)
  td_auctions : loses (due_auction s) (auctions (s_auc s)) (auctions (s_auc s'));
  td_contracts : loses (due_contract s) (contracts (s_rent s)) (contracts (s_rent s'));
  td_transs : loses (due_transmission s) (transs (s_trans s)) (transs (s_trans s'));
  (* schedules *)
  td_deadlines : advanced (s_now s') (deadlines (s_auc s)) (deadlines (s_auc s'));
  td_t_queue : advanced (s_now s') (t_queue (s_trans s)) (t_queue (s_trans s'));
  td_fixed : advanced (s_now s') (q_fixed (queues (s_rent s))) (q_fixed (queues (s_rent s')));
  td_avail : advanced (s_now s') (q_avail (queues (s_rent s))) (q_avail (queues (s_rent s')));
  td_sub_old : forall i b, (i, b) ∈ q_sub (queues (s_rent s)) -> s_now s' < b -> (i, b) ∈ q_sub (queues (s_rent s'));
  td_sub_new : forall i b, (i, b) ∈ q_sub (queues (s_rent s')) -> (i, b) ∈ q_sub (queues (s_rent s)) \/
    exists c, due_contract s i /\ contracts (s_rent s) !! i = Some c /\ b = s_now s' + period_of (r_duration c);
  (* tee records of eras that do not expire *)
  td_claimed : forall e w, ~ expired_era s e -> claimed (s_tee s') !! (e, w) = claimed (s_tee s) !! (e, w);
  td_reports : forall e w, ~ expired_era s e -> reports (s_tee s') !! (e, w) = reports (s_tee s) !! (e, w);
  (* tokens *)
  td_claims : forall w, ~ due_bidder s w -> claims (s_auc s') !! w = claims (s_auc s) !! w;
  td_free : forall w, ~ due_party s w -> free (s_bal s') w = free (s_bal s) w;
  td_locks : tee_lock (s_bal s') = tee_lock (s_bal s) /\ other_lock (s_bal s') = other_lock (s_bal s);
  (* the log of events only grows *)
  td_events : exists l, s_events s' = l ++ s_events s
}.

(** Nothing is due in the block after [s]: no schedule has an entry for it, the era is known
    and there is no record of an expired era. *)
Definition nothing_due (s : state) : Prop :=
  (forall i, ~ due_auction s i) /\ (forall i, ~ due_transmission s i) /\ (forall i, ~ due_contract s i) /\
  s_era s <> None /\
  (forall e w, expired_era s e -> claimed (s_tee s) !! (e, w) = None /\ reports (s_tee s) !! (e, w) = None).
End spec.
