(** What the start of a block announces. *)
From Verif Require Export SpecAuction SpecRent.
Local Open Scope N_scope.

Section spec.
Context {C : Config}.

(** A subscription that was due starts a new period: the contract stays, its next due block is
    one period ahead. *)
Definition renewed (s s' : state) (i : N) : Prop :=
  exists c b, contracts (s_rent s) !! i = Some c /\ contracts (s_rent s') !! i = Some c /\
    (i, b) ∈ q_sub (queues (s_rent s)) /\ b <= s_now s' /\
    (i, s_now s' + period_of (r_duration c)) ∈ q_sub (queues (s_rent s')).

(** What event [e] says about the block that leads from [s] to [s']. *)
Definition announced (s s' : state) (e : event) : Prop :=
  match e with
  | Ev_AuctionCompleted i w paid mc rc ac =>
      (* the auction is over: without a bid the NFT stays; otherwise the highest bidder has it,
         and the price is divided as stated *)
      exists a, auctions (s_auc s) !! i = Some a /\ auctions (s_auc s') !! i = None /\
      ((a_bidders a = [] /\ (w, paid) = (None, None) /\ (mc, rc, ac) = (None, None, None) /\ owner_of s' i = owner_of s i) \/
       exists l v x d f com roy rest, a_bidders a = l ++ [(v, x)] /\
         nfts (s_nft s) !! i = Some d /\ commissions (s_auc s) !! i = Some f /\ division f d x com roy rest /\
         (w, paid) = (Some v, Some x) /\ (mc, rc, ac) = (Some com, Some roy, Some rest) /\ owner_of s' i = Some v)
  | Ev_ContractEnded i w =>
      (* the contract was running and is over; nobody revoked it *)
      exists c, contracts (s_rent s) !! i = Some c /\ contracts (s_rent s') !! i = None /\ r_rentee c <> None /\ w = None
  | Ev_ContractExpired i =>
      (* the offer is over without a rentee *)
      exists c, contracts (s_rent s) !! i = Some c /\ contracts (s_rent s') !! i = None /\ r_rentee c = None
  | Ev_ContractSubscriptionPeriodStarted i => renewed s s' i
  | Ev_Transmitted i =>
      exists t, transs (s_trans s) !! i = Some t /\ transs (s_trans s') !! i = None /\ owner_of s' i = Some (t_recipient t)
  | Ev_FailedToGetActiveEra n => s_era s = None /\ n = s_now s'
  | _ => False
  end.

(** The events [l] of a block are true, mention nothing twice and leave nothing out. *)
Record true_log (s s' : state) (l : list event) : Prop := {
  tl_true : forall e, e ∈ l -> announced s s' e;
  tl_once : NoDup l;
  tl_auction : forall i a, auctions (s_auc s) !! i = Some a -> auctions (s_auc s') !! i = None ->
    exists w paid mc rc ac, Ev_AuctionCompleted i w paid mc rc ac ∈ l;
  tl_ended : forall i c, contracts (s_rent s) !! i = Some c -> contracts (s_rent s') !! i = None ->
    r_rentee c <> None -> Ev_ContractEnded i None ∈ l;
  tl_expired : forall i c, contracts (s_rent s) !! i = Some c -> contracts (s_rent s') !! i = None ->
    r_rentee c = None -> Ev_ContractExpired i ∈ l;
  tl_renewed : forall i, renewed s s' i -> Ev_ContractSubscriptionPeriodStarted i ∈ l;
  tl_trans : forall i t, transs (s_trans s) !! i = Some t -> transs (s_trans s') !! i = None -> Ev_Transmitted i ∈ l;
  tl_era : s_era s = None -> Ev_FailedToGetActiveEra (s_now s') ∈ l
}.
End spec.
