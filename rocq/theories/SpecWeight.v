(** Storage entries a block hook changes, and the reads and writes it declares. *)
From Verif Require Export WeightModel SpecRent.
Local Open Scope N_scope.

(** The storage entries the hooks work on (one key of a map, or one value). *)
Inductive entry :=
| E_nft (i : N) | E_auction (i : N) | E_deadlines | E_refund (w : N) | E_contract (i : N) | E_rent_queues
| E_transmission (i : N) | E_trans_queue | E_consents (i : N) | E_claimed (era w : N) | E_report (era w : N) | E_account (w : N).

Section spec.
Context {C : Config}.

Definition changed (s s' : state) (k : entry) : Prop :=
  match k with
  | E_nft i => nfts (s_nft s') !! i <> nfts (s_nft s) !! i
  | E_auction i => auctions (s_auc s') !! i <> auctions (s_auc s) !! i
  | E_deadlines => deadlines (s_auc s') <> deadlines (s_auc s)
  | E_refund w => claims (s_auc s') !! w <> claims (s_auc s) !! w
  | E_contract i => contracts (s_rent s') !! i <> contracts (s_rent s) !! i
  | E_rent_queues => queues (s_rent s') <> queues (s_rent s)
  | E_transmission i => transs (s_trans s') !! i <> transs (s_trans s) !! i
  | E_trans_queue => t_queue (s_trans s') <> t_queue (s_trans s)
  | E_consents i => consents (s_trans s') !! i <> consents (s_trans s) !! i
  | E_claimed e w => claimed (s_tee s') !! (e, w) <> claimed (s_tee s) !! (e, w)
  | E_report e w => reports (s_tee s') !! (e, w) <> reports (s_tee s) !! (e, w)
  | E_account w => free (s_bal s') w <> free (s_bal s) w
  end.

(** At most [n] entries of the kind [P] changed. *)
Definition at_most (P : entry -> Prop) (s s' : state) (n : N) : Prop :=
  forall ks, NoDup ks -> (forall k, k ∈ ks -> P k /\ changed s s' k) -> nlen ks <= n.

(** Hook [h], run in state [t], declares [r] reads and [w] writes. *)
Definition declares (h : hook) (t : state) (r w : N) : Prop := fst (hook_weight h t) = Ok (r, w).

(** What the code charges for one thing done, told by its event: an auction costs three reads,
    one more for each losing bidder, and two writes; and so on. *)
Definition reads_for (t : state) (e : event) : N :=
  match e with
  | Ev_AuctionCompleted i _ _ _ _ _ => 3 + match auctions (s_auc t) !! i with Some a => nlen (a_bidders a) - 1 | None => 0 end
  | Ev_Transmitted _ => 2
  | Ev_ContractEnded _ _ | Ev_ContractExpired _ | Ev_ContractSubscriptionPeriodStarted _ => 3
  | _ => 0
  end.
Definition writes_for (t : state) (e : event) : N :=
  match e with
  | Ev_AuctionCompleted _ _ _ _ _ _ | Ev_Transmitted _ | Ev_ContractSubscriptionPeriodStarted _ => 2
  | Ev_ContractExpired _ => 5
  | Ev_ContractEnded i _ =>
      match contracts (s_rent t) !! i with
      | Some c => match r_duration c with Subscription _ => 2 | _ => 4 end
      | None => 0
      end
  | _ => 0
  end.

(** What it charges anyway, and the write of the queue if anything was done. *)
Definition first_reads (h : hook) (t : state) : N :=
  match h with
  | HookAuction | HookRent => 1
  | HookTrans => 2
  | HookTee => match s_era t with Some _ => 1 | None => 0 end
  end.
Definition queue_write (h : hook) (l : list event) : N :=
  match h, l with
  | HookRent, _ :: _ | HookTrans, _ :: _ => 1
  | _, _ => 0
  end.

(** Bounds that depend on the configuration only. *)
Definition most_reads (h : hook) : N :=
  match h with
  | HookAuction => 1 + N.max 1 auction_actions * (3 + bidder_limit)
  | HookRent => 1 + (N.max 1 rent_actions + 2) * 3
  | HookTrans => 2 + N.max 1 trans_actions * 2
  | HookTee => 1
  end.
Definition most_writes (h : hook) : N :=
  match h with
  | HookAuction => N.max 1 auction_actions * 2
  | HookRent => (N.max 1 rent_actions + 2) * 5 + 1
  | HookTrans => N.max 1 trans_actions * 2 + 1
  | HookTee => 0
  end.

(** The records of the era that leaves the history. *)
Definition old_records (t : state) : N :=
  match s_era t with
  | Some n =>
      nlen (filter (fun kv => fst (fst kv) + history_depth = n) (map_to_list (claimed (s_tee t)))) +
      nlen (filter (fun kv => fst (fst kv) + history_depth = n) (map_to_list (reports (s_tee t))))
  | None => 0
  end.

(** How many storage entries a hook changes at most: for an auction its NFT, its record, the
    refunds of the bidders, and the accounts of the seller, the creator and the marketplace
    owner; for a contract its record, its NFT, two deposited NFTs and the accounts of the two
    parties; and the pallet's account and queue. *)
Definition most_changes (h : hook) (t : state) : N :=
  match h with
  | HookAuction => parallel_auctions * (5 + bidder_limit) + 2
  | HookRent => (N.max 1 rent_actions + 2) * 6 + 2
  | HookTrans => N.max 1 trans_actions * 2 + 1
  | HookTee => old_records t
  end.
End spec.
