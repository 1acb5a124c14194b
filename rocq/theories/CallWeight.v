(** The size a call's weight is computed from: the argument of [T::WeightInfo::...] in
    [#[pallet::weight(...)]].  It is computed from the storage before the call runs.  The weight
    functions themselves come from benchmarks and are not modelled; they are linear in the size. *)
From Verif Require Export Runtime.
Local Open Scope N_scope.

Section weight.
Context {C : Config}.

(** models nft/src/lib.rs:447-457 (also 825-831, 902-912, 1055-1065) *)
Definition coll_weight (s : state) (co : option N) : N :=
  match co with
  | Some k => match colls (s_nft s) !! k with Some c => nlen (c_nfts c) | None => 1 end
  | None => 1
  end.

(** models nft/src/lib.rs:445-459 ([create_nft]), 480-499 ([burn_nft]), 824-834
    ([add_nft_to_collection]), 900-914 ([create_secret_nft]), 1053-1067 ([create_capsule]);
    auction/src/lib.rs:341, 450, 475, 605 (the number of deadlines), 505-510, 569-574 (the bidders
    of the auction); rent/src/lib.rs:354, 483, 513, 573, 636, 723, 804, 865 (the size of the three
    queues), 776 (the offers); transmission-protocols/src/lib.rs:308, 425, 477, 522 (the queue);
    mandate/src/lib.rs:57-60 (the weight of the call carried).  [None]: a weight without a size.
    The casts to u32 are left out: PropsCall.v bounds the sizes by u32 constants. *)
Fixpoint weight_size (s : state) (c : call) : option N :=
  match c with
  | C_create_nft _ _ co _ | C_create_secret_nft _ _ _ co _ | C_create_capsule _ _ _ co _ => Some (coll_weight s co)
  | C_burn_nft i => Some (match nfts (s_nft s) !! i with Some d => coll_weight s (collection_id d) | None => 1 end)
  | C_add_nft_to_collection _ k => Some (coll_weight s (Some k))
  | C_create_auction _ _ _ _ _ _ | C_cancel_auction _ | C_end_auction _ | C_buy_it_now _ _ => Some (nlen (deadlines (s_auc s)))
  | C_add_bid i _ | C_remove_bid i =>
      Some (match auctions (s_auc s) !! i with Some a => nlen (a_bidders a) | None => 0 end)
  | C_create_contract _ _ _ _ _ _ _ | C_cancel_contract _ | C_revoke_contract _ | C_rent _ _ | C_make_rent_offer _ _
  | C_accept_rent_offer _ _ | C_change_subscription_terms _ _ _ _ _ | C_accept_subscription_terms _ _ _ _ _ =>
      Some (queues_size (queues (s_rent s)))
  | C_retract_rent_offer i => Some (match offers (s_rent s) !! i with Some l => nlen l | None => 0 end)
  | C_set_transmission_protocol _ _ _ _ | C_remove_transmission_protocol _ | C_reset_timer _ _ | C_add_consent _ =>
      Some (nlen (t_queue (s_trans s)))
  | C_mandate c => weight_size s c
  | _ => None
  end.
End weight.
