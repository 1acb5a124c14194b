(** The bounded lists the calls work on, and which of them a call's declared size speaks of. *)
From Verif Require Export CallWeight SpecEffects.
Local Open Scope N_scope.

Inductive book :=
| B_members (k : N) | B_deadlines | B_bidders (i : N) | B_rent_queues | B_offers (i : N) | B_trans_queue.

Section spec.
Context {C : Config}.

(** The list, as pairs; empty if there is no such record. *)
Definition entries (b : book) (s : state) : list (N * N) :=
  match b with
  | B_members k => match colls (s_nft s) !! k with Some c => map (fun i => (i, 0)) (c_nfts c) | None => [] end
  | B_deadlines => deadlines (s_auc s)
  | B_bidders i => match auctions (s_auc s) !! i with Some a => a_bidders a | None => [] end
  | B_rent_queues => q_fixed (queues (s_rent s)) ++ q_sub (queues (s_rent s)) ++ q_avail (queues (s_rent s))
  | B_offers i => match offers (s_rent s) !! i with Some l => map (fun t => (t, 0)) l | None => [] end
  | B_trans_queue => t_queue (s_trans s)
  end.

(** The limit of each list in the configuration. *)
Definition capacity (b : book) : N :=
  match b with
  | B_members _ => coll_size_limit
  | B_deadlines => parallel_auctions
  | B_bidders _ => bidder_limit
  | B_rent_queues => rent_limit
  | B_offers _ => rent_accounts_limit
  | B_trans_queue => trans_limit
  end.

(** The calls that change a list their weight does not depend on: a late bid moves a deadline; the
    end of an auction works through its bidders; the offers are changed or dropped by rent calls
    other than [retract_rent_offer]. *)
Definition undeclared (c : call) (b : book) : Prop :=
  match c, b with
  | C_add_bid _ _, B_deadlines => True
  | C_end_auction i, B_bidders j | C_buy_it_now i _, B_bidders j => i = j
  | C_make_rent_offer i _, B_offers j | C_cancel_contract i, B_offers j | C_rent i _, B_offers j
  | C_accept_rent_offer i _, B_offers j | C_change_subscription_terms i _ _ _ _, B_offers j => i = j
  | _, _ => False
  end.
End spec.
