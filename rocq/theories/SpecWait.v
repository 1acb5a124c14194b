(** Vocabulary of the properties about the steps to come. *)
From Verif Require Export SpecTrans SpecRent.
Local Open Scope N_scope.

(** The number of blocks among some steps. *)
Fixpoint blocks (acts : list action) : N :=
  match acts with
  | [] => 0
  | NextBlock :: l => 1 + blocks l
  | _ :: l => blocks l
  end.

Section spec.
Context {C : Config}.

(** With step [a] the owner cancels the transmission [t] of NFT [i], or sets another block. *)
Definition called_off (s : state) (a : action) (i : N) (t : transmission) : Prop :=
  exists w, owner_of s i = Some w /\
    ((a = Extrinsic (Signed w) (C_remove_transmission_protocol i) /\ may_cancel (t_cancellation t) (s_now s) /\ given_to (step s a) i w) \/
     exists b b', a = Extrinsic (Signed w) (C_reset_timer i b') /\ t_protocol t = AtBlockWithReset b /\
       under (step s a) i (t <| t_protocol := AtBlockWithReset b' |>)).
(** In the course of [acts], a block transmits NFT [i] as [t] says, unless the owner calls it off. *)
Definition transmitted_or_called_off (s : state) (acts : list action) (i : N) (t : transmission) : Prop :=
  exists p a q, acts = p ++ a :: q /\ under (after s p) i t /\
    (a = NextBlock /\ given_to (step (after s p) a) i (t_recipient t) \/ called_off (after s p) a i t).

(** The three lists of the rent schedule: fixed contracts, subscriptions, contracts nobody has
    rented yet. *)
Definition rent_lists : list (rent_queues -> list (N * N)) := [q_fixed; q_sub; q_avail].
(** With step [a] the entry of contract [i] for block [b] leaves list [f] of the schedule.
    Either the start of a block ends the contract or renews it for one more period, or
    somebody cancels it, revokes it, rents the NFT or accepts an offer for it. *)
Definition leaves_schedule (f : rent_queues -> list (N * N)) (s : state) (a : action) (i b : N) : Prop :=
  (i, b) ∈ f (queues (s_rent s)) /\ (i, b) ∉ f (queues (s_rent (step s a))) /\
  ((a = NextBlock /\ b <= s_now (step s a) /\
    (contracts (s_rent (step s a)) !! i = None \/
     exists c, contracts (s_rent s) !! i = Some c /\ contracts (s_rent (step s a)) !! i = Some c /\
       (i, s_now (step s a) + period_of (r_duration c)) ∈ q_sub (queues (s_rent (step s a))))) \/
   exists w c, a = Extrinsic (Signed w) c /\
     (c = C_cancel_contract i \/ c = C_revoke_contract i \/ (exists x, c = C_rent i x) \/ (exists t, c = C_accept_rent_offer i t))).

(** With step [a] auction [i] stops ending in block [b].  Either the start of a block
    settles it, or its creator cancels or ends it, or somebody buys the NFT outright, or
    a bid moves the end back. *)
Definition ends_or_moves (s : state) (a : action) (i b : N) : Prop :=
  exists x, auctions (s_auc s) !! i = Some x /\ a_end x = b /\
  ((auctions (s_auc (step s a)) !! i = None /\
    (a = NextBlock /\ b <= s_now (step s a) \/
     exists w c, a = Extrinsic (Signed w) c /\ (c = C_cancel_auction i \/ c = C_end_auction i \/ exists p, c = C_buy_it_now i p))) \/
   exists w amt y, a = Extrinsic (Signed w) (C_add_bid i amt) /\ auctions (s_auc (step s a)) !! i = Some y /\ b < a_end y).
End spec.
