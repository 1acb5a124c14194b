(** Vocabulary of the bridge, staking-rewards, mandate and supply properties. *)
From Verif Require Export SpecTee.
Local Open Scope N_scope.

Section spec.
Context {C : Config}.

(** The proposal to mint [m] to [r] for deposit [n] of chain [c]. *)
Definition proposed (s : state) (c n r m : N) (p : proposal) : Prop := votes (s_brg s) !! (c, (n, r, m)) = Some p.
Definition approved (s : state) (c n r m : N) : Prop := exists p, proposed s c n r m p /\ p_status p = Approved.
(** It is pending and its time is over. *)
Definition expired (s : state) (c n r m : N) : Prop :=
  exists p, proposed s c n r m p /\ p_status p = Initiated /\ p_expiry p <= s_now s.

(** Among the steps [acts] is a successful vote of [w], in block [b], when [w] was a relayer. *)
Definition voted_at (s0 : state) (acts : list action) (c n r m w b : N) : Prop :=
  exists l1 l2 s', acts = l1 ++ Extrinsic (Signed w) (C_vote_for_proposal c n r m) :: l2 /\
    dispatch (Signed w) (C_vote_for_proposal c n r m) (after s0 l1) = (Ok tt, s') /\
    w ∈ relayers (s_brg (after s0 l1)) /\ s_now (after s0 l1) = b.

(** Action [a] is a vote on the proposal that moves tokens. *)
Definition mints (s : state) (a : action) (c n r m : N) : Prop :=
  exists w s', a = Extrinsic (Signed w) (C_vote_for_proposal c n r m) /\
    dispatch (Signed w) (C_vote_for_proposal c n r m) s = (Ok tt, s') /\ s_bal s' <> s_bal s.

(** A deposit of [m] by [w] for chain [c] is accepted and announced with nonce [n]. *)
Definition deposits (s : state) (w m : N) (rc : bytes) (c n : N) (s' : state) : Prop :=
  dispatch (Signed w) (C_deposit m rc c) s = (Ok tt, s') /\ exists ev, s_events s' = Ev_DepositMade c n m rc :: ev.
(** The next nonce of chain [c] does not fit in 64 bits. *)
Definition exhausted (s : state) (c : N) : Prop := nonces (s_brg s) !! c = Some u64_max.

(** The fees that wait for the next era payout. *)
Definition waiting_fees (s : state) : N := session_era_payout (s_srw s).
(** Fees: what step [a] collects in state [s], and the sum along a history. *)
Definition fee_of (s : state) (a : action) : N :=
  match a with
  | Env (EnvFee w f t au) => match fst (run_env (EnvFee w f t au) s) with Ok _ => f | Err _ => 0 end
  | _ => 0
  end.
Fixpoint collected (s : state) (acts : list action) : N :=
  match acts with [] => 0 | a :: l => fee_of s a + collected (step s a) l end.
(** What the staking-rewards pallet adds from its pot to the payout of an era. *)
Definition pot_part (s : state) : N := N.min (free (s_bal s) staking_pot) (session_extra (s_srw s)).
(** What the stakers get at the end of an era, and the fee parts of all payouts of a history. *)
Definition era_result (s : state) : N := match fst (era_payout s) with Ok (x, _) => x | Err _ => 0 end.
Definition fee_part (s : state) (a : action) : N :=
  match a with Env EnvEraPayout => era_result s - pot_part s | _ => 0 end.
Fixpoint paid_out (s : state) (acts : list action) : N :=
  match acts with [] => 0 | a :: l => fee_part s a + paid_out (step s a) l end.

(** The sum of all balances. *)
Definition all_balances (s : state) : N := msum (free_m (s_bal s)).
End spec.
