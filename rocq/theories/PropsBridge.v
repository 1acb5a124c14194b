(** Property theorems: bridge, staking rewards, mandate, supply, block hooks. *)
From Verif Require Import SpecBridge BridgeFacts3 Demo5.
Local Open Scope N_scope.

Section props.
Context {C : Config}.

(** C62: a proposal becomes approved only by a vote, when [vote_threshold] different accounts
    have voted ([f] first, in block [b0], the others [ws] before the proposal expired), each as
    a relayer; tokens move only then; a second vote on it never moves tokens again. *)
Theorem C62_enough_votes s0 acts a c n r m :
  genesis s0 -> Forall action_ok (acts ++ [a]) ->
  ~ approved (after s0 acts) c n r m -> approved (after s0 (acts ++ [a])) c n r m ->
  exists f ws b0 w, a = Extrinsic (Signed w) (C_vote_for_proposal c n r m) /\ NoDup (f :: ws) /\ w ∈ f :: ws /\
    vote_threshold (s_brg (after s0 acts)) <= nlen (f :: ws) /\
    voted_at s0 (acts ++ [a]) c n r m f b0 /\
    forall x, x ∈ ws -> exists b, b0 <= b /\ b < b0 + proposal_lifetime /\ voted_at s0 (acts ++ [a]) c n r m x b.
Proof. exact (fact_enough_votes s0 acts a c n r m). Qed.
Theorem C62_at_most_once s a s' b c n r m :
  reachable s -> action_ok a -> mints s a c n r m -> later (step s a) s' -> ~ mints s' b c n r m.
Proof. exact (fact_once s a s' b c n r m). Qed.

(** Full claim: the recipient gets exactly [m].  False if the recipient has no account and [m]
    is below the existential deposit, see [C62_small_amount_refuted], or if the issuance would
    not fit in 128 bits.  Otherwise exact; never more than [m], and nobody else gains. *)
Theorem C62_mint_is_exact_partial s w c n r m s' :
  reachable s -> dispatch (Signed w) (C_vote_for_proposal c n r m) s = (Ok tt, s') ->
  ~ approved s c n r m /\
  (~ approved s' c n r m -> s_bal s' = s_bal s) /\
  (approved s' c n r m ->
     (free (s_bal s) r <> 0 \/ ed <= m -> issuance (s_bal s) + m <= u128_max ->
        (forall a, free (s_bal s') a = free (s_bal s) a + at_acc r a m) /\ issuance (s_bal s') = issuance (s_bal s) + m) /\
     (free (s_bal s') r <= free (s_bal s) r + m /\ (forall a, a <> r -> free (s_bal s') a = free (s_bal s) a) /\
        issuance (s_bal s') + free (s_bal s) r = issuance (s_bal s) + free (s_bal s') r)).
Proof. exact (fact_mint_exact s w c n r m s'). Qed.

(** C63, full claim: for one chain and nonce only one proposal is ever approved; see
    [C63_refuted].  Proved: if a threshold of [t] held all along, and the accounts that ever were
    relayers are fewer than [2 * t], then some account voted for both. *)
Theorem C63_double_mint_needs_double_vote_partial s0 acts c n r1 m1 r2 m2 (U : list N) t :
  genesis s0 -> Forall action_ok acts ->
  (forall l1 l2, acts = l1 ++ l2 -> t <= vote_threshold (s_brg (after s0 l1)) /\ forall w, w ∈ relayers (s_brg (after s0 l1)) -> w ∈ U) ->
  nlen U < 2 * t ->
  approved (after s0 acts) c n r1 m1 -> approved (after s0 acts) c n r2 m2 ->
  exists w b1 b2, voted_at s0 acts c n r1 m1 w b1 /\ voted_at s0 acts c n r2 m2 w b2.
Proof. exact (fact_double_vote s0 acts c n r1 m1 r2 m2 U t). Qed.

(** C64: [got] is what the fee collector receives of the bridge fee, [dust] what is left of an
    account that falls below the existential deposit. *)
Theorem C64_deposit_is_exact s w m rc c s' :
  reachable s -> dispatch (Signed w) (C_deposit m rc c) s = (Ok tt, s') ->
  let f := bridge_fee (s_brg s) in
  (fees_collector <> Some w -> f + m <= free (s_bal s) w) /\
  exists got dust, (got = f \/ got = 0) /\
    (forall k, fees_collector = Some k -> free (s_bal s) k <> 0 \/ ed <= f -> got = f) /\ (fees_collector = None -> got = 0) /\
    (dust = 0 \/ (dust < ed /\ free (s_bal s') w = 0)) /\
    (forall a, free (s_bal s') a + at_acc w a (f + m + dust) = free (s_bal s) a + (if decide (fees_collector = Some a) then got else 0)) /\
    issuance (s_bal s') + f + m + dust = issuance (s_bal s) + got.
Proof. exact (fact_deposit s w m rc c s'). Qed.

(** C65: whatever happens between two deposits for one chain, the second nonce is larger, unless
    the 64 bits are used up in between. *)
Theorem C65_nonces_increase s w1 m1 rc1 c n1 s1 acts w2 m2 rc2 n2 s2 :
  reachable s -> w1 ∉ pots -> Forall action_ok acts ->
  deposits s w1 m1 rc1 c n1 s1 -> deposits (after s1 acts) w2 m2 rc2 c n2 s2 ->
  n1 < n2 \/ exists l1 l2, acts = l1 ++ l2 /\ exhausted (after s1 l1) c.
Proof. exact (fact_nonces s w1 m1 rc1 c n1 s1 acts w2 m2 rc2 n2 s2). Qed.

(** C66 *)
Theorem C66_approved_is_final s s' c n r m p :
  proposed s c n r m p -> p_status p = Approved -> later s s' -> proposed s' c n r m p.
Proof. exact (fact_final s s' c n r m p). Qed.
Theorem C66_expired_is_never_approved s s' c n r m :
  expired s c n r m -> later s s' -> expired s' c n r m /\ ~ approved s' c n r m.
Proof. exact (fact_expired_never s s' c n r m). Qed.
Theorem C66_votes_on_finished_proposals_fail s c n r m w s' :
  approved s c n r m \/ expired s c n r m ->
  dispatch (Signed w) (C_vote_for_proposal c n r m) s <> (Ok tt, s').
Proof. exact (fact_finished_votes_fail s c n r m w s'). Qed.

(** C67, full claim: the same without the condition that fees and issuance fit in 128 bits; the
    counter saturates, see [C67_refuted].  What one fee does: the payer loses fee and tip, the
    author gets the tip ([got], nothing if the tip cannot create the account). *)
Theorem C67_fees_paid_out_once_partial s0 acts :
  genesis s0 -> Forall action_ok acts ->
  (forall l1 l2, acts = l1 ++ l2 -> collected s0 l1 + issuance (s_bal (after s0 l1)) <= u128_max) ->
  paid_out s0 acts + waiting_fees (after s0 acts) = collected s0 acts.
Proof. exact (fact_fees s0 acts). Qed.
Theorem C67_one_fee s w f t au s' :
  reachable s -> run_env (EnvFee w f t au) s = (Ok tt, s') ->
  f + t <= free (s_bal s) w /\
  exists got, (got = t \/ got = 0) /\
    (forall k, au = Some k -> free (s_bal s) k <> 0 \/ ed <= t -> got = t) /\ (au = None -> got = 0) /\
    (forall a, free (s_bal s') a + at_acc w a (f + t) = free (s_bal s) a + (if decide (au = Some a) then got else 0)) /\
    issuance (s_bal s') + f + t = issuance (s_bal s) + got.
Proof. exact (fact_fee_effect s w f t au s'). Qed.

(** C68, full claim: the same without the condition that the sum fits in 128 bits; see
    [C68_refuted]. *)
Theorem C68_payout_is_exact_partial s :
  reachable s -> waiting_fees s + pot_part s <= u128_max ->
  exists s' dust, era_payout s = (Ok (waiting_fees s + pot_part s, 0), s') /\
    waiting_fees s' = 0 /\ session_extra (s_srw s') = session_extra (s_srw s) /\
    (dust = 0 \/ (dust < ed /\ free (s_bal s') staking_pot = 0)) /\
    free (s_bal s') staking_pot + pot_part s + dust = free (s_bal s) staking_pot /\
    (forall a, a <> staking_pot -> free (s_bal s') a = free (s_bal s) a) /\
    issuance (s_bal s') + pot_part s + dust = issuance (s_bal s) /\
    (exists b w, s' = s <| s_bal := b |> <| s_srw := w |>).
Proof. exact (fact_era s). Qed.

(** C69 *)
Theorem C69_mandate o c s :
  (external_ok o = false -> dispatch o (C_mandate c) s = (Err (if wf_call c then BadOrigin else DecodeError), s)) /\
  (external_ok o = true -> wf_call c = true ->
     dispatch o (C_mandate c) s = match dispatch Root c s with
       | (Ok _, s1) => (Ok tt, s1 <| s_events ::= cons (Ev_RootOp None) |>)
       | (Err e, _) => (Ok tt, s <| s_events ::= cons (Ev_RootOp (Some e)) |>)
       end).
Proof. exact (fact_mandate o c s). Qed.

(** C70 *)
Theorem C70_issuance_is_the_sum s :
  reachable s ->
  issuance (s_bal s) = all_balances s /\ forall a, free (s_bal s) a <> 0 -> ed <= free (s_bal s) a.
Proof. exact (fact_supply s). Qed.
Theorem C70_only_approved_proposals_mint s o cc :
  reachable s -> issuance (s_bal s) < issuance (s_bal (step s (Extrinsic o cc))) ->
  exists w c n r m, o = Signed w /\ cc = C_vote_for_proposal c n r m /\
    ~ approved s c n r m /\ approved (step s (Extrinsic o cc)) c n r m /\ issuance (s_bal (step s (Extrinsic o cc))) <= issuance (s_bal s) + m.
Proof. exact (fact_only_votes s o cc). Qed.
Theorem C70_blocks_do_not_mint s :
  issuance (s_bal (next_block s)) <= issuance (s_bal s).
Proof. exact (fact_block_supply s). Qed.

(** C71: the hooks return normally in every state, and the parts whose errors they handle
    themselves do not panic either. *)
Theorem C71_hooks_never_fail h s :
  fst (run_hook h s) = Ok tt.
Proof. exact (fact_hooks_ok h s). Qed.
Theorem C71_no_panic_inside s :
  (forall id who paid d a, fst (pay_for_nft id who paid d a s) <> Err Panic) /\ (forall id, fst (handle_finished id s) <> Err Panic) /\
  (forall from to amt keep, fst (transfer from to amt keep s) <> Err Panic) /\ (forall id, fst (transmit_nft id s) <> Err Panic).
Proof. exact (fact_no_panic_inside s). Qed.
End props.

(** ** The hypotheses are met *)
Local Notation by_ w c := (Extrinsic (Signed w) c).
Local Notation ext c := (Extrinsic (OtherOrigin 1) c).

(** The relayers 1, 2, 3 are set up; 1 proposes to mint 100 to account 7 for deposit 4 of chain 5. *)
Definition bridge_setup : list action := [ext (C_add_chain 5); ext (C_set_relayers [1; 2; 3])].
Definition bridge_first : list action := bridge_setup ++ [by_ 1 (C_vote_for_proposal 5 4 7 100)].
Definition bridge_second : action := by_ 2 (C_vote_for_proposal 5 4 7 100).

Section examples.
Local Existing Instance demo1.

Example bridge_demo_ok : genesis demo_init /\ Forall action_ok (bridge_first ++ [bridge_second]).
Proof. split; [apply demo_init_genesis|by apply actions_ok]. Qed.
Example bridge_demo_approval : ~ approved (demo bridge_first) 5 4 7 100 /\ approved (demo (bridge_first ++ [bridge_second])) 5 4 7 100.
Proof.
  split.
  - intros (p&Hp&Hst). vm_compute in Hp. injection Hp as <-. discriminate Hst.
  - eexists. split; [vm_compute; reflexivity|done].
Qed.
Example bridge_demo_mint : mints (demo bridge_first) bridge_second 5 4 7 100 /\
  free (s_bal (demo bridge_first)) 7 = 0 /\ free (s_bal (demo (bridge_first ++ [bridge_second]))) 7 = 100 /\
  issuance (s_bal (demo bridge_first)) + 100 = issuance (s_bal (demo (bridge_first ++ [bridge_second]))).
Proof.
  split; [|vm_compute; done]. eexists _, _. split; [reflexivity|]. split; [vm_compute; reflexivity|].
  intros H. apply (f_equal issuance) in H. vm_compute in H. discriminate H.
Qed.
(** The third relayer is too late, with or without approval. *)
Example bridge_demo_late :
  fst (dispatch (Signed 3) (C_vote_for_proposal 5 4 7 100) (demo (bridge_first ++ [bridge_second]))) = Err (Bridge_err B_ProposalAlreadyCompleted) /\
  fst (dispatch (Signed 3) (C_vote_for_proposal 5 4 7 100) (demo (bridge_first ++ replicate 9 NextBlock))) = Ok tt /\
  fst (dispatch (Signed 3) (C_vote_for_proposal 5 4 7 100) (demo (bridge_first ++ replicate 10 NextBlock))) = Err (Bridge_err B_ProposalExpired).
Proof. vm_compute. done. Qed.
Example bridge_demo_expired : expired (demo (bridge_first ++ replicate 10 NextBlock)) 5 4 7 100.
Proof. eexists. split; [vm_compute; reflexivity|]. split; [done|]. vm_compute. discriminate. Qed.
(** C63: the condition on the relayers; nobody has voted for two amounts, and one is approved. *)
Example bridge_demo_relayers : nlen [1; 2; 3] < 2 * 2 /\ vote_threshold (s_brg (demo bridge_first)) = 2 /\ relayers (s_brg (demo bridge_first)) = [1; 2; 3].
Proof. vm_compute. done. Qed.
(** C64, C65: account 1 deposits 500 at a fee of 1; later 2 deposits everything but 1. *)
Definition bridge_deposit : list action := bridge_setup ++ [by_ 1 (C_deposit 500 [9] 5)].
Example bridge_demo_deposit : exists s', deposits (demo bridge_setup) 1 500 [9] 5 1 s' /\
  free (s_bal (demo bridge_setup)) 1 = 10000 /\ free (s_bal s') 1 = 9499 /\ free (s_bal s') 90 = 1 /\
  issuance (s_bal s') + 500 = issuance (s_bal (demo bridge_setup)).
Proof. eexists. split; [split; [vm_compute; reflexivity|eexists; vm_compute; reflexivity]|]. vm_compute. done. Qed.
Example bridge_demo_nonces : exists s', deposits (demo (bridge_deposit ++ [ext (C_set_deposit_nonce 5 40); NextBlock])) 2 700 [9] 5 41 s'.
Proof. eexists. split; [vm_compute; reflexivity|eexists; vm_compute; reflexivity]. Qed.
Example bridge_demo_overflow : fst (dispatch (Signed 1) (C_deposit u128_max [9] 5) (demo bridge_setup)) = Err Balances_InsufficientBalance.
Proof. vm_compute. done. Qed.
(** C67, C68: two fees, a payout with an extra reward of 300 from the pot of 5000, one more fee. *)
Definition fee_demo : list action :=
  [ext (C_set_session_extra_reward_payout 300); Env (EnvFee 1 70 5 (Some 2)); Env (EnvFee 2 30 0 None); Env EnvEraPayout; Env (EnvFee 3 11 0 None)].
Example fee_demo_sums : collected demo_init fee_demo = 111 /\ paid_out demo_init fee_demo = 100 /\ waiting_fees (demo fee_demo) = 11.
Proof. vm_compute. done. Qed.
Example fee_demo_fits : collected demo_init fee_demo + issuance (s_bal demo_init) <= u128_max.
Proof. vm_compute. discriminate. Qed.
Example fee_demo_payout : era_result (demo (take 3 fee_demo)) = 400 /\ pot_part (demo (take 3 fee_demo)) = 300 /\
  free (s_bal (demo (take 4 fee_demo))) 103 = 4700.
Proof. vm_compute. done. Qed.
(** C69: nested mandates; the inner call is root's, and its failure is only reported. *)
Example mandate_demo : cluster_ops (demo [ext (C_mandate (C_create_cluster ClPublic))]) 0 = Some [] /\
  fst (dispatch (OtherOrigin 1) (C_mandate (C_mandate (C_create_cluster ClPublic))) demo_init) = Ok tt /\
  cluster_ops (demo [ext (C_mandate (C_mandate (C_create_cluster ClPublic)))]) 0 = None /\
  fst (dispatch Root (C_mandate (C_create_cluster ClPublic)) demo_init) = Err BadOrigin /\
  fst (dispatch (Signed 1) (C_mandate (C_create_cluster ClPublic)) demo_init) = Err BadOrigin.
Proof. vm_compute. done. Qed.

(** *** Refutations *)
(** C63: the same relayers approve another amount, and another recipient, for the same deposit. *)
Theorem C63_refuted : exists s a b c n r1 m1 r2 m2, reachable s /\ action_ok a /\ mints s a c n r1 m1 /\
  action_ok b /\ mints (step s a) b c n r2 m2 /\ r1 <> r2 /\
  free (s_bal (step (step s a) b)) r1 = free (s_bal s) r1 + m1 /\ free (s_bal (step (step s a) b)) r2 = free (s_bal s) r2 + m2.
Proof.
  exists (demo (bridge_first ++ [by_ 1 (C_vote_for_proposal 5 4 8 250)])), bridge_second, (by_ 2 (C_vote_for_proposal 5 4 8 250)), 5, 4, 7, 100, 8, 250.
  split; [by apply demo_reachable|]. split; [by apply (Forall_inv (actions_ok [bridge_second] eq_refl))|].
  split; [|split; [by apply (Forall_inv (actions_ok [by_ 2 (C_vote_for_proposal 5 4 8 250)] eq_refl))|split]].
  - eexists _, _. split; [reflexivity|]. split; [vm_compute; reflexivity|]. intros H. apply (f_equal issuance) in H. vm_compute in H. discriminate H.
  - eexists _, _. split; [reflexivity|]. split; [vm_compute; reflexivity|]. intros H. apply (f_equal issuance) in H. vm_compute in H. discriminate H.
  - vm_compute. done.
Qed.
(** C67: two fees that do not fit together in 128 bits. *)
Definition huge_fees : list action :=
  [Env (EnvMint 1 u128_max); Env (EnvFee 1 (u128_max - 100000) 0 None); Env (EnvMint 1 u128_max); Env (EnvFee 1 (u128_max - 100000) 0 None)].
Theorem C67_refuted : exists s0 acts, genesis s0 /\ Forall action_ok acts /\ paid_out s0 acts + waiting_fees (after s0 acts) < collected s0 acts.
Proof. exists demo_init, huge_fees. split; [apply demo_init_genesis|]. split; [by apply actions_ok|]. vm_compute. done. Qed.
(** C68: such a counter and an extra reward of 300 from the pot. *)
Theorem C68_refuted : exists s, reachable s /\ era_result s < waiting_fees s /\ pot_part s = 300.
Proof. exists (demo (ext (C_set_session_extra_reward_payout 300) :: huge_fees)). split; [by apply demo_reachable|]. vm_compute. done. Qed.
End examples.

(** C62: with an existential deposit of 5 the approved mint of 3 to a new account gives nothing,
    and the proposal is used up. *)
Section five.
Local Existing Instance demo5.
Definition small_mint : list action := bridge_setup ++ [by_ 1 (C_vote_for_proposal 5 4 7 3); by_ 2 (C_vote_for_proposal 5 4 7 3)].
Theorem C62_small_amount_refuted : exists s c n r m, reachable s /\ approved s c n r m /\ 0 < m /\ free (s_bal s) r = 0 /\
  issuance (s_bal s) = issuance (s_bal demo_init).
Proof.
  exists (run5 small_mint), 5, 4, 7, 3. split; [by apply run5_reachable|].
  split; [eexists; split; vm_compute; reflexivity|]. vm_compute. done.
Qed.
End five.
Print Assumptions C62_enough_votes.
Print Assumptions C62_at_most_once.
Print Assumptions C62_mint_is_exact_partial.
Print Assumptions C63_double_mint_needs_double_vote_partial.
Print Assumptions C64_deposit_is_exact.
Print Assumptions C65_nonces_increase.
Print Assumptions C66_approved_is_final.
Print Assumptions C66_expired_is_never_approved.
Print Assumptions C66_votes_on_finished_proposals_fail.
Print Assumptions C67_fees_paid_out_once_partial.
Print Assumptions C67_one_fee.
Print Assumptions C68_payout_is_exact_partial.
Print Assumptions C69_mandate.
Print Assumptions C70_issuance_is_the_sum.
Print Assumptions C70_only_approved_proposals_mint.
Print Assumptions C70_blocks_do_not_mint.
Print Assumptions C71_hooks_never_fail.
Print Assumptions C71_no_panic_inside.
Print Assumptions C63_refuted.
Print Assumptions C67_refuted.
Print Assumptions C68_refuted.
Print Assumptions C62_small_amount_refuted.
