(** Model of pallets bridge, staking-rewards and mandate's event (bridge/src/lib.rs,
    bridge/src/types.rs, staking-rewards/src/lib.rs). *)
From Verif Require Export TeeModel.
Local Open Scope N_scope.

Section bridge.
Context {C : Config}.

(** models an error of bridge/src/lib.rs:173-198. *)
Definition berr (e : brg_error) : error := Bridge_err e.

(** models bridge/src/lib.rs:208-217 ([set_threshold]) *)
Definition set_threshold (n : N) : M unit :=
  ensure (0 <? n) (berr B_ThresholdCannotBeZero) ;;;
  mod_brg (fun x => x <| vote_threshold := n |>) ;;;
  emit (Ev_RelayerThresholdUpdated n).

(** models bridge/src/lib.rs:222-233 ([add_chain]), 407-409 ([chain_allowed]) *)
Definition add_chain (c : N) : M unit :=
  let! b := gets s_brg in
  ensure (negb (c =? own_chain)) (berr B_CannotAddSelfToAllowedChainList) ;;;
  ensure (none (nonces b !! c)) (berr B_ChainAlreadyWhitelisted) ;;;
  mod_brg (fun x => x <| nonces ::= <[c := 0]> |>) ;;;
  emit (Ev_ChainAllowed c).

(** models bridge/src/lib.rs:237-248 ([set_relayers]) *)
Definition set_relayers (l : list N) : M unit :=
  mod_brg (fun x => x <| relayers := l |>) ;;;
  emit (Ev_RelayersUpdated l).

(** models bridge/src/lib.rs:252-271 ([set_deposit_nonce]) *)
Definition set_deposit_nonce (c n : N) : M unit :=
  let! b := gets s_brg in
  let! cur := unwrap (nonces b !! c) (berr B_ChainNotFound) in
  ensure (cur <? n) (berr B_NewNonceTooLow) ;;;
  mod_brg (fun x => x <| nonces ::= <[c := n]> |>) ;;;
  emit (Ev_DepositNonceUpdated c n).

(** models bridge/src/types.rs:76-78 ([is_complete]) *)
Definition is_complete (p : proposal) : bool :=
  match p_status p with Initiated => false | Approved => true end.

(** models bridge/src/types.rs:59-71 ([try_to_complete]) *)
Definition try_to_complete (threshold : N) (p : proposal) : proposal :=
  if threshold <=? nlen (p_votes p) then p <| p_status := Approved |> else p.

(** models bridge/src/lib.rs:278-337 ([vote_for_proposal]) *)
Definition vote_for_proposal (who c nonce recipient amount : N) : M unit :=
  let! now := gets s_now in
  let! b := gets s_brg in
  ensure (memN who (relayers b)) (berr B_MustBeRelayer) ;;;
  ensure (negb (none (nonces b !! c))) (berr B_ChainNotAllowed) ;;;
  let key := (c, (nonce, recipient, amount)) in
  let! p :=
    match votes b !! key with
    | Some p =>
        ensure (negb (is_complete p)) (berr B_ProposalAlreadyCompleted) ;;;
        ensure (negb (p_expiry p <=? now)) (berr B_ProposalExpired) ;;;
        ensure (negb (memN who (p_votes p))) (berr B_RelayerAlreadyVoted) ;;;
        ensure (nlen (p_votes p) <? relayer_limit) (berr B_MaximumVoteLimitExceeded) ;;;
        ret (try_to_complete (vote_threshold b) (p <| p_votes ::= fun l => l ++ [who] |>))
    | None =>
        ensure (1 <=? relayer_limit) (berr B_MaximumVoteLimitExceeded) ;;;
        ret (try_to_complete (vote_threshold b) (mkProposal [who] Initiated (now + proposal_lifetime)))
    end in
  mod_brg (fun x => x <| votes ::= <[key := p]> |>) ;;;
  emit (Ev_RelayerVoted c nonce who) ;;;
  when (is_complete p) (
    mod_bal (fun x => let (i, x1) := issue_b amount x in resolve_creating_b recipient i x1) ;;;
    emit (Ev_ProposalApproved c nonce)).

(** models bridge/src/lib.rs:343-370 ([deposit]).  [Currency::burn(amount)] whose result is
    dropped at once lowers and raises the issuance by the same amount, so it is a no-op;
    the withdrawn amount itself is dropped, which burns it. *)
Definition deposit (who amount : N) (recipient : bytes) (c : N) : M unit :=
  let! b := gets s_brg in
  let total := wadd (bridge_fee b) amount in
  ensure (negb (none (nonces b !! c))) (berr B_ChainNotAllowed) ;;;
  let! bal := free_balance who in
  ensure (total <=? bal) (berr B_InsufficientBalance) ;;;
  pay_fee who (bridge_fee b) ;;;
  lift_bal (fun x => match withdraw_b who amount false x with
                     | Ok x1 => Ok (burn_b amount x1)
                     | Err e => Err e
                     end) ;;;
  let n := (default 0 (nonces b !! c) + 1) mod (u64_max + 1) in
  mod_brg (fun x => x <| nonces ::= <[c := n]> |>) ;;;
  emit (Ev_DepositMade c n amount recipient).

(** models bridge/src/lib.rs:375-386 ([set_bridge_fee]) *)
Definition set_bridge_fee (fee : N) : M unit :=
  mod_brg (fun x => x <| bridge_fee := fee |>) ;;;
  emit (Ev_BridgeFeeUpdated fee).

(** ** staking-rewards *)

(** models staking-rewards/src/lib.rs:87-102 ([set_session_extra_reward_payout]) *)
Definition set_session_extra_reward_payout (v : N) : M unit :=
  mod_srw (fun x => x <| session_extra := v |>) ;;;
  emit (Ev_SessionExtraRewardPayoutChanged v).

(** models staking-rewards/src/lib.rs:127-153 ([on_unbalanceds]) called by the transaction
    payment with the fee and tip imbalances already withdrawn from an account; [author] is
    pallet_authorship's answer. *)
Definition on_unbalanceds (fee : option N) (tip : option N) (author : option N) : M unit :=
  on_some fee (fun f =>
    mod_srw (fun x => x <| session_era_payout ::= fun v => sadd v f |>) ;;;
    mod_bal (burn_b f) ;;;
    on_some tip (fun t =>
      match author with
      | Some a => mod_bal (resolve_creating_b a t)
      | None => mod_bal (burn_b t)
      end)).

(** models staking-rewards/src/lib.rs:155-188 ([era_payout]): returns (stakers, treasury). *)
Definition era_payout : M (N * N) :=
  let! d := gets s_srw in
  mod_srw (fun x => x <| session_era_payout := 0 |>) ;;;
  let! bal := free_balance staking_pot in
  let additional := N.min bal (session_extra d) in
  if additional =? 0 then ret (session_era_payout d, 0)
  else
    let! r := catch (lift_bal (fun x => match withdraw_b staking_pot additional false x with
                                        | Ok x1 => Ok (burn_b additional x1)
                                        | Err e => Err e
                                        end)) in
    match r with
    | Ok _ => ret (wadd (session_era_payout d) additional, 0)
    | Err _ => ret (session_era_payout d, 0)
    end.

End bridge.
