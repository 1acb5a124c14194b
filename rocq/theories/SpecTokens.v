(** Vocabulary of the properties about who pays. *)
From Verif Require Export SpecRent.
Local Open Scope N_scope.

Section spec.
Context {C : Config}.

(** The environment takes tokens from [w]: somebody outside of these pallets does, or [w]
    pays for a transaction. *)
Definition env_takes (e : env) (w : N) : Prop :=
  match e with
  | EnvBurn x _ | EnvTransfer x _ _ _ | EnvFee x _ _ _ => x = w
  | _ => False
  end.

(** In the block after [s] account [w] owes [fee] for the next period of the subscription of
    NFT [i]: they rent it, the period is over, the contract is not, and they have accepted
    the current terms. *)
Definition owes (s : state) (w i fee : N) : Prop :=
  exists c b x, contracts (s_rent s) !! i = Some c /\ r_rentee c = Some w /\ r_rent_fee c = RentTokens fee /\
    r_duration c = Subscription x /\ new_terms x = false /\ scheduled s i b /\ b <= s_now s + 1 /\
    ~ over c (s_now s + 1).
(** The calls that may pay out of a pallet's account, with the account. *)
Definition pays_from (c : call) : option N :=
  match c with
  | C_remove_bid _ | C_end_auction _ | C_claim => Some auction_pot
  | C_cancel_contract _ | C_revoke_contract _ => Some rent_pot
  | C_claim_rewards _ => Some tee_pot
  | _ => None
  end.

(** The calls by which operators change their own stake. *)
Definition stake_call (c : call) : Prop :=
  match c with
  | C_register_enclave _ _ | C_unregister_enclave | C_withdraw_unbonded | C_bond_extra | C_refund_excess => True
  | _ => False
  end.

End spec.
