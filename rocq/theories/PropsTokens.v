(** Property theorems: whose tokens move. *)
From Verif Require Import SpecTokens Tokens TeeFacts4 Demo.
Local Open Scope N_scope.

Section props.
Context {C : Config}.

(** C75: an account loses tokens in a step only if it signed the call, or its rent offer is
    accepted (and then at most the advertised fee and deposit), or subscriptions it accepted are
    renewed at the block start (and then at most one fee for each of them), or the rest of the
    runtime took them. *)
Theorem C75_tokens_move_by_consent s a w :
  config_ok -> reachable s -> w ∉ pots ->
  free (s_bal (step s a)) w < free (s_bal s) w ->
  (exists c, a = Extrinsic (Signed w) c) \/
  (exists i c, contracts (s_rent s) !! i = Some c /\ r_rentee c = None /\
     a = Extrinsic (Signed (r_renter c)) (C_accept_rent_offer i w) /\ offered s i w /\
     free (s_bal s) w <= free (s_bal (step s a)) w + token_fee (r_rent_fee c) + token_deposit (r_rentee_cf c)) \/
  (a = NextBlock /\ exists l, l <> [] /\ NoDup (l.*1) /\ (forall i fee, (i, fee) ∈ l -> owes s w i fee) /\
     free (s_bal s) w <= free (s_bal (step s a)) w + sum_of (l.*2)) \/
  (exists e, a = Env e /\ env_takes e w).
Proof. exact (fact_consent s a w). Qed.

(** C76: a pallet's account pays only in the calls and the block work of that pallet. *)
Theorem C76_pots_pay_only_their_own s a p :
  config_ok -> reachable s -> action_ok a -> p ∈ pots ->
  free (s_bal (step s a)) p < free (s_bal s) p ->
  (exists w c, a = Extrinsic (Signed w) c /\ pays_from c = Some p) \/
  (a = NextBlock /\ (p = auction_pot \/ p = rent_pot)) \/
  (a = Env EnvEraPayout /\ p = staking_pot).
Proof. exact (fact_pots s a p). Qed.

(** C77: the stake of [w] changes only by the operator's own staking calls or by root removing
    the waiting registration, and only to nothing or to the published amount. *)
Theorem C77_stake_changes s a w :
  locked (step s a) w <> locked s w ->
  ((exists c, a = Extrinsic (Signed w) c /\ stake_call c) \/ runs a Root (C_remove_registration w)) /\
  (locked (step s a) w = None \/ locked (step s a) w = Some (staking_amount (s_tee s))).
Proof. exact (fact_stake s a w). Qed.
End props.

(** * Concrete cases *)
Section examples.
Local Existing Instance demo1.
Local Notation by_ w c := (Extrinsic (Signed w) c).

(** NFT 0: subscription of 1, period 5 of 20, fee 30, deposit 40, with an offer of 2. *)
Definition tokens_demo : list action :=
  [by_ 1 (C_create_nft [] 0 None false);
   by_ 1 (C_create_contract 0 (SubscriptionIn 5 (Some 20) true) (ManualAcceptance None) false (RentTokens 30) NoFee (FixedTokens 40));
   by_ 2 (C_make_rent_offer 0 1)].
(** C75: the offer is accepted; five blocks later the next period is paid. *)
Example C75_case :
  let s := demo tokens_demo in let a := by_ 1 (C_accept_rent_offer 0 2) in
  let t := demo (tokens_demo ++ [a] ++ replicate 4 NextBlock) in
  reachable s /\ free (s_bal (step s a)) 2 + 70 = free (s_bal s) 2 /\ offered s 0 2 /\
  reachable t /\ free (s_bal (step t NextBlock)) 2 + 30 = free (s_bal t) 2 /\ owes t 2 0 30.
Proof.
  cbv zeta. split; [by apply demo_reachable|]. split; [vm_compute; reflexivity|].
  split; [eexists; split; [vm_compute; reflexivity|set_solver]|]. split; [by apply demo_reachable|]. split; [vm_compute; reflexivity|].
  eexists _, 6, _. split; [vm_compute; reflexivity|]. do 4 (split; [vm_compute; reflexivity|]).
  split; [right; left; vm_compute; left|]. split; [vm_compute; done|]. intros (st&[= <-]&H). vm_compute in H. by apply H.
Qed.
(** C76: the auction account pays a bid back, then, two blocks after the end, the seller; the
    staking account pays an era. *)
Definition pots_demo : list action :=
  [by_ 5 (C_create_marketplace Public); by_ 1 (C_create_nft [] 0 None false); by_ 1 (C_create_auction 0 0 2 20 50 None);
   NextBlock; by_ 2 (C_add_bid 0 100); by_ 3 (C_add_bid 0 200); Extrinsic (OtherOrigin 1) (C_set_session_extra_reward_payout 300)].
Example C76_case :
  let s := demo pots_demo in let t := demo (pots_demo ++ replicate 17 NextBlock) in
  reachable s /\ free (s_bal s) auction_pot = 300 /\ free (s_bal (step s (by_ 2 (C_remove_bid 0)))) auction_pot = 200 /\
  free (s_bal (step s (Env EnvEraPayout))) staking_pot + 300 = free (s_bal s) staking_pot /\
  reachable t /\ free (s_bal t) auction_pot = 300 /\ free (s_bal (step t NextBlock)) auction_pot = 100.
Proof.
  cbv zeta. split; [by apply demo_reachable|]. do 3 (split; [vm_compute; reflexivity|]). split; [by apply demo_reachable|].
  vm_compute. done.
Qed.
(** C77: 1 registers, the amount is raised, 1 adds the rest, root removes the registration. *)
Definition stake_demo : list action := [by_ 1 (C_register_enclave 11 [1]); Extrinsic Root (C_set_staking_amount 30)].
Example C77_case :
  locked demo_init 1 = None /\ locked (demo stake_demo) 1 = Some 20 /\ locked (demo (stake_demo ++ [by_ 1 C_bond_extra])) 1 = Some 30 /\
  locked (demo (stake_demo ++ [Extrinsic Root (C_remove_registration 1)])) 1 = None.
Proof. vm_compute. done. Qed.
End examples.
Print Assumptions C75_tokens_move_by_consent.
Print Assumptions C76_pots_pay_only_their_own.
Print Assumptions C77_stake_changes.
