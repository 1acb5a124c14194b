(** Property theorems: the events of a block.  What they say is in SpecLog.v. *)
From Verif Require Import SpecLog BlockLog Demo.
Local Open Scope N_scope.

Section props.
Context {C : Config}.

(** C110: what the start of a block announces is true, said once, and leaves nothing out (the
    list of events is newest first). *)
Theorem C110_block_events s : config_ok -> reachable s ->
  exists l, s_events (step s NextBlock) = l ++ s_events s /\ true_log s (step s NextBlock) l.
Proof. exact (block_log s). Qed.
End props.

(** One block in which two auctions, three contracts and a transmission are due, and one
    without an active era. *)
Section examples.
Local Existing Instance demo1.
Let by_ (w : N) (c : call) : action := Extrinsic (Signed w) c.

Definition log_demo : list action :=
  [by_ 5 (C_create_marketplace Public); by_ 5 (C_set_marketplace_configuration 0 (SetTo (Percentage 100000)) Noop Noop Noop Noop)] ++
  replicate 7 (by_ 1 (C_create_nft [] 100000 None false)) ++
  [by_ 1 (C_create_auction 1 0 1 21 50 None); by_ 1 (C_create_auction 2 0 1 21 50 None);
   by_ 1 (C_create_contract 3 (FixedIn 10) (AutoAcceptance None) true (RentTokens 100) NoFee NoFee);
   by_ 1 (C_create_contract 4 (FixedIn 20) (AutoAcceptance None) true (RentTokens 100) NoFee NoFee);
   by_ 1 (C_create_contract 5 (SubscriptionIn 10 (Some 50) true) (AutoAcceptance None) true (RentTokens 10) NoFee NoFee);
   by_ 1 (C_set_transmission_protocol 6 4 (AtBlock 21) Anytime);
   by_ 2 (C_rent 4 1); by_ 2 (C_add_bid 1 100); by_ 3 (C_add_bid 1 200)] ++
  replicate 10 NextBlock ++ [by_ 2 (C_rent 5 1)] ++ replicate 9 NextBlock.
Example C110_case : let s := demo log_demo in
  config_ok /\ reachable s /\ s_now s = 20 /\
  s_events (step s NextBlock) =
    [Ev_Transmitted 6; Ev_ContractExpired 3; Ev_ContractSubscriptionPeriodStarted 5; Ev_ContractEnded 4 None;
     Ev_AuctionCompleted 2 None None None None None; Ev_AuctionCompleted 1 (Some 3) (Some 200) (Some 20) (Some 18) (Some 162)] ++ s_events s.
Proof.
  cbv zeta. split; [exact demo1_ok|]. split; [by apply demo_reachable|]. split; vm_compute; reflexivity.
Qed.

Lemma no_era_genesis : genesis (init_state 1 None rich ∅).
Proof.
  exists 1, None, rich, ∅. split; [done|]. split; [|split; [|done]].
  - apply map_Forall_to_list. apply (bool_decide_unpack _). vm_compute. exact I.
  - vm_compute. done.
Qed.
Example C110_no_era_case : let s := init_state 1 None rich ∅ in
  reachable s /\ s_events (step s NextBlock) = [Ev_FailedToGetActiveEra 2].
Proof. cbv zeta. split; [by apply reach_init, no_era_genesis|vm_compute; reflexivity]. Qed.
End examples.

Print Assumptions C110_block_events.
