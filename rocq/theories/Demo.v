(** A concrete runtime configuration and execution helpers used by the examples that sit
    beside the theorems. *)
From Verif Require Export Runtime.
Local Open Scope N_scope.

(** Constants in the style of the mocks (nft/src/tests/mock.rs, auction/src/tests/mock.rs,
    rent/src/tests/mock.rs, tee/src/tests/mock.rs, bridge/src/tests/mock.rs). *)
Definition demo_config_all (the_ed the_rent_actions : N) (clears : bool) : Config := {|
  ed := the_ed; fees_collector := Some 90; zero_lock_clears := clears;
  nft_data_limit := 10; coll_data_limit := 10; coll_size_limit := 10; shards_number := 3;
  init_mint_fee := 10; init_secret_fee := 75; init_capsule_fee := 100;
  init_mkt_fee := 250; mkt_accounts_limit := 5; mkt_data_limit := 5; mkt_colls_limit := 5;
  auction_ed := the_ed; min_auction_duration := 10; max_auction_duration := 1000;
  max_auction_delay := 50; grace_period := 5; ending_period := 10; bidder_limit := 3;
  parallel_auctions := 10; auction_actions := 10; auction_pot := 100;
  rent_ed := the_ed; rent_accounts_limit := 3; rent_limit := 10; rent_actions := the_rent_actions;
  availability_limit := 20; duration_limit := 100; rent_pot := 101;
  init_at_block_fee := 1; init_at_block_reset_fee := 2; init_on_consent_fee := 3;
  init_on_consent_at_block_fee := 4; max_block_duration := 100; consent_limit := 4;
  trans_limit := 10; trans_actions := 10;
  cluster_size := 3; uri_limit := 10; list_limit := 10; init_staking_amount := 20;
  bonding_duration := 10; tee_pot := 102; init_reward_pool := 1000; history_depth := 10;
  own_chain := 0; proposal_lifetime := 10; init_vote_threshold := 2; relayer_limit := 3;
  init_bridge_fee := 1; staking_pot := 103;
  external_ok := fun o => match o with OtherOrigin 1 => true | _ => false end;
  hook_order := [HookAuction; HookRent; HookTrans; HookTee]
|}.
Definition demo_config_gen (the_ed the_rent_actions : N) : Config := demo_config_all the_ed the_rent_actions false.
Definition demo_config (the_ed : N) : Config := demo_config_gen the_ed 10.

Section run.
Context {C : Config}.

Definition run (s : state) (l : list action) : state := fold_left step l s.

Definition rich : gmap N N :=
  list_to_map [(1, 10000); (2, 10000); (3, 10000); (4, 10000); (5, 10000); (102, 5000); (103, 5000)].

Definition demo_init : state := init_state 1 (Some 20) rich ∅.

Definition demo (l : list action) : state := run demo_init l.

Lemma run_reachable s l : reachable s -> Forall action_ok l -> reachable (run s l).
Proof.
  revert s. induction l as [|a l IH]; intros s Hs Hl; [done|].
  apply Forall_cons in Hl as [Ha Hl]. apply IH; [|done]. by constructor.
Qed.
End run.

(** The configuration of most examples: existential deposit 1. *)
Definition demo1 : Config := demo_config 1.
Local Existing Instance demo1.

Lemma demo1_ok : config_ok.
Proof.
  split; try done.
  repeat constructor; set_solver.
Qed.

Lemma demo_init_genesis : genesis demo_init.
Proof.
  exists 1, (Some 20), rich, ∅. split; [done|]. split; [|split; [|done]].
  - apply map_Forall_to_list. apply (bool_decide_unpack _). vm_compute. exact I.
  - vm_compute. done.
Qed.

Definition action_okb (a : action) : bool := 
  match a with
  | Extrinsic (Signed who) _ => negb (memN who pots)
  | Extrinsic _ _ => true
  | NextBlock => true
  | Env (EnvBurn who _) | Env (EnvTransfer who _ _ _) | Env (EnvLock who _)
  | Env (EnvFee who _ _ _) => negb (memN who pots)
  | Env _ => true
  end.
Lemma memN_elem x l : memN x l = true <-> x ∈ l.
Proof.
  induction l as [|y l IH]; cbn [memN existsb].
  - split; [done|]. intros H%elem_of_nil. done.
  - rewrite elem_of_cons, <- IH, orb_true_iff, N.eqb_eq. done.
Qed.
Lemma memN_not_elem x l : negb (memN x l) = true -> x ∉ l.
Proof. rewrite negb_true_iff. intros H Hx%memN_elem. congruence. Qed.
Lemma actions_ok l : forallb action_okb l = true -> Forall action_ok l.
Proof.
  rewrite forallb_forall, Forall_forall. intros H a Ha. apply elem_of_list_In, H in Ha.
  destruct a as [[|who|]?| |[]]; try done; by apply memN_not_elem.
Qed.
Lemma demo_reachable l : forallb action_okb l = true -> reachable (demo l).
Proof.
  intros Hl. apply run_reachable; [|by apply actions_ok].
  apply reach_init, demo_init_genesis.
Qed.
