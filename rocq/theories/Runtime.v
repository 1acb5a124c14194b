(** The runtime around the pallets: decoding limits of the calls, origin checks,
    transactional dispatch, block hooks, and the executions the theorems quantify over. *)
From Verif Require Export BridgeModel.
Local Open Scope N_scope.

Section runtime.
Context {C : Config}.

(** * Decoding

    The argument types of the extrinsics bound what can reach them: u8, u32, u64, u128,
    [Permill] and [BoundedVec]s.  A value outside its type is an extrinsic that does not
    decode.  Account ids and block numbers are unbounded in the model. *)
Definition fits (m x : N) : bool := x <=? m.
(** the same for [Option] (for instance nft/src/lib.rs:709). *)
Definition fits_opt (m : N) (o : option N) : bool := match o with Some x => x <=? m | None => true end.
(** A [BoundedVec] (for instance primitives/src/common.rs:25). *)
Definition short {A} (m : N) (l : list A) : bool := nlen l <=? m.
(** No counterpart in /repo: a [Permill] decodes only up to one million. *)
Definition permill_ok (p : N) : bool := p <=? 1000000.

(** [CompoundFee] (primitives/src/common.rs:40-43) *)
Definition wf_fee (f : compound_fee) : bool :=
  match f with Flat x => fits u128_max x | Percentage p => permill_ok p end.
(** [ConfigOp] (primitives/src/common.rs:29-36) *)
Definition wf_op {A} (f : A -> bool) (o : config_op A) : bool :=
  match o with SetTo a => f a | _ => true end.
(** [AcceptanceType] (rent/src/types.rs:136-139) *)
Definition wf_acceptance (a : acceptance) : bool :=
  match a with
  | AutoAcceptance (Some l) | ManualAcceptance (Some l) => short rent_accounts_limit l
  | _ => true
  end.
(** [RentFee] (rent/src/types.rs:152-158) *)
Definition wf_rent_fee (f : rent_fee) : bool :=
  match f with RentTokens x => fits u128_max x | RentNFT i => fits u32_max i end.
(** [CancellationFee] (rent/src/types.rs:181-190) *)
Definition wf_cancel_fee (f : cancel_fee) : bool :=
  match f with
  | NoFee => true
  | FixedTokens x | FlexibleTokens x => fits u128_max x
  | FeeNFT i => fits u32_max i
  end.
(** [TransmissionProtocol] (transmission-protocols/src/types.rs:39-45) *)
Definition wf_protocol (p : protocol) : bool :=
  match p with
  | OnConsent l t | OnConsentAtBlock l t _ => short consent_limit l && fits u8_max t
  | _ => true
  end.
(** [MetricsServerReport] (tee/src/types.rs:135-145) *)
Definition wf_report (r : report) : bool :=
  fits u8_max (rp1 r) && fits u8_max (rp2 r) && fits u8_max (rp3 r) && fits u8_max (rp4 r)
  && fits u8_max (rp5 r).
(** [ReportParamsWeightage] (tee/src/types.rs:151-157) *)
Definition wf_weightage (w : weightage) : bool :=
  fits u8_max (w1 w) && fits u8_max (w2 w) && fits u8_max (w3 w) && fits u8_max (w4 w)
  && fits u8_max (w5 w).

(** models the argument types of the [#[pallet::call]] blocks (same references as [call]
    in Types.v, lines included). *)
Fixpoint wf_call (c : call) : bool :=
  match c with
  | C_create_nft d r co _ => short nft_data_limit d && permill_ok r && fits_opt u32_max co
  | C_burn_nft i | C_transfer_nft i _ | C_delegate_nft i _ | C_add_secret_shard i
  | C_add_capsule_shard i | C_notify_enclave_key_update i => fits u32_max i
  | C_set_royalty i r => fits u32_max i && permill_ok r
  | C_set_nft_mint_fee f | C_set_secret_nft_mint_fee f | C_set_capsule_mint_fee f
  | C_set_marketplace_mint_fee f | C_set_protocol_fee _ f | C_set_staking_amount f
  | C_set_daily_reward_pool f | C_set_bridge_fee f | C_set_session_extra_reward_payout f =>
      fits u128_max f
  | C_create_collection d l => short coll_data_limit d && fits_opt u32_max l
  | C_burn_collection c | C_close_collection c => fits u32_max c
  | C_limit_collection c l => fits u32_max c && fits u32_max l
  | C_add_nft_to_collection i c => fits u32_max i && fits u32_max c
  | C_add_secret i d | C_convert_to_capsule i d | C_set_capsule_offchaindata i d =>
      fits u32_max i && short nft_data_limit d
  | C_create_secret_nft d e r co _ | C_create_capsule d e r co _ =>
      short nft_data_limit d && short nft_data_limit e && permill_ok r && fits_opt u32_max co
  | C_set_collection_offchaindata c d => fits u32_max c && short coll_data_limit d
  | C_create_marketplace _ => true
  | C_set_marketplace_owner m _ | C_set_marketplace_kind m _ => fits u32_max m
  | C_set_marketplace_configuration m f1 f2 a d c =>
      fits u32_max m && wf_op wf_fee f1 && wf_op wf_fee f2
      && wf_op (short mkt_accounts_limit) a && wf_op (short mkt_data_limit) d
      && wf_op (fun l => short mkt_colls_limit l && forallb (fits u32_max) l) c
  | C_list_nft i m p => fits u32_max i && fits u32_max m && fits u128_max p
  | C_unlist_nft i => fits u32_max i
  | C_buy_nft i p => fits u32_max i && fits u128_max p
  | C_create_auction i m _ _ p b =>
      fits u32_max i && fits u32_max m && fits u128_max p && fits_opt u128_max b
  | C_cancel_auction i | C_end_auction i | C_remove_bid i => fits u32_max i
  | C_add_bid i a | C_buy_it_now i a => fits u32_max i && fits u128_max a
  | C_claim => true
  | C_create_contract i _ a _ f f1 f2 =>
      fits u32_max i && wf_acceptance a && wf_rent_fee f && wf_cancel_fee f1 && wf_cancel_fee f2
  | C_cancel_contract i | C_revoke_contract i | C_rent i _ | C_make_rent_offer i _
  | C_accept_rent_offer i _ | C_retract_rent_offer i => fits u32_max i
  | C_change_subscription_terms i f _ _ _ | C_accept_subscription_terms i f _ _ _ =>
      fits u32_max i && fits u128_max f
  | C_set_transmission_protocol i _ p _ => fits u32_max i && wf_protocol p
  | C_remove_transmission_protocol i | C_reset_timer i _ | C_add_consent i => fits u32_max i
  | C_register_enclave _ u | C_update_enclave _ u => short uri_limit u
  | C_unregister_enclave | C_cancel_update | C_withdraw_unbonded | C_bond_extra
  | C_refund_excess => true
  | C_assign_enclave _ c sl => fits u32_max c && fits u32_max sl
  | C_remove_registration _ | C_reject_update _ | C_approve_enclave_unregistration _
  | C_force_remove_enclave _ | C_approve_update_enclave _ => true
  | C_force_update_enclave _ _ u => match u with Some l => short uri_limit l | None => true end
  | C_create_cluster _ => true
  | C_update_cluster c _ | C_remove_cluster c => fits u32_max c
  | C_register_metrics_server _ _ | C_unregister_metrics_server _
  | C_force_update_metrics_server_type _ _ => true
  | C_submit_metrics_server_report _ r => wf_report r
  | C_set_report_params_weightage w => wf_weightage w
  | C_claim_rewards e | C_update_operator_assigned_era _ e => fits u32_max e
  | C_set_threshold t => fits u32_max t
  | C_add_chain c => fits u8_max c
  | C_set_relayers l => short relayer_limit l
  | C_set_deposit_nonce c n => fits u8_max c && fits u64_max n
  | C_vote_for_proposal c n _ a => fits u8_max c && fits u64_max n && fits u128_max a
  | C_deposit a _ c => fits u128_max a && fits u8_max c
  | C_mandate c => wf_call c
  end.

(** * Origins *)

(** Rust [ensure_signed(origin)?], [ensure_root(origin)?],
    [T::ExternalOrigin::ensure_origin(origin)?] *)
Definition signed (o : origin) (k : N -> M unit) : M unit :=
  match o with Signed who => k who | _ => fail BadOrigin end.
(** [ensure_root(origin)?] (for instance nft/src/lib.rs:690) *)
Definition root (o : origin) (k : M unit) : M unit :=
  match o with Root => k | _ => fail BadOrigin end.
(** [T::ExternalOrigin::ensure_origin(origin)?] (for instance bridge/src/lib.rs:209) *)
Definition external (o : origin) (k : M unit) : M unit :=
  if external_ok o then k else fail BadOrigin.

(** FRAME runs each extrinsic in a storage transaction: an error undoes every write. *)
Definition transactional (m : M unit) : M unit := fun s =>
  match m s with
  | (Ok _, s1) => (Ok tt, s1)
  | (Err e, _) => (Err e, s)
  end.

(** Which function and origin check each call runs.  The [C_mandate] case models
    mandate/src/lib.rs:61-74: the inner call runs as Root, its result goes into the event
    and the extrinsic itself succeeds. *)
Fixpoint exec_call (o : origin) (c : call) : M unit :=
  match c with
  (* nft *)
  | C_create_nft d r co sb => signed o (fun who => create_nft who d r co sb)
  | C_burn_nft i => signed o (fun who => burn_nft who i)
  | C_transfer_nft i a => signed o (fun who => transfer_nft who i a)
  | C_delegate_nft i a => signed o (fun who => delegate_nft who i a)
  | C_set_royalty i r => signed o (fun who => set_royalty who i r)
  | C_set_nft_mint_fee f => root o (set_nft_mint_fee f)
  | C_create_collection d l => signed o (fun who => create_collection who d l)
  | C_burn_collection c => signed o (fun who => burn_collection who c)
  | C_close_collection c => signed o (fun who => close_collection who c)
  | C_limit_collection c l => signed o (fun who => limit_collection who c l)
  | C_add_nft_to_collection i c => signed o (fun who => add_nft_to_collection who i c)
  | C_add_secret i d => signed o (fun who => add_secret who i d)
  | C_create_secret_nft d e r co sb => signed o (fun who => create_secret_nft who d e r co sb)
  | C_add_secret_shard i => signed o (fun who => add_secret_shard who i)
  | C_set_secret_nft_mint_fee f => root o (set_secret_nft_mint_fee f)
  | C_convert_to_capsule i d => signed o (fun who => convert_to_capsule who i d)
  | C_create_capsule d e r co sb => signed o (fun who => create_capsule who d e r co sb)
  | C_set_capsule_offchaindata i d => signed o (fun who => set_capsule_offchaindata who i d)
  | C_set_capsule_mint_fee f => root o (set_capsule_mint_fee f)
  | C_add_capsule_shard i => signed o (fun who => add_capsule_shard who i)
  | C_notify_enclave_key_update i => signed o (fun who => notify_enclave_key_update who i)
  | C_set_collection_offchaindata c d => signed o (fun who => set_collection_offchaindata who c d)
  (* marketplace *)
  | C_create_marketplace k => signed o (fun who => create_marketplace who k)
  | C_set_marketplace_owner m a => signed o (fun who => set_marketplace_owner who m a)
  | C_set_marketplace_kind m k => signed o (fun who => set_marketplace_kind who m k)
  | C_set_marketplace_configuration m f1 f2 a d c =>
      signed o (fun who => set_marketplace_configuration who m f1 f2 a d c)
  | C_set_marketplace_mint_fee f => root o (set_marketplace_mint_fee f)
  | C_list_nft i m p => signed o (fun who => list_nft who i m p)
  | C_unlist_nft i => signed o (fun who => unlist_nft who i)
  | C_buy_nft i p => signed o (fun who => buy_nft who i p)
  (* auction *)
  | C_create_auction i m st en p b => signed o (fun who => create_auction who i m st en p b)
  | C_cancel_auction i => signed o (fun who => cancel_auction who i)
  | C_end_auction i => signed o (fun who => end_auction who i)
  | C_add_bid i a => signed o (fun who => add_bid who i a)
  | C_remove_bid i => signed o (fun who => remove_bid who i)
  | C_buy_it_now i a => signed o (fun who => buy_it_now who i a)
  | C_claim => signed o (fun who => claim who)
  (* rent *)
  | C_create_contract i d a b f f1 f2 => signed o (fun who => create_contract who i d a b f f1 f2)
  | C_cancel_contract i => signed o (fun who => cancel_contract who i)
  | C_revoke_contract i => signed o (fun who => revoke_contract who i)
  | C_rent i b => signed o (fun who => rent who i b)
  | C_make_rent_offer i b => signed o (fun who => make_rent_offer who i b)
  | C_accept_rent_offer i a => signed o (fun who => accept_rent_offer who i a)
  | C_retract_rent_offer i => signed o (fun who => retract_rent_offer who i)
  | C_change_subscription_terms i f p m ch =>
      signed o (fun who => change_subscription_terms who i f p m ch)
  | C_accept_subscription_terms i f p m ch =>
      signed o (fun who => accept_subscription_terms who i f p m ch)
  (* transmission protocols *)
  | C_set_transmission_protocol i a p x => signed o (fun who => set_transmission_protocol who i a p x)
  | C_remove_transmission_protocol i => signed o (fun who => remove_transmission_protocol who i)
  | C_reset_timer i b => signed o (fun who => reset_timer who i b)
  | C_add_consent i => signed o (fun who => add_consent who i)
  | C_set_protocol_fee k f => root o (set_protocol_fee k f)
  (* tee *)
  | C_register_enclave a u => signed o (fun who => register_enclave who a u)
  | C_unregister_enclave => signed o (fun who => unregister_enclave who)
  | C_update_enclave a u => signed o (fun who => update_enclave who a u)
  | C_cancel_update => signed o (fun who => cancel_update who)
  | C_assign_enclave op c sl => root o (assign_enclave op c sl)
  | C_remove_registration op => root o (remove_registration op)
  | C_reject_update op => root o (reject_update op)
  | C_approve_enclave_unregistration op => root o (approve_enclave_unregistration op)
  | C_force_remove_enclave op => root o (force_remove_enclave op)
  | C_approve_update_enclave op => root o (approve_update_enclave op)
  | C_force_update_enclave op a u => root o (force_update_enclave op a u)
  | C_create_cluster t => root o (create_cluster t)
  | C_update_cluster c t => root o (update_cluster c t)
  | C_remove_cluster c => root o (remove_cluster c)
  | C_withdraw_unbonded => signed o (fun who => withdraw_unbonded who)
  | C_register_metrics_server a t => root o (register_metrics_server a t)
  | C_unregister_metrics_server a => root o (unregister_metrics_server a)
  | C_force_update_metrics_server_type a t => root o (force_update_metrics_server_type a t)
  | C_submit_metrics_server_report op r =>
      signed o (fun who => submit_metrics_server_report who op r)
  | C_set_report_params_weightage w => root o (set_report_params_weightage w)
  | C_set_staking_amount a => root o (set_staking_amount a)
  | C_set_daily_reward_pool a => root o (set_daily_reward_pool a)
  | C_claim_rewards e => signed o (fun who => claim_rewards who e)
  | C_update_operator_assigned_era op e => root o (update_operator_assigned_era op e)
  | C_bond_extra => signed o (fun who => bond_extra who)
  | C_refund_excess => signed o (fun who => refund_excess who)
  (* bridge *)
  | C_set_threshold t => external o (set_threshold t)
  | C_add_chain c => external o (add_chain c)
  | C_set_relayers l => external o (set_relayers l)
  | C_set_deposit_nonce c n => external o (set_deposit_nonce c n)
  | C_vote_for_proposal c n a x => signed o (fun who => vote_for_proposal who c n a x)
  | C_deposit a r c => signed o (fun who => deposit who a r c)
  | C_set_bridge_fee f => external o (set_bridge_fee f)
  (* staking rewards *)
  | C_set_session_extra_reward_payout v => external o (set_session_extra_reward_payout v)
  (* mandate *)
  | C_mandate c =>
      external o (
        let! r := catch (transactional (exec_call Root c)) in
        emit (Ev_RootOp (match r with Ok _ => None | Err e => Some e end)))
  end.

(** An extrinsic as the chain runs it: decoded, dispatched, undone on error. *)
Definition dispatch (o : origin) (c : call) (s : state) : res unit * state :=
  if wf_call c then transactional (exec_call o c) s else (Err DecodeError, s).

(** * Blocks *)

(** [on_initialize]: auction/src/lib.rs:124, rent/src/lib.rs:284, transmission-protocols/src/lib.rs:167, tee/src/lib.rs:260. *)
Definition run_hook (h : hook) : M unit :=
  match h with
  | HookAuction => auction_on_initialize
  | HookRent => rent_on_initialize
  | HookTrans => trans_on_initialize
  | HookTee => tee_on_initialize
  end.

(** [on_initialize] of every pallet at the start of a block.  Hooks are not
    transactional: whatever was written before an error stays. *)
Definition run_hooks (s : state) : state :=
  fold_left (fun s h => snd (run_hook h s)) hook_order s.

(** No counterpart in /repo: FRAME's start of a block. *)
Definition next_block (s : state) : state := run_hooks (s <| s_now ::= fun n => n + 1 |>).

(** * Everything else that happens on the chain

    What other pallets may do to the balances, the era and the transaction fees; always
    through pallet-balances and never at the expense of a pallet account. *)
Inductive env :=
| EnvMint (to amt : N)                          (* issuing tokens to an account *)
| EnvBurn (who amt : N)                         (* taking tokens from an account *)
| EnvTransfer (from to amt : N) (keep : bool)
| EnvLock (who amt : N)                         (* a lock other than the tee pallet's *)
| EnvUnlock (who : N)
| EnvEra (e : N)                                (* pallet-staking starts an era *)
| EnvFee (who fee tip : N) (author : option N)  (* a transaction fee and its tip *)
| EnvEraPayout.                                 (* pallet-staking asks for the payout *)

(** No counterpart in /repo: withdrawing and dropping the imbalance. *)
Definition burn_from (who amt : N) : M unit :=
  lift_bal (fun b => match withdraw_b who amt false b with
                     | Ok b1 => Ok (burn_b amt b1)
                     | Err e => Err e
                     end).

(** models pallet-transaction-payment (not in /repo): fee and tip are withdrawn together and
    handed to [on_unbalanceds]. *)
Definition charge_fee (who fee tip : N) (author : option N) : M unit :=
  lift_bal (withdraw_b who (fee + tip) true) ;;;
  on_unbalanceds (Some fee) (Some tip) author.

(** No counterpart in /repo: the effect of each environment action. *)
Definition run_env (e : env) : M unit :=
  match e with
  | EnvMint to amt => mod_bal (fun b => let (i, b1) := issue_b amt b in resolve_creating_b to i b1)
  | EnvBurn who amt => burn_from who amt
  | EnvTransfer from to amt keep => transfer from to amt keep
  | EnvLock who amt =>
      modify (fun s => match free_m (s_bal s) !! who with
                       | Some _ => s <| s_bal ::= fun b => b <| other_lock ::= <[who := amt]> |> |>
                       | None => s
                       end)
  | EnvUnlock who => mod_bal (fun b => b <| other_lock ::= delete who |>)
  | EnvEra e =>
      modify (fun s => match s_era s with
                       | Some e0 => if e0 <? e then s <| s_era := Some e |> else s
                       | None => s <| s_era := Some e |>
                       end)
  | EnvFee who fee tip author => charge_fee who fee tip author
  | EnvEraPayout => let! _ := era_payout in ret tt
  end.

(** * Executions *)

(** No counterpart in /repo: what can happen on the chain. *)
Inductive action :=
| Extrinsic (o : origin) (c : call)
| NextBlock
| Env (e : env).

(** No counterpart in /repo: one step of the chain. *)
Definition step (s : state) (a : action) : state :=
  match a with
  | Extrinsic o c => snd (dispatch o c s)
  | NextBlock => next_block s
  | Env e => snd (transactional (run_env e) s)
  end.

(** [account_id()] of auction/src/lib.rs:660-664, rent/src/lib.rs:913-917, tee/src/lib.rs:1536-1539,
    staking-rewards/src/lib.rs:121-126, the accounts the pallets own: nobody holds a key for them ([PalletId] accounts). *)
Definition pots : list N := [auction_pot; rent_pot; tee_pot; staking_pot].

(** What an action may not do, whatever the state: sign with, take from or lock a pallet
    account. *)
Definition action_ok (a : action) : Prop :=
  match a with
  | Extrinsic (Signed who) _ => who ∉ pots
  | Extrinsic _ _ => True
  | NextBlock => True
  | Env (EnvBurn who _) | Env (EnvTransfer who _ _ _) | Env (EnvLock who _)
  | Env (EnvFee who _ _ _) => who ∉ pots
  | Env _ => True
  end.

(** No counterpart in /repo: sum of the values of a map. *)
Definition msum (m : gmap N N) : N := map_fold (fun _ v acc => v + acc) 0 m.

(** The state when the pallets start: any balances (each at least the existential
    deposit, total issuance their sum), nothing in the pallets' storages, fees and
    thresholds from the configuration (the [DefaultForm] values of the storages). *)
Definition init_state (now : N) (era : option N) (bal lk : gmap N N) : state := {|
  s_now := now;
  s_era := era;
  s_bal := mkBal bal ∅ lk (msum bal);
  s_nft := mkNftSt ∅ ∅ ∅ ∅ ∅ ∅ ∅ 0 0 init_mint_fee init_secret_fee init_capsule_fee;
  s_mkt := mkMktSt ∅ ∅ 0 init_mkt_fee;
  s_auc := mkAucSt ∅ ∅ [] ∅;
  s_rent := mkRentSt ∅ ∅ (mkQueues [] [] []);
  s_trans := mkTransSt ∅ ∅ [] init_at_block_fee init_at_block_reset_fee
               init_on_consent_fee init_on_consent_at_block_fee;
  s_tee := mkTeeSt ∅ [] ∅ ∅ ∅ ∅ 0 ∅ [] init_staking_amount ∅ ∅ (mkWeightage 0 0 0 0 0)
             init_reward_pool ∅ ∅;
  s_brg := mkBrgSt ∅ init_vote_threshold [] ∅ init_bridge_fee;
  s_srw := mkSrwSt 0 0;
  s_events := []
|}.

(** No counterpart in /repo: the states a chain can start in; see [init_state]. *)
Definition genesis (s : state) : Prop :=
  exists now era bal lk,
    s = init_state now era bal lk /\
    map_Forall (fun _ v => ed <= v) bal /\
    msum bal <= u128_max /\
    (forall a, a ∈ pots -> lk !! a = None).

(** No counterpart in /repo: the states of all executions. *)
Inductive reachable : state -> Prop :=
| reach_init s : genesis s -> reachable s
| reach_step s a : reachable s -> action_ok a -> reachable (step s a).

(** What the theorems assume about the parameters of the runtime. *)
Record config_ok : Prop := {
  ok_ed : 0 < ed;
  ok_auction_ed : ed <= auction_ed;
  ok_rent_ed : ed <= rent_ed;
  ok_pots : NoDup pots;
  ok_hooks : Permutation hook_order [HookAuction; HookRent; HookTrans; HookTee];
  ok_fees : init_mint_fee <= u128_max /\ init_secret_fee <= u128_max /\
            init_capsule_fee <= u128_max /\ init_mkt_fee <= u128_max /\
            init_bridge_fee <= u128_max /\ init_staking_amount <= u128_max /\
            init_reward_pool <= u128_max;
  ok_min_duration : 0 < min_auction_duration;
  ok_bidders : 0 < bidder_limit
}.

End runtime.
