(** Model of pallet tee (tee/src/lib.rs, tee/src/types.rs).  [register_and_assign_enclave]
    (tee/src/lib.rs:1598-1640, used by benchmarks only) is not modelled. *)
From Verif Require Export TransModel.
Local Open Scope N_scope.

Section tee.
Context {C : Config}.

(** models an error of tee/src/lib.rs:379-458. *)
Definition eerr (e : tee_error) : error := Tee_err e.
(** A read of the storage of tee/src/lib.rs:116-244. *)
Definition get_tee {A} (f : tee_st -> A) : M A := gets (fun s => f (s_tee s)).
(** No counterpart in /repo: Rust [o.is_none()]. *)
Definition none {A} (o : option A) : bool := match o with None => true | Some _ => false end.

(** [T::Currency::set_lock(TEE_STAKING_ID, ..)]: tee/src/lib.rs:505-510, 1464-1469, 1503-1508 *)
Definition set_lock (who amt : N) : M unit := mod_bal (set_lock_b who amt).
(** [remove_lock]: tee/src/lib.rs:579, 736, 1123 *)
Definition remove_lock (who : N) : M unit := mod_bal (remove_lock_b who).

(** [T::Currency::ensure_can_withdraw(..)?]: tee/src/lib.rs:491-496, 1455-1460 *)
Definition ensure_can_withdraw (who amt new_balance : N) : M unit :=
  let! b := gets s_bal in
  ensure (can_withdraw b who amt new_balance) Balances_LiquidityRestrictions.

(** models tee/src/lib.rs:465-525 ([register_enclave]) *)
Definition register_enclave (who addr : N) (uri : bytes) : M unit :=
  ensure (negb (nlen uri =? 0)) (eerr E_ApiUriIsEmpty) ;;;
  ensure (negb (who =? addr)) (eerr E_OperatorAndEnclaveAreSame) ;;;
  let! t := gets s_tee in
  ensure (none (regs t !! who)) (eerr E_RegistrationAlreadyExists) ;;;
  ensure (none (encs t !! who)) (eerr E_OperatorAlreadyExists) ;;;
  ensure (none (addr_op t !! addr)) (eerr E_EnclaveAddressAlreadyExists) ;;;
  ensure (none (ledgers t !! who)) (eerr E_UnbondingPeriod) ;;;
  let amt := staking_amount t in
  let! bal := free_balance who in
  ensure (amt <=? bal) (eerr E_InsufficientBalanceToBond) ;;;
  ensure_can_withdraw who amt (bal - amt) ;;;
  mod_tee (fun x => x <| ledgers ::= <[who := mkLedger who amt false 0]> |>) ;;;
  set_lock who amt ;;;
  mod_tee (fun x => x <| regs ::= <[who := mkEnclave addr uri]> |>) ;;;
  emit (Ev_EnclaveAddedForRegistration who addr uri) ;;;
  emit (Ev_Bonded who amt).

(** models tee/src/lib.rs:530-594 ([unregister_enclave]) *)
Definition unregister_enclave (who : N) : M unit :=
  let! now := gets s_now in
  let! t := gets s_tee in
  match encs t !! who with
  | Some _ =>
      ensure (negb (memN who (unregs t))) (eerr E_UnregistrationAlreadyExists) ;;;
      ensure (nlen (unregs t) <? list_limit) (eerr E_UnregistrationLimitReached) ;;;
      mod_tee (fun x => x <| unregs ::= fun l => l ++ [who] |>) ;;;
      let! l := unwrap (ledgers t !! who) (eerr E_StakingNotFound) in
      mod_tee (fun x => x <| ledgers ::= <[who := l <| l_unlocking := true |> <| l_unbonded_at := now |>]> |>) ;;;
      emit (Ev_MovedForUnregistration who) ;;;
      emit (Ev_Unbonded who (l_staked l))
  | None =>
      let! _ := unwrap (regs t !! who) (eerr E_RegistrationNotFound) in
      mod_tee (fun x => x <| regs ::= delete who |>) ;;;
      mod_tee (fun x => x <| ledgers ::= delete who |>) ;;;
      remove_lock who ;;;
      emit (Ev_RegistrationRemoved who) ;;;
      emit (Ev_Withdrawn who (staking_amount t))
  end.

(** models tee/src/lib.rs:597-630 ([update_enclave]) *)
Definition update_enclave (who addr : N) (uri : bytes) : M unit :=
  ensure (negb (nlen uri =? 0)) (eerr E_ApiUriIsEmpty) ;;;
  ensure (negb (who =? addr)) (eerr E_OperatorAndEnclaveAreSame) ;;;
  let! t := gets s_tee in
  let! e := unwrap (encs t !! who) (eerr E_UpdateProhibitedForUnassignedEnclave) in
  ensure (none (updates t !! who)) (eerr E_UpdateRequestAlreadyExists) ;;;
  ensure ((e_addr e =? addr) || none (addr_op t !! addr)) (eerr E_EnclaveAddressAlreadyExists) ;;;
  mod_tee (fun x => x <| updates ::= <[who := mkEnclave addr uri]> |>) ;;;
  emit (Ev_MovedForUpdate who addr uri).

(** models tee/src/lib.rs:634-645 ([cancel_update]) *)
Definition cancel_update (who : N) : M unit :=
  let! t := gets s_tee in
  let! _ := unwrap (updates t !! who) (eerr E_UpdateRequestNotFound) in
  mod_tee (fun x => x <| updates ::= delete who |>) ;;;
  emit (Ev_UpdateRequestCancelled who).

(** models tee/src/lib.rs:650-719 ([assign_enclave]) *)
Definition assign_enclave (op c slot : N) : M unit :=
  let! t := gets s_tee in
  let! r := unwrap (regs t !! op) (eerr E_RegistrationNotFound) in
  let! cl := unwrap (clusters t !! c) (eerr E_ClusterNotFound) in
  ensure (nlen (cl_enclaves cl) <? cluster_size) (eerr E_ClusterIsFull) ;;;
  ensure (none (addr_op t !! e_addr r)) (eerr E_EnclaveAddressAlreadyExists) ;;;
  ensure (none (encs t !! op)) (eerr E_OperatorAlreadyExists) ;;;
  mod_tee (fun x => x <| addr_op ::= <[e_addr r := op]> |>) ;;;
  mod_tee (fun x => x <| encs ::= <[op := r]> |>) ;;;
  mod_tee (fun x => x <| enc_cluster ::= <[op := c]> |>) ;;;
  let! oe := gets s_era in
  let! era := unwrap oe (eerr E_FailedToGetActiveEra) in
  mod_tee (fun x => x <| assigned_era ::= <[op := era]> |>) ;;;
  mod_tee (fun x => x <| clusters ::= <[c := cl <| cl_enclaves ::= fun l => l ++ [(op, slot)] |>]> |>) ;;;
  mod_tee (fun x => x <| regs ::= delete op |>) ;;;
  emit (Ev_EnclaveAssigned op c).

(** models tee/src/lib.rs:723-742 ([remove_registration]) *)
Definition remove_registration (op : N) : M unit :=
  let! t := gets s_tee in
  let! _ := unwrap (regs t !! op) (eerr E_RegistrationNotFound) in
  mod_tee (fun x => x <| ledgers ::= delete op |>) ;;;
  remove_lock op ;;;
  mod_tee (fun x => x <| regs ::= delete op |>) ;;;
  emit (Ev_RegistrationRemoved op).

(** models tee/src/lib.rs:747-761 ([reject_update]) *)
Definition reject_update (op : N) : M unit :=
  let! t := gets s_tee in
  let! _ := unwrap (updates t !! op) (eerr E_UpdateRequestNotFound) in
  mod_tee (fun x => x <| updates ::= delete op |>) ;;;
  emit (Ev_UpdateRequestRemoved op).

(** [iter().position(..)] then [swap_remove(index)], if found: tee/src/lib.rs:836-838, 872-874 *)
Definition remove_op (op : N) (l : list N) : list N :=
  match position (N.eqb op) l with Some i => swap_remove i l | None => l end.
(** the same for the enclaves of a cluster: tee/src/lib.rs:811-815, 892-894 *)
Definition remove_from_cluster (op : N) (l : list (N * N)) : list (N * N) :=
  match position (fun x => fst x =? op) l with Some i => swap_remove i l | None => l end.

(** The part shared by [approve_enclave_unregistration] and [force_remove_enclave]
    (tee/src/lib.rs:784-830 and 857-910): the enclave of [op] with its address mapping,
    its cluster, and the removal of every record of it but the ledger. *)
Definition detach_enclave (op : N) : M unit :=
  let! t := gets s_tee in
  let! e := unwrap (encs t !! op) (eerr E_EnclaveNotFound) in
  ensure (negb (none (addr_op t !! e_addr e))) (eerr E_EnclaveAddressNotFound) ;;;
  let! c := unwrap (enc_cluster t !! op) (eerr E_ClusterIdNotFound) in
  let! cl := unwrap (clusters t !! c) (eerr E_ClusterNotFound) in
  mod_tee (fun x => x <| updates ::= delete op |>) ;;;
  mod_tee (fun x => x <| enc_cluster ::= delete op |>) ;;;
  mod_tee (fun x => x <| assigned_era ::= delete op |>) ;;;
  mod_tee (fun x => x <| addr_op ::= delete (e_addr e) |>) ;;;
  mod_tee (fun x => x <| clusters ::= <[c := cl <| cl_enclaves ::= remove_from_cluster op |>]> |>) ;;;
  mod_tee (fun x => x <| encs ::= delete op |>).

(** models tee/src/lib.rs:766-845 ([approve_enclave_unregistration]) *)
Definition approve_enclave_unregistration (op : N) : M unit :=
  let! t := gets s_tee in
  ensure (memN op (unregs t)) (eerr E_UnregistrationNotFound) ;;;
  detach_enclave op ;;;
  mod_tee (fun x => x <| unregs ::= remove_op op |>) ;;;
  emit (Ev_EnclaveRemoved op).

(** models tee/src/lib.rs:849-934 ([force_remove_enclave]) *)
Definition force_remove_enclave (op : N) : M unit :=
  let! now := gets s_now in
  detach_enclave op ;;;
  mod_tee (fun x => x <| unregs ::= remove_op op |>) ;;;
  let! t := gets s_tee in
  let! l := unwrap (ledgers t !! op) (eerr E_StakingNotFound) in
  mod_tee (fun x => x <| ledgers ::= <[op := l <| l_unlocking := true |> <| l_unbonded_at := now |>]> |>) ;;;
  emit (Ev_Unbonded op (l_staked l)) ;;;
  emit (Ev_EnclaveRemoved op).

(** models tee/src/lib.rs:939-990 ([approve_update_enclave]); the old address mapping is
    not removed, as in the code. *)
Definition approve_update_enclave (op : N) : M unit :=
  let! t := gets s_tee in
  let! u := unwrap (updates t !! op) (eerr E_UpdateRequestNotFound) in
  ensure (negb (nlen (e_uri u) =? 0)) (eerr E_ApiUriIsEmpty) ;;;
  ensure (negb (op =? e_addr u)) (eerr E_OperatorAndEnclaveAreSame) ;;;
  let! e := unwrap (encs t !! op) (eerr E_EnclaveNotFound) in
  when (negb (e_addr e =? e_addr u)) (
    ensure (none (addr_op t !! e_addr u)) (eerr E_EnclaveAddressAlreadyExists) ;;;
    mod_tee (fun x => x <| addr_op ::= <[e_addr u := op]> |>)) ;;;
  mod_tee (fun x => x <| encs ::= <[op := mkEnclave (e_addr u) (e_uri u)]> |>) ;;;
  mod_tee (fun x => x <| updates ::= delete op |>) ;;;
  emit (Ev_EnclaveUpdated op (e_addr u) (e_uri u)).

(** models tee/src/lib.rs:995-1055 ([force_update_enclave]) *)
Definition force_update_enclave (op : N) (addr : option N) (uri : option bytes) : M unit :=
  ensure (negb (none addr && none uri)) (eerr E_NoUpdatesProvided) ;;;
  let! t := gets s_tee in
  let! e := unwrap (encs t !! op) (eerr E_EnclaveNotFound) in
  on_some addr (fun a =>
    ensure (negb (op =? a)) (eerr E_OperatorAndEnclaveAreSame) ;;;
    when (negb (e_addr e =? a)) (
      ensure (none (addr_op t !! a)) (eerr E_EnclaveAddressAlreadyExists) ;;;
      mod_tee (fun x => x <| addr_op ::= delete (e_addr e) |>) ;;;
      mod_tee (fun x => x <| addr_op ::= <[a := op]> |>))) ;;;
  on_some uri (fun u => ensure (negb (nlen u =? 0)) (eerr E_ApiUriIsEmpty)) ;;;
  mod_tee (fun x => x <| encs ::= <[op := mkEnclave (default (e_addr e) addr) (default (e_uri e) uri)]> |>) ;;;
  mod_tee (fun x => x <| updates ::= delete op |>) ;;;
  emit (Ev_EnclaveForceUpdated op addr uri).

(** models tee/src/lib.rs:1060-1070 ([create_cluster]) and 1526-1534 ([get_next_cluster_id]) *)
Definition create_cluster (ty : cluster_type) : M unit :=
  let! i := get_tee next_cluster in
  ensure (i + 1 <=? u32_max) Panic ;;;
  mod_tee (fun x => x <| next_cluster := i + 1 |>) ;;;
  mod_tee (fun x => x <| clusters ::= <[i := mkCluster [] ty]> |>) ;;;
  emit (Ev_ClusterAdded i ty).

(** models tee/src/lib.rs:1075-1088 ([update_cluster]) *)
Definition update_cluster (c : N) (ty : cluster_type) : M unit :=
  let! t := gets s_tee in
  let! cl := unwrap (clusters t !! c) (eerr E_ClusterNotFound) in
  mod_tee (fun x => x <| clusters ::= <[c := cl <| cl_type := ty |>]> |>) ;;;
  emit (Ev_ClusterUpdated c ty).

(** models tee/src/lib.rs:1093-1108 ([remove_cluster]) *)
Definition remove_cluster (c : N) : M unit :=
  let! t := gets s_tee in
  let! cl := unwrap (clusters t !! c) (eerr E_ClusterNotFound) in
  ensure (nlen (cl_enclaves cl) =? 0) (eerr E_ClusterIsNotEmpty) ;;;
  mod_tee (fun x => x <| clusters ::= delete c |>) ;;;
  emit (Ev_ClusterRemoved c).

(** models tee/src/lib.rs:1113-1136 ([withdraw_unbonded]) *)
Definition withdraw_unbonded (who : N) : M unit :=
  let! now := gets s_now in
  let! t := gets s_tee in
  let! l := unwrap (ledgers t !! who) (eerr E_StakingNotFound) in
  ensure (l_unlocking l) (eerr E_UnbondingNotStarted) ;;;
  ensure (bonding_duration <=? N.min (now - l_unbonded_at l) u32_max) (eerr E_WithdrawProhibited) ;;;
  remove_lock who ;;;
  mod_tee (fun x => x <| ledgers ::= delete who |>) ;;;
  emit (Ev_Withdrawn who (staking_amount t)).

(** models tee/src/lib.rs:1141-1159 ([register_metrics_server]) *)
Definition register_metrics_server (a : N) (ty : cluster_type) : M unit :=
  let! l := get_tee servers in
  ensure (negb (existsb (fun x => fst x =? a) l)) (eerr E_MetricsServerAlreadyExists) ;;;
  ensure (nlen l <? list_limit) (eerr E_MetricsServerLimitReached) ;;;
  mod_tee (fun x => x <| servers := l ++ [(a, ty)] |>) ;;;
  emit (Ev_MetricsServerAdded a ty).

(** models tee/src/lib.rs:1163-1185 ([unregister_metrics_server]) *)
Definition unregister_metrics_server (a : N) : M unit :=
  let! l := get_tee servers in
  let! i := unwrap (position (fun x => fst x =? a) l) (eerr E_MetricsServerNotFound) in
  mod_tee (fun x => x <| servers := swap_remove i l |>) ;;;
  emit (Ev_MetricsServerRemoved a).

(** models tee/src/lib.rs:1189-1215 ([force_update_metrics_server_type]) *)
Definition force_update_metrics_server_type (a : N) (ty : cluster_type) : M unit :=
  let! l := get_tee servers in
  let! i := unwrap (position (fun x => fst x =? a) l) (eerr E_MetricsServerNotFound) in
  mod_tee (fun x => x <| servers := <[i := (a, ty)]> l |>) ;;;
  emit (Ev_MetricsServerTypeUpdated a ty).

(** models [supported_cluster_type == ClusterType::Public] (tee/src/lib.rs:1232) *)
Definition is_public (ty : cluster_type) : bool := match ty with ClPublic => true | _ => false end.

(** models the report list update of tee/src/lib.rs:1248-1273 *)
Definition put_report (r : report) (o : option (list report)) : option (list report) :=
  let l := default [] o in
  match position (fun x => rp_submitted_by x =? rp_submitted_by r) l with
  | Some i => Some (<[i := r]> l)
  | None => if nlen l <? list_limit then Some (l ++ [r]) else None
  end.

(** models tee/src/lib.rs:1219-1283 ([submit_metrics_server_report]) *)
Definition submit_metrics_server_report (who op : N) (r : report) : M unit :=
  let! t := gets s_tee in
  let! sv := unwrap (find (fun x => fst x =? who) (servers t)) (eerr E_MetricsServerAddressNotFound) in
  ensure (is_public (snd sv)) (eerr E_MetricsServerUnsupportedClusterType) ;;;
  let! _ := unwrap (encs t !! op) (eerr E_EnclaveNotFoundForTheOperator) in
  let! oe := gets s_era in
  let! active := unwrap oe (eerr E_FailedToGetActiveEra) in
  let era := active - 1 in
  let! l := unwrap (put_report r (reports t !! (era, op))) (eerr E_MetricsReportsLimitReached) in
  mod_tee (fun x => x <| reports ::= <[(era, op) := l]> |>) ;;;
  emit (Ev_MetricsServerReportSubmitted era op r).

(** models tee/src/lib.rs:1287-1303, 1308-1318, 1323-1333 *)
Definition set_report_params_weightage (w : weightage) : M unit :=
  mod_tee (fun x => x <| weights := w |>) ;;; emit (Ev_ReportParamsWeightageModified w).
(** models tee/src/lib.rs:1308-1318 ([set_staking_amount]) *)
Definition set_staking_amount (amt : N) : M unit :=
  mod_tee (fun x => x <| staking_amount := amt |>) ;;; emit (Ev_StakingAmountIsSet amt).
(** models tee/src/lib.rs:1323-1333 ([set_daily_reward_pool]) *)
Definition set_daily_reward_pool (amt : N) : M unit :=
  mod_tee (fun x => x <| reward_pool := amt |>) ;;; emit (Ev_RewardAmountIsSet amt).

(** models tee/src/lib.rs:1541-1556 ([calculate_highest_params]) and 1558-1571
    ([calculate_weighted_sum]).  The u8 products and their sum (at most 325125) fit in u32,
    so neither the saturation nor the wrap can happen. *)
Definition highest (f : report -> N) (l : list report) : N := fold_right N.max 0 (map f l).
(** models tee/src/lib.rs:1558-1571 ([calculate_weighted_sum]) *)
Definition weighted_sum (w : weightage) (l : list report) : N :=
  highest rp1 l * w1 w + highest rp2 l * w2 w + highest rp3 l * w3 w +
  highest rp4 l * w4 w + highest rp5 l * w5 w.

(** models the amount computed in tee/src/lib.rs:1362-1400 *)
Definition reward_amount (t : tee_st) (era op : N) : N :=
  let count := N.of_nat (size (encs t)) in
  let per_op := perbill_mul (perbill_from_rational 1 count) (reward_pool t) in
  match reports t !! (era, op) with
  | Some l => perbill_mul (perbill_from_rational (weighted_sum (weights t) l) 10000) per_op
  | None => per_op
  end.

(** models tee/src/lib.rs:1338-1403 ([claim_rewards]) *)
Definition claim_rewards (who era : N) : M unit :=
  let! t := gets s_tee in
  ensure (none (claimed t !! (era, who))) (eerr E_RewardsAlreadyClaimedForEra) ;;;
  let! oe := gets s_era in
  let! active := unwrap oe (eerr E_FailedToGetActiveEra) in
  let! assigned := unwrap (assigned_era t !! who) (eerr E_OperatorAssignedEraNotFound) in
  ensure ((era <? active - 2) && (active - history_depth <? era) && (assigned <=? era))
    (eerr E_InvalidEraToClaimRewards) ;;;
  let! _ := unwrap (encs t !! who) (eerr E_EnclaveNotFoundForTheOperator) in
  let amt := reward_amount t era who in
  transfer tee_pot who amt false ;;;
  mod_tee (fun x => x <| claimed ::= <[(era, who) := amt]> |>) ;;;
  emit (Ev_RewardsClaimed era who amt).

(** models tee/src/lib.rs:1408-1428 ([update_operator_assigned_era]) *)
Definition update_operator_assigned_era (op era : N) : M unit :=
  let! t := gets s_tee in
  let! _ := unwrap (assigned_era t !! op) (eerr E_OperatorAssignedEraNotFound) in
  mod_tee (fun x => x <| assigned_era ::= <[op := era]> |>) ;;;
  emit (Ev_OperatorAssignedEraUpdated op era).

(** models tee/src/lib.rs:1433-1479 ([bond_extra]) *)
Definition bond_extra (who : N) : M unit :=
  let! t := gets s_tee in
  let amt := staking_amount t in
  let! l := unwrap (ledgers t !! who) (eerr E_StakingNotFound) in
  ensure (l_staked l <? amt) (eerr E_BondExtraNotAllowed) ;;;
  let extra := amt - l_staked l in
  let! bal := free_balance who in
  ensure (extra <=? bal) (eerr E_InsufficientBalanceToBond) ;;;
  ensure_can_withdraw who extra (bal - extra) ;;;
  set_lock who amt ;;;
  mod_tee (fun x => x <| ledgers ::= <[who := l <| l_staked := amt |>]> |>) ;;;
  emit (Ev_BondedExtra who extra).

(** models tee/src/lib.rs:1484-1524 ([refund_excess]) *)
Definition refund_excess (who : N) : M unit :=
  let! t := gets s_tee in
  let amt := staking_amount t in
  let! l := unwrap (ledgers t !! who) (eerr E_StakingNotFound) in
  ensure (amt <? l_staked l) (eerr E_RefundExcessNotAllowed) ;;;
  set_lock who amt ;;;
  mod_tee (fun x => x <| ledgers ::= <[who := l <| l_staked := amt |>]> |>) ;;;
  emit (Ev_RefundedExcess who (l_staked l - amt)).

(** models tee/src/lib.rs:1573-1579 ([clear_old_era]) *)
Definition clear_old_era (era : N) : M unit :=
  mod_tee (fun x => x <| claimed ::= filter (fun kv => fst (fst kv) <> era) |>
                      <| reports ::= filter (fun kv => fst (fst kv) <> era) |>).

(** models tee/src/lib.rs:260-283 ([on_initialize]) *)
Definition tee_on_initialize : M unit :=
  let! now := gets s_now in
  let! oe := gets s_era in
  match oe with
  | None => emit (Ev_FailedToGetActiveEra now)
  | Some active => when (history_depth <=? active) (clear_old_era (active - history_depth))
  end.

End tee.
