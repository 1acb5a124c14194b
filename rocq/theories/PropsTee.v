(** Property theorems: the TEE pallet. *)
From Verif Require Import SpecTee TeeFacts3 Demo.
Local Open Scope N_scope.

Section props.
Context {C : Config}.

(** C51: an operator has an enclave exactly if they have a cluster; exactly one cluster lists
    them, the recorded one; a cluster lists nobody twice and has a bounded size. *)
Theorem C51_exactly_one_cluster s op :
  reachable s ->
  (assigned s op <-> is_Some (cluster_of s op)) /\
  (forall c, cluster_of s op = Some c <-> exists l, cluster_ops s c = Some l /\ op ∈ l) /\
  (assigned s op <-> exists! c, exists l, cluster_ops s c = Some l /\ op ∈ l).
Proof. exact (fact_one_cluster s op). Qed.
Theorem C51_cluster_shape s c l :
  reachable s -> cluster_ops s c = Some l -> NoDup l /\ nlen l <= cluster_size.
Proof. exact (fact_cluster_shape s c l). Qed.

(** C52, full claim: [accepted s addr op <-> enclave_at s op addr] at every reachable state; see
    [C52_refuted].  Proved: the current address is accepted; whoever is accepted acts for an
    operator who is assigned and had that address at some time; and the full claim for the
    executions where no approved update changes an address (forced updates may). *)
Theorem C52_current_address_accepted s op addr :
  reachable s -> enclave_at s op addr -> accepted s addr op.
Proof. exact (fact_current_accepted s op addr). Qed.
Theorem C52_accepted_for_assigned_operators s op addr :
  reachable s -> accepted s addr op -> assigned s op.
Proof. exact (fact_accepted_assigned s op addr). Qed.
Theorem C52_accepted_was_current_partial s0 acts addr op :
  genesis s0 -> Forall action_ok acts -> accepted (after s0 acts) addr op ->
  exists acts1 acts2, acts = acts1 ++ acts2 /\ enclave_at (after s0 acts1) op addr.
Proof. exact (fact_accepted_was_current s0 acts addr op). Qed.
Theorem C52_exact_without_approved_changes_partial s0 acts addr op :
  genesis s0 -> Forall action_ok acts ->
  (forall acts1 a acts2 o u e, acts = acts1 ++ a :: acts2 -> runs a Root (C_approve_update_enclave o) ->
     updates (s_tee (after s0 acts1)) !! o = Some u -> encs (s_tee (after s0 acts1)) !! o = Some e -> e_addr u = e_addr e) ->
  accepted (after s0 acts) addr op <-> enclave_at (after s0 acts) op addr.
Proof. exact (fact_exact_without_updates s0 acts addr op). Qed.

(** C53, full claim: [C53_lock_equals_stake] without the hypothesis on the balances pallet.  It
    says that a zero lock removes the lock; in versions where it is ignored the claim fails,
    see [C53_refuted].  There the lock still equals every nonzero stake. *)
Theorem C53_lock_equals_stake s op :
  zero_lock_clears = true -> reachable s ->
  default 0 (staked s op) = default 0 (locked s op) /\ (is_Some (locked s op) -> is_Some (staked s op)).
Proof. exact (fact_lock_equals_stake s op). Qed.
Theorem C53_nonzero_stake_is_locked_partial s op :
  reachable s ->
  (staked s op = None -> locked s op = None) /\ (forall n, staked s op = Some n -> n <> 0 -> locked s op = Some n).
Proof. exact (fact_lock_of_stake s op). Qed.

(** C54, full claim: the same for operators who have asked to leave; see [C54_refuted]. *)
Theorem C54_assigned_is_bonded_partial s op :
  reachable s -> assigned s op -> ~ leaving s op -> bonded s op.
Proof. exact (fact_assigned_bonded s op). Qed.

(** C55: a successful withdrawal comes at least the bonding duration after the step that
    started the unbonding, and the unbonding lasted all the time.  Nothing else takes away a
    stake of somebody who does not wait for an assignment. *)
Theorem C55_withdraw_after_bonding_duration s0 acts w s' :
  genesis s0 -> Forall action_ok acts -> dispatch (Signed w) C_withdraw_unbonded (after s0 acts) = (Ok tt, s') ->
  exists acts1 a acts2, acts = acts1 ++ a :: acts2 /\ starts_unbonding (after s0 acts1) a w /\
    s_now (after s0 acts1) + bonding_duration <= s_now (after s0 acts) /\
    forall p q, acts2 = p ++ q -> unbonding (after s0 (acts1 ++ a :: p)) w (s_now (after s0 acts1)).
Proof. exact (fact_withdraw s0 acts w s'). Qed.
Theorem C55_no_other_release s a w n :
  reachable s -> staked s w = Some n -> ~ waiting s w ->
  match staked (step s a) w with
  | None => a = Extrinsic (Signed w) C_withdraw_unbonded
  | Some m => m = n \/ (a = Extrinsic (Signed w) C_bond_extra /\ m = staking_amount (s_tee s) /\ n < m) \/
              (a = Extrinsic (Signed w) C_refund_excess /\ m = staking_amount (s_tee s) /\ m < n)
  end.
Proof. exact (fact_release s a w n). Qed.

(** C56 *)
Theorem C56_claimed_at_most_once s w e s1 s2 :
  reachable s -> action_ok (Extrinsic (Signed w) (C_claim_rewards e)) ->
  dispatch (Signed w) (C_claim_rewards e) s = (Ok tt, s1) -> later s1 s2 -> fst (dispatch (Signed w) (C_claim_rewards e) s2) <> Ok tt.
Proof. exact (fact_claim_once s w e s1 s2). Qed.

(** C57: the amount of one claim, where it comes from and where it goes.  The full claim also
    bounds the rewards of an era by the pool; this is false, see [C57_refuted].  It holds up to
    rounding (half a unit per operator) as long as the operators and the pool are the same. *)
Theorem C57_claim_amount s w e s' :
  reachable s -> w ∉ pots -> dispatch (Signed w) (C_claim_rewards e) s = (Ok tt, s') ->
  (exists active since, s_era s = Some active /\ assigned_era (s_tee s) !! w = Some since /\ since <= e /\ e + 2 < active /\ active < e + history_depth) /\
  assigned s w /\
  exists share amt, paid_share s share /\
    match reports (s_tee s) !! (e, w) with
    | None => amt = share
    | Some l => exists p, score (weights (s_tee s)) l p /\ amt <= share /\ 20000 * amt <= 2 * p * share + 10000 /\ 2 * p * share <= 20000 * amt + 10000
    end /\
    free (s_bal s') w = free (s_bal s) w + amt /\ free (s_bal s') tee_pot + amt <= free (s_bal s) tee_pot /\
    (forall rest, free (s_bal s) tee_pot = rest + amt -> ed <= rest -> free (s_bal s') tee_pot = rest) /\
    (forall a, a <> w -> a <> tee_pot -> free (s_bal s') a = free (s_bal s) a) /\
    s_tee s' = s_tee s <| claimed ::= <[(e, w) := amt]> |>.
Proof. exact (fact_claim s w e s'). Qed.
Theorem C57_era_total_partial s acts e ws P :
  reachable s -> Forall action_ok acts -> (forall w, claimed (s_tee s) !! (e, w) = None) ->
  (forall acts1 acts2, acts = acts1 ++ acts2 -> reward_pool (s_tee (after s acts1)) = P /\ forall w, assigned (after s acts1) w <-> assigned s w) ->
  NoDup ws -> 2 * era_total (after s acts) e ws <= 2 * P + operators s.
Proof. exact (fact_era_total s acts e ws P). Qed.

(** C58, full claim: the submitter [w] below is [rp_submitted_by r]; see [C58_refuted]. *)
Theorem C58_reports_come_from_public_servers_partial s a era op r :
  r ∈ reports_of (step s a) era op ->
  r ∈ reports_of s era op \/
  exists w active, a = Extrinsic (Signed w) (C_submit_metrics_server_report op r) /\ public_server s w /\ assigned s op /\
    s_era s = Some active /\ era = active - 1.
Proof. exact (fact_report_step s a era op r). Qed.
Theorem C58_one_report_per_name_partial s era op :
  reachable s -> NoDup (map rp_submitted_by (reports_of s era op)).
Proof. exact (fact_reports_unique s era op). Qed.

(** C59, full claim: the same without the hypothesis that root assigns free slots only; see
    [C59_refuted]. *)
Theorem C59_slots_unique_partial s0 acts c l :
  genesis s0 -> Forall action_ok acts ->
  (forall acts1 a acts2 op slot l0, acts = acts1 ++ a :: acts2 -> runs a Root (C_assign_enclave op c slot) -> cluster_slots (after s0 acts1) c = Some l0 -> slot ∉ l0) ->
  cluster_slots (after s0 acts) c = Some l -> NoDup l.
Proof. exact (fact_slots s0 acts c l). Qed.

(** C60: a new cluster has the next id and is empty; an id whose cluster is gone never comes
    back; a cluster goes only by root's removal, when it is empty. *)
Theorem C60_new_cluster s a c :
  ~ exists_cluster s c -> exists_cluster (step s a) c -> c = next_cluster (s_tee s) /\ (exists ty, runs a Root (C_create_cluster ty)) /\ cluster_ops (step s a) c = Some [].
Proof. exact (fact_cluster_created s a c). Qed.
Theorem C60_never_reused s s1 s2 c :
  reachable s -> exists_cluster s c -> later s s1 -> ~ exists_cluster s1 c -> later s1 s2 -> ~ exists_cluster s2 c.
Proof. exact (fact_cluster_fresh s s1 s2 c). Qed.
Theorem C60_removed_only_when_empty s a c l :
  cluster_ops s c = Some l -> cluster_ops (step s a) c = None -> l = [] /\ runs a Root (C_remove_cluster c).
Proof. exact (fact_cluster_removed s a c l). Qed.

(** C61 *)
Theorem C61_life_cycle s op :
  reachable s ->
  (waiting s op -> ~ assigned s op /\ bonded s op) /\ (updating s op -> assigned s op) /\ (leaving s op -> assigned s op).
Proof. exact (fact_life_cycle s op). Qed.
Theorem C61_leaving_list s :
  reachable s -> NoDup (unregs (s_tee s)) /\ nlen (unregs (s_tee s)) <= list_limit.
Proof. exact (fact_leaving_shape s). Qed.
End props.

(** ** The hypotheses are met *)
Local Notation by_ w c := (Extrinsic (Signed w) c).
Local Notation root c := (Extrinsic Root c).

Section examples.
Local Existing Instance demo1.

(** Accounts 1 and 2 register enclaves 11 and 12 and are assigned to cluster 0; account 3 waits.
    Account 5 is a metrics server and reports on 1. *)
Definition tee_demo : list action :=
  [root (C_create_cluster ClPublic); root (C_create_cluster ClPrivate);
   by_ 1 (C_register_enclave 11 [1]); by_ 2 (C_register_enclave 12 [1]); by_ 3 (C_register_enclave 13 [1]);
   root (C_assign_enclave 1 0 7); root (C_assign_enclave 2 0 8);
   root (C_register_metrics_server 5 ClPublic); root (C_set_report_params_weightage (mkWeightage 20 20 20 20 20))].
(** Two blocks and some eras later 1 has claimed the reward of era 21. *)
Definition report1 : report := mkReport 100 50 50 50 50 5.
Definition tee_demo2 : list action :=
  tee_demo ++ [NextBlock; Env (EnvEra 22); by_ 5 (C_submit_metrics_server_report 1 report1); NextBlock; Env (EnvEra 24); by_ 1 (C_claim_rewards 21)].
(** 1 leaves. *)
Definition tee_demo3 : list action :=
  tee_demo2 ++ [by_ 1 C_unregister_enclave] ++ replicate 10 NextBlock.

Example tee_demo_genesis : genesis demo_init /\ Forall action_ok tee_demo3.
Proof. split; [apply demo_init_genesis|by apply actions_ok]. Qed.
Example tee_demo_reachable : reachable (demo tee_demo2).
Proof. by apply demo_reachable. Qed.
Example tee_demo_cluster : cluster_ops (demo tee_demo2) 0 = Some [1; 2] /\ cluster_of (demo tee_demo2) 1 = Some 0 /\ cluster_slots (demo tee_demo2) 0 = Some [7; 8].
Proof. vm_compute. done. Qed.
Example tee_demo_accepted : enclave_at (demo tee_demo2) 1 11 /\ accepted (demo tee_demo2) 11 1.
Proof. split; [eexists; vm_compute; done|split; [vm_compute; done|by exists 0]]. Qed.
Example tee_demo_waiting : waiting (demo tee_demo2) 3 /\ staked (demo tee_demo2) 3 = Some 20 /\ locked (demo tee_demo2) 3 = Some 20.
Proof. split; [eexists; vm_compute; reflexivity|vm_compute; done]. Qed.
(** The equal share is 500 and the report scores 6000 of 10000. *)
Example tee_demo_claim : claimed (s_tee (demo tee_demo2)) !! (21, 1) = Some 300 /\ free (s_bal (demo tee_demo2)) 1 = 10300 /\
  free (s_bal (demo tee_demo2)) 102 = 4700.
Proof. vm_compute. done. Qed.
Example tee_demo_no_second : fst (dispatch (Signed 1) (C_claim_rewards 21) (demo tee_demo2)) = Err (Tee_err E_RewardsAlreadyClaimedForEra) /\
  fst (dispatch (Signed 2) (C_claim_rewards 21) (demo tee_demo2)) = Ok tt.
Proof. vm_compute. done. Qed.
(** The stake is free ten blocks after the request to leave and not before. *)
Example tee_demo_withdraw : fst (dispatch (Signed 1) C_withdraw_unbonded (demo tee_demo3)) = Ok tt /\
  fst (dispatch (Signed 1) C_withdraw_unbonded (demo (tee_demo2 ++ [by_ 1 C_unregister_enclave] ++ replicate 9 NextBlock))) <> Ok tt.
Proof. vm_compute. done. Qed.
(** Cluster 1 is removed and id 1 does not come back. *)
Example tee_demo_remove : exists_cluster (demo tee_demo) 1 /\ ~ exists_cluster (demo (tee_demo ++ [root (C_remove_cluster 1)])) 1 /\
  cluster_ops (demo (tee_demo ++ [root (C_remove_cluster 1); root (C_create_cluster ClPublic)])) 2 = Some [] /\
  fst (dispatch Root (C_remove_cluster 0) (demo tee_demo)) <> Ok tt.
Proof. split; [eexists; vm_compute; reflexivity|]. split; [intros [x H]; vm_compute in H; discriminate|]. vm_compute. done. Qed.
(** While nobody joins or leaves, the rewards of era 22 stay below the pool. *)
Example tee_demo_total : era_total (demo (tee_demo2 ++ [Env (EnvEra 25); by_ 1 (C_claim_rewards 22); by_ 2 (C_claim_rewards 22)])) 22 [1; 2] = 1000.
Proof. vm_compute. done. Qed.

(** *** Refutations *)
(** C52: after an approved update from 11 to 21 both addresses are accepted for operator 1. *)
Definition tee_update : list action := tee_demo ++ [by_ 1 (C_update_enclave 21 [1]); root (C_approve_update_enclave 1)].
Theorem C52_refuted : exists s op old new, reachable s /\ enclave_at s op new /\ old <> new /\ accepted s old op.
Proof.
  exists (demo tee_update), 1, 11, 21. split; [by apply demo_reachable|]. split; [eexists; vm_compute; done|]. split; [done|].
  split; [vm_compute; reflexivity|]. eexists. vm_compute. reflexivity.
Qed.
(** C53: the staking amount drops to zero; the refund leaves the lock. *)
Definition tee_refund : list action := tee_demo ++ [root (C_set_staking_amount 0); by_ 1 C_refund_excess].
Theorem C53_refuted : exists s op n, reachable s /\ staked s op = Some 0 /\ locked s op = Some n /\ 0 < n.
Proof. exists (demo tee_refund), 1, 20. split; [by apply demo_reachable|]. vm_compute. done. Qed.
(** C54: operator 1 asks to leave, root does not react, the stake is withdrawn after the bonding
    duration.  The enclave is still assigned and accepted, without any stake, and root cannot
    remove it by force. *)
Definition tee_unstaked : list action := tee_demo3 ++ [by_ 1 C_withdraw_unbonded].
Theorem C54_refuted : exists s op, reachable s /\ assigned s op /\ staked s op = None /\ locked s op = None /\
  (exists addr, accepted s addr op) /\ fst (dispatch Root (C_force_remove_enclave op) s) <> Ok tt.
Proof.
  exists (demo tee_unstaked), 1. split; [by apply demo_reachable|]. split; [eexists; eexists; vm_compute; done|].
  split; [vm_compute; done|]. split; [vm_compute; done|]. split; [|vm_compute; done]. exists 11. split; [vm_compute; reflexivity|]. eexists. vm_compute. reflexivity.
Qed.
(** C57: with two operators 1 claims half of the pool for era 22; then 1 is removed and 2 claims
    all of it.  Nobody touched the pool. *)
Definition tee_overpaid : list action :=
  tee_demo ++ [Env (EnvEra 25); by_ 1 (C_claim_rewards 22); root (C_force_remove_enclave 1); by_ 2 (C_claim_rewards 22)].
Theorem C57_refuted : exists s e ws, reachable s /\ NoDup ws /\ reward_pool (s_tee s) = init_reward_pool /\ reward_pool (s_tee s) + 500 <= era_total s e ws.
Proof.
  exists (demo tee_overpaid), 22, [1; 2]. split; [by apply demo_reachable|]. split; [repeat constructor; set_solver|].
  split; [vm_compute; reflexivity|]. vm_compute. discriminate.
Qed.
(** C58: the metrics server 5 stores a report in the name of 4, who never signed anything. *)
Definition tee_spoof : list action := tee_demo ++ [by_ 5 (C_submit_metrics_server_report 1 (mkReport 1 1 1 1 1 4))].
Theorem C58_refuted : exists s0 acts era op r, genesis s0 /\ Forall action_ok acts /\ r ∈ reports_of (after s0 acts) era op /\
  ~ public_server (after s0 acts) (rp_submitted_by r) /\ forall c, Extrinsic (Signed (rp_submitted_by r)) c ∉ acts.
Proof.
  exists demo_init, tee_spoof, 19, 1, (mkReport 1 1 1 1 1 4). split; [apply demo_init_genesis|]. split; [by apply actions_ok|].
  assert (E : reports_of (after demo_init tee_spoof) 19 1 = [mkReport 1 1 1 1 1 4]) by (vm_compute; reflexivity). rewrite E.
  assert (E2 : servers (s_tee (after demo_init tee_spoof)) = [(5, ClPublic)]) by (vm_compute; reflexivity).
  split; [left|]. unfold public_server. rewrite E2. cbn [rp_submitted_by]. clear E E2.
  split; [by intros [[=]|?%elem_of_nil]%elem_of_cons|]. intros c Hc.
  repeat (apply elem_of_cons in Hc as [Hc|Hc]; [discriminate Hc|]). by apply elem_of_nil in Hc.
Qed.
(** C59: both operators get slot 7. *)
Definition tee_slots : list action := take 6 tee_demo ++ [root (C_assign_enclave 2 0 7)].
Theorem C59_refuted : exists s c l, reachable s /\ cluster_slots s c = Some l /\ ~ NoDup l.
Proof.
  exists (demo tee_slots), 0, [7; 7]. split; [by apply demo_reachable|]. split; [vm_compute; reflexivity|]. intros H. apply NoDup_cons in H as [H _]. apply H. left.
Qed.
End examples.

(** The configuration where a zero lock removes the lock. *)
Definition demo_clears : Config := demo_config_all 1 10 true.
Section clears.
Local Existing Instance demo_clears.
Example tee_refund_clears : staked (demo tee_refund) 1 = Some 0 /\ locked (demo tee_refund) 1 = None /\ locked (demo tee_refund) 2 = Some 20.
Proof. vm_compute. done. Qed.
End clears.
Print Assumptions C51_exactly_one_cluster.
Print Assumptions C51_cluster_shape.
Print Assumptions C52_current_address_accepted.
Print Assumptions C52_accepted_for_assigned_operators.
Print Assumptions C52_accepted_was_current_partial.
Print Assumptions C52_exact_without_approved_changes_partial.
Print Assumptions C53_lock_equals_stake.
Print Assumptions C53_nonzero_stake_is_locked_partial.
Print Assumptions C54_assigned_is_bonded_partial.
Print Assumptions C55_withdraw_after_bonding_duration.
Print Assumptions C55_no_other_release.
Print Assumptions C56_claimed_at_most_once.
Print Assumptions C57_claim_amount.
Print Assumptions C57_era_total_partial.
Print Assumptions C58_reports_come_from_public_servers_partial.
Print Assumptions C58_one_report_per_name_partial.
Print Assumptions C59_slots_unique_partial.
Print Assumptions C60_new_cluster.
Print Assumptions C60_never_reused.
Print Assumptions C60_removed_only_when_empty.
Print Assumptions C61_life_cycle.
Print Assumptions C61_leaving_list.
Print Assumptions C52_refuted.
Print Assumptions C53_refuted.
Print Assumptions C54_refuted.
Print Assumptions C57_refuted.
Print Assumptions C58_refuted.
Print Assumptions C59_refuted.
