(** What the calls of pallets tee and bridge, and those of root, do. *)
From Verif Require Import SpecEffects EffCalc TeeFacts3 TeeFacts4 RuleTee.
Local Open Scope N_scope.

Section rows.
Context {C : Config}.

(** ** Operators and metrics servers *)
Lemma register_does w a u s s' : exec_call (Signed w) (C_register_enclave a u) s = (Ok tt, s') -> tee_does s w (C_register_enclave a u) s'.
Proof. intros H. cbn [tee_does]. cbn [exec_call signed] in H. unfold register_enclave, ensure_can_withdraw in H. minv H. subst. eff_eq. Qed.
Lemma unregister_does w s s' : exec_call (Signed w) C_unregister_enclave s = (Ok tt, s') -> tee_does s w C_unregister_enclave s'.
Proof.
  intros H. cbn [tee_does]. cbn [exec_call signed] in H. unfold unregister_enclave in H. do 2 mstep H.
  destruct (encs (s_tee s) !! w) as [e|] eqn:Ee.
  - left. split; [by apply assigned_iff; eexists|]. minv H. subst. eexists. split; [done|]. eff_eq.
  - right. split; [rewrite assigned_iff, Ee; by intros [? ?]|]. minv H. subst. eff_eq.
Qed.
Lemma update_does w a u s s' : exec_call (Signed w) (C_update_enclave a u) s = (Ok tt, s') -> tee_does s w (C_update_enclave a u) s'.
Proof. intros H. cbn [tee_does]. eff_run H update_enclave; eff_eq. Qed.
Lemma cancel_update_does w s s' : exec_call (Signed w) C_cancel_update s = (Ok tt, s') -> tee_does s w C_cancel_update s'.
Proof. intros H. cbn [tee_does]. eff_run H cancel_update. eff_eq. Qed.
Lemma withdraw_does w s s' : exec_call (Signed w) C_withdraw_unbonded s = (Ok tt, s') -> tee_does s w C_withdraw_unbonded s'.
Proof. intros H. cbn [tee_does]. eff_run H withdraw_unbonded. eff_eq. Qed.
Lemma put_report_is r o l : put_report r o = Some l -> reported r (default [] o) l.
Proof.
  unfold put_report. cbv zeta. set (k := default [] o). clearbody k. destruct (position _ k) as [p|] eqn:Ep; intros H.
  - injection H as <-. left. destruct (position_lookup _ _ _ Ep) as (y&Hy&Hf). apply N.eqb_eq in Hf. exists (take p k), y, (drop (S p) k).
    split; [symmetry; by apply take_drop_middle|]. split; [done|]. apply insert_take_drop. by eapply lookup_lt_Some.
  - right. split; [|destruct (_ <? _); congruence]. intros (y&Hy&Hin)%elem_of_list_fmap.
    pose proof (position_None _ _ _ Ep Hin) as E. cbn in E. by rewrite Hy, N.eqb_refl in E.
Qed.
Lemma report_does w op r s s' : exec_call (Signed w) (C_submit_metrics_server_report op r) s = (Ok tt, s') ->
  tee_does s w (C_submit_metrics_server_report op r) s'.
Proof.
  intros H. cbn [tee_does]. eff_run H submit_metrics_server_report. eexists _, _. split; [eassumption|].
  split; [by apply put_report_is|]. eff_eq.
Qed.
Lemma claim_rewards_does w e s s' : exec_call (Signed w) (C_claim_rewards e) s = (Ok tt, s') -> tee_does s w (C_claim_rewards e) s'.
Proof.
  intros H. cbn [tee_does]. eff_run H claim_rewards. exists (reward_amount (s_tee s) e w).
  split; [apply reward_is, assigned_count with w, assigned_iff; by eexists|]. eff_eq.
Qed.
Lemma bond_extra_does w s s' : exec_call (Signed w) C_bond_extra s = (Ok tt, s') -> tee_does s w C_bond_extra s'.
Proof. intros H. cbn [tee_does]. cbn [exec_call signed] in H. unfold bond_extra, ensure_can_withdraw in H. minv H. subst. eexists. split; [done|]. eff_eq. Qed.
Lemma refund_does w s s' : exec_call (Signed w) C_refund_excess s = (Ok tt, s') -> tee_does s w C_refund_excess s'.
Proof. intros H. cbn [tee_does]. eff_run H refund_excess. eexists. split; [done|]. eff_eq. Qed.

(** ** Relayers and depositors *)
Lemma vote_does w ch n r m s s' : exec_call (Signed w) (C_vote_for_proposal ch n r m) s = (Ok tt, s') ->
  bridge_does s w (C_vote_for_proposal ch n r m) s'.
Proof.
  intros H. cbn [bridge_does]. cbv zeta. cbn [exec_call signed] in H. unfold vote_for_proposal in H. do 4 mstep H. cbv zeta in H.
  apply bind_ok in H as (p&s0&H0&H).
  assert (s0 = s /\ p = try_to_complete (vote_threshold (s_brg s)) (mkProposal (p_votes (default (mkProposal [] Initiated (s_now s + proposal_lifetime)) (votes (s_brg s) !! (ch, (n, r, m)))) ++ [w]) Initiated
    (p_expiry (default (mkProposal [] Initiated (s_now s + proposal_lifetime)) (votes (s_brg s) !! (ch, (n, r, m))))))) as [-> ->].
  { destruct (votes (s_brg s) !! _) as [p0|] eqn:Ep; minv H0; subst; (split; [done|]); cbn; [|done].
    f_equal. destruct p0 as [? [|] ?]; cbn in *; done. }
  clear H0. set (p0 := default _ _) in *. clearbody p0. unfold try_to_complete in H. cbn [p_votes] in H.
  destruct (decide _) as [Hd|Hd].
  - rewrite (proj2 (N.leb_le _ _) Hd) in H. cbn [is_complete p_status] in H. minv H; try discriminate W; subst; eff_eq.
  - rewrite (proj2 (N.leb_gt _ _)) in H by lia. cbn [is_complete p_status] in H. minv H; try discriminate W; subst; eff_eq.
Qed.
Lemma deposit_does w m r ch s s' : (forall n, nonces (s_brg s) !! ch = Some n -> n <= u64_max) ->
  exec_call (Signed w) (C_deposit m r ch) s = (Ok tt, s') -> bridge_does s w (C_deposit m r ch) s'.
Proof.
  intros Hn H. cbn [bridge_does]. cbv zeta. eff_run H deposit.
  specialize (Hn _ eq_refl). rename n into cur. exists cur.
  split; [done|]. cbn [from_option id].
  assert ((cur + 1) mod (u64_max + 1) = if decide (cur < u64_max) then cur + 1 else 0) as ->.
  { destruct (decide _); [apply N.mod_small; lia|]. assert (cur = u64_max) as -> by lia. done. }
  eff_eq.
Qed.

(** ** Root *)
Lemma remove_cluster_is op (l : list (N * N)) : op ∈ l.*1 -> exists sl, l ≡ₚ (op, sl) :: remove_from_cluster op l.
Proof.
  intros Hop. unfold remove_from_cluster. destruct (position _ l) as [p|] eqn:Ep.
  - destruct (position_lookup _ _ _ Ep) as ([y sl]&Hy&Hf). apply N.eqb_eq in Hf. cbn in Hf. subst y. exists sl. symmetry. by apply swap_remove_perm.
  - apply elem_of_list_fmap in Hop as ([y sl]&->&Hin). pose proof (position_None _ _ _ Ep Hin) as E. cbn in E. by rewrite N.eqb_refl in E.
Qed.
Lemma remove_op_is op l : l ≡ₚ op :: remove_op op l \/ (op ∉ l /\ remove_op op l = l).
Proof.
  unfold remove_op. destruct (position _ l) as [p|] eqn:Ep.
  - left. destruct (position_lookup _ _ _ Ep) as (y&Hy&Hf). apply N.eqb_eq in Hf. subst y. symmetry. by apply swap_remove_perm.
  - right. split; [|done]. intros Hin. pose proof (position_None _ _ _ Ep Hin) as E. cbn in E. by rewrite N.eqb_refl in E.
Qed.
Lemma detach_is op s s' : reachable s -> detach_enclave op s = (Ok tt, s') ->
  exists e k cl l, leaves s op e k cl l /\ s' = in_tee (detached op e k cl l) s.
Proof.
  intros R H. pose proof (reachable_teeok s R) as HT. unfold detach_enclave in H. minv H. subst s'.
  exists x, x0, x1, (remove_from_cluster op (cl_enclaves x1)). split.
  - split; [done|]. split; [done|]. split; [done|]. apply remove_cluster_is.
    apply (k_in _ HT) in U0 as (cl&Hcl&Hin). congruence.
  - reflexivity.
Qed.

Lemma assign_does op k sl s s' : exec_call Root (C_assign_enclave op k sl) s = (Ok tt, s') -> root_does s (C_assign_enclave op k sl) s'.
Proof.
  intros H. cbn [root_does]. cbv zeta. cbn [exec_call root] in H. unfold assign_enclave in H. minv H. subst s'.
  eexists _, _, _. split; [eassumption|]. split; [eassumption|]. split; [eassumption|]. eff_eq.
Qed.
Lemma approve_unreg_does op s s' : reachable s -> exec_call Root (C_approve_enclave_unregistration op) s = (Ok tt, s') ->
  root_does s (C_approve_enclave_unregistration op) s'.
Proof.
  intros R H. cbn [root_does]. cbv zeta. cbn [exec_call root] in H. unfold approve_enclave_unregistration in H. do 2 mstep H.
  apply bind_ok in H as ([]&s1&H1&H). apply (detach_is _ _ _ R) in H1 as (e&k&cl&l&Hl&->). minv H. subst s'.
  exists e, k, cl, l, (remove_op op (unregs (s_tee s))). split; [done|]. split.
  - destruct (remove_op_is op (unregs (s_tee s))) as [?|[Hn _]]; [done|]. by apply memN_iff in E.
  - clear. eff_eq.
Qed.
Lemma force_remove_does op s s' : reachable s -> exec_call Root (C_force_remove_enclave op) s = (Ok tt, s') ->
  root_does s (C_force_remove_enclave op) s'.
Proof.
  intros R H. cbn [root_does]. cbv zeta. cbn [exec_call root] in H. unfold force_remove_enclave in H. mstep H.
  apply bind_ok in H as ([]&s1&H1&H). apply (detach_is _ _ _ R) in H1 as (e&k&cl&l&Hl&->). minv H. subst s'.
  exists e, k, cl, l, (remove_op op (unregs (s_tee s))), x. split; [done|]. split; [apply remove_op_is|]. split; [exact U|].
  clear. eff_eq.
Qed.
Lemma addr_id s op e : reachable s -> encs (s_tee s) !! op = Some e -> <[e_addr e := op]> (addr_op (s_tee s)) = addr_op (s_tee s).
Proof. intros R He. apply insert_id. by apply (k_addr _ (reachable_teeok s R)). Qed.
Lemma approve_update_does op s s' : reachable s -> exec_call Root (C_approve_update_enclave op) s = (Ok tt, s') ->
  root_does s (C_approve_update_enclave op) s'.
Proof.
  intros R H. cbn [root_does]. cbv zeta. cbn [exec_call root] in H. unfold approve_update_enclave in H. minv H; subst s'.
  all: eexists; split; [eassumption|]; eff_eq.
  all: try (match goal with x : enclave |- _ => destruct x; reflexivity end).
  apply negb_false_iff, N.eqb_eq in W. by rewrite <- W, (addr_id s op).
Qed.
Lemma force_update_does op a u s s' : reachable s -> exec_call Root (C_force_update_enclave op a u) s = (Ok tt, s') ->
  root_does s (C_force_update_enclave op a u) s'.
Proof.
  intros R H. cbn [root_does]. cbv zeta. cbn [exec_call root] in H. unfold force_update_enclave in H. do 3 mstep H. exists x. split; [done|].
  assert (Hid : addr_op (s_tee s) = <[e_addr x := op]> (delete (e_addr x) (addr_op (s_tee s)))) by (rewrite insert_delete_insert; symmetry; by apply addr_id).
  destruct a as [a|]; cbn [on_some from_option id] in *.
  - apply bind_ok in H as ([]&s1&H1&H). apply bind_ok in H as ([]&s2&H2&H). assert (s2 = s1) as -> by (destruct u; cbn [on_some] in H2; by minv H2). clear H2.
    destruct (e_addr x =? a) eqn:Ea.
    + apply N.eqb_eq in Ea as <-. cbn [negb when] in H1. minv H1. subst s1. minv H. subst s'. eff_eq. exact Hid.
    + cbn [negb when] in H1. minv H1. subst s1. minv H. subst s'. eff_eq.
  - mstep H. apply bind_ok in H as ([]&s2&H2&H). assert (s2 = s) as -> by (destruct u; cbn [on_some] in H2; by minv H2). clear H2.
    minv H. subst s'. eff_eq. exact Hid.
Qed.
Lemma unreg_server_does a s s' : exec_call Root (C_unregister_metrics_server a) s = (Ok tt, s') -> root_does s (C_unregister_metrics_server a) s'.
Proof.
  intros H. cbn [root_does]. cbv zeta. eff_run H unregister_metrics_server.
  match goal with U : position _ _ = Some _ |- _ => destruct (position_lookup _ _ _ U) as ([y ty]&Hy&Hf) end. apply N.eqb_eq in Hf. cbn in Hf. subst y.
  eexists ty, _. split; [symmetry; by apply swap_remove_perm|]. eff_eq.
Qed.
Lemma server_type_does a ty s s' : exec_call Root (C_force_update_metrics_server_type a ty) s = (Ok tt, s') -> root_does s (C_force_update_metrics_server_type a ty) s'.
Proof.
  intros H. cbn [root_does]. cbv zeta. eff_run H force_update_metrics_server_type.
  match goal with U : position _ ?l = Some ?p |- _ => destruct (position_lookup _ _ _ U) as ([y old]&Hy&Hf); exists (take p l), old, (drop (S p) l);
    rewrite (insert_take_drop l p) by (by eapply lookup_lt_Some) end. apply N.eqb_eq in Hf. cbn in Hf. subst y.
  split; [symmetry; by apply take_drop_middle|]. eff_eq.
Qed.
Lemma root_rows c s s' : reachable s -> root_call c -> exec_call Root c s = (Ok tt, s') -> root_does s c s'.
Proof.
  intros R Hc H. destruct c; try done.
  all: try (by apply assign_does); try (by apply approve_unreg_does); try (by apply force_remove_does); try (by apply approve_update_does).
  all: try (by apply force_update_does); try (by apply unreg_server_does); try (by apply server_type_does).
  - cbn [root_does]. cbv zeta. eff_run H set_nft_mint_fee. eff_eq.
  - cbn [root_does]. cbv zeta. eff_run H set_secret_nft_mint_fee. eff_eq.
  - cbn [root_does]. cbv zeta. eff_run H set_capsule_mint_fee. eff_eq.
  - cbn [root_does]. cbv zeta. eff_run H set_marketplace_mint_fee. eff_eq.
  - cbn [root_does]. cbv zeta. eff_run H set_protocol_fee. destruct k; eff_eq.
  - cbn [root_does]. cbv zeta. eff_run H remove_registration. eff_eq.
  - cbn [root_does]. cbv zeta. eff_run H reject_update. eff_eq.
  - cbn [root_does]. cbv zeta. eff_run H create_cluster. eff_eq.
  - cbn [root_does]. cbv zeta. eff_run H update_cluster. eexists. split; [eassumption|]. eff_eq.
  - cbn [root_does]. cbv zeta. eff_run H remove_cluster. eff_eq.
  - cbn [root_does]. cbv zeta. eff_run H register_metrics_server. eff_eq.
  - cbn [root_does]. cbv zeta. eff_run H set_report_params_weightage. eff_eq.
  - cbn [root_does]. cbv zeta. eff_run H set_staking_amount. eff_eq.
  - cbn [root_does]. cbv zeta. eff_run H set_daily_reward_pool. eff_eq.
  - cbn [root_does]. cbv zeta. eff_run H update_operator_assigned_era. eff_eq.
Qed.

(** ** The external origin *)
Lemma external_rows o c s s' : wf_call c = true -> external_call c -> exec_call o c s = (Ok tt, s') -> external_does s c s'.
Proof.
  intros Hw Hc H. destruct c; try done; cbn [exec_call] in H; unfold external in H; (destruct (external_ok o); [|done]); cbn [external_does].
  - unfold set_threshold in H. minv H. subst. eff_eq.
  - unfold add_chain in H. minv H. subst. eff_eq.
  - unfold set_relayers in H. minv H. subst. eff_eq.
  - unfold set_deposit_nonce in H. minv H. subst. eff_eq.
  - unfold set_bridge_fee in H. minv H. subst. eff_eq.
  - unfold set_session_extra_reward_payout in H. minv H. subst. eff_eq.
  - cbn [wf_call] in Hw. unfold dispatch. rewrite Hw. unfold bind, catch, emit, transactional in H |- *.
    destruct (exec_call Root c s) as [[[]|e] s1]; cbn in H |- *; injection H as <-; [left; by exists s1|right; by exists e].
Qed.
End rows.
