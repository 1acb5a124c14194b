(** When the calls of pallet bridge and the administrative calls succeed. *)
From Verif Require Export RuleTee.
Local Open Scope N_scope.

(** Up to the first change of the tee pallet. *)
Ltac oktee := repeat (lazymatch goal with |- succeeds (bind (mod_tee _) _) _ => fail | _ => first [apply ok_done | okstep; [solve [oside]|] | okstep; []] end).

Section rules.
Context {C : Config}.
Implicit Types (s : state).

(** *** Deposits *)
Lemma wburn_rule w x b : bsum b 0 -> (exists b', withdraw_b w x false b = Ok b') <->
  x = 0 \/ (x <= free b w /\ (frozen b w = 0 \/ x + N.max ed (frozen b w) <= free b w)).
Proof.
  intros Hb. unfold withdraw_b. destruct (x =? 0) eqn:E0; [apply N.eqb_eq in E0; split; eauto|].
  apply N.eqb_neq in E0. cbv zeta. cbn [andb]. pose proof (has_lock_max b w) as Hl. split.
  - intros [b' H]. right. destruct (free b w <? x) eqn:F1; [done|]. apply N.ltb_ge in F1.
    destruct (free b w - x <? frozen b w) eqn:F2; [done|]. apply N.ltb_ge in F2.
    destruct (has_lock b w) eqn:F3; cbn [andb] in H.
    + destruct (free b w - x <? ed) eqn:F4; [done|]. apply N.ltb_ge in F4. lia.
    + split; [done|]. left. destruct (decide (frozen b w = 0)); [done|]. by apply Hl in n.
  - intros [?|[H1 H2]]; [done|]. rewrite (proj2 (N.ltb_ge (free b w) x)) by lia.
    rewrite (proj2 (N.ltb_ge (free b w - x) (frozen b w))) by lia. destruct (has_lock b w); cbn [andb]; [|eauto].
    destruct Hl as [Hl _]. specialize (Hl eq_refl). rewrite (proj2 (N.ltb_ge (free b w - x) ed)) by lia. eauto.
Qed.

Lemma some_iff {A} (o : option A) : none o = false <-> is_Some o.
Proof. destruct o; cbn; split; eauto; [done|by intros [? ?]]. Qed.

Lemma fact_bridge_rule s w c : 0 < ed -> reachable s -> fees_collector <> Some w -> wf_call c = true -> is_bridge_call c ->
  (exists s', dispatch (Signed w) c s = (Ok tt, s')) <-> bridge_rule s w c.
Proof.
  intros Hed Hs Hfc Hw Hc. pose proof (reachable_binv s Hs) as Hb.
  apply rule_intro; [done| |].
  - intros s' H. destruct c; try done; cbn [exec_call signed root] in H; try done; cbn [bridge_rule].
    + unfold vote_for_proposal in H. do 4 mstep H. apply bind_ok in H as (p&s1&HW&_).
      split_and!; [by apply memN_iff|unfold known_chain; eauto|..].
      * destruct (votes (s_brg s) !! _) as [p0|]; minv HW; lia.
      * intros p0 Hp. unfold proposed in Hp. rewrite Hp in HW. minv HW. split_and!; [|done| |done].
        -- unfold is_complete in *. by destruct (p_status p0).
        -- rewrite <- memN_iff. congruence.
    + unfold deposit in H. minv H. split_and!; [unfold known_chain; eauto|by eapply fee_affords|].
      pose proof (fee_left _ _ _ _ Hb Hfc T) as (L1&L2&L3). st_cbn_in T0. destruct (withdraw_b w amount false b) as [b1|] eqn:Ew; [|done].
      pose proof (proj1 (wburn_rule w amount b L3) (ex_intro _ _ Ew)) as Hx. rewrite L2 in Hx. clear -Hx L1. lia.
  - intros H. destruct c; try done; cbn [bridge_rule] in H; cbn [exec_call signed].
    + destruct H as (Hr%memN_iff&[n Hn]&Hl&Hp). unfold vote_for_proposal. okgo. okstep; [by rewrite Hn|].
      destruct (votes (s_brg s) !! _) as [p0|] eqn:Ep.
      * destruct (Hp _ Ep) as (Hst&He&Hv&Hlt). okgo. okstep; [unfold is_complete; by rewrite Hst|]. okgo.
        okstep. { rewrite negb_true_iff. apply not_true_is_false. by rewrite memN_iff. } okgo.
        destruct (is_complete _); okgo.
      * okgo. destruct (is_complete _); okgo.
    + destruct H as ([n Hn]&Hf&Hm). destruct (affords_fee s _ _ Hed Hb Hf) as [b Hfee]. pose proof (fee_left _ _ _ _ Hb Hfc Hfee) as (L1&L2&L3).
      assert (wadd (bridge_fee (s_brg s)) amount <= free (s_bal s) w).
      { unfold wadd. etrans; [apply N.mod_le; done|]. unfold affords in Hf. clear -Hf Hm. lia. }
      assert (exists b1, withdraw_b w amount false b = Ok b1) as [b1 Hb1].
      { apply wburn_rule; [done|]. rewrite L2. clear -Hm L1. lia. }
      unfold deposit. okgo. okstep; [by rewrite Hn|]. okgo. okstep; [st_cbn; by rewrite Hb1|]. okgo.
Qed.

Lemma fact_external_rule s o c : wf_call c = true -> external_call c ->
  (exists s', dispatch o c s = (Ok tt, s')) <-> external_ok o = true /\ external_rule s c.
Proof.
  intros Hw Hc. apply rule_intro; [done| |].
  - intros s' H. destruct c; try done; cbn [exec_call] in H; unfold external in H; (destruct (external_ok o); [|done]); (split; [done|]); cbn [external_rule]; try done.
    + unfold set_threshold in H. minv H. done.
    + unfold add_chain in H. minv H. split; [done|]. unfold known_chain. rewrite O. by intros [? ?].
    + unfold set_deposit_nonce in H. minv H. eauto.
  - intros [Ho H]. destruct c; try done; cbn [external_rule] in H; cbn [exec_call]; unfold external; rewrite Ho.
    + unfold set_threshold. okgo.
    + destruct H as [? ?%none_iff]. unfold add_chain. okgo.
    + unfold set_relayers. okgo.
    + destruct H as (m&?&?). unfold set_deposit_nonce. okgo.
    + unfold set_bridge_fee. okgo.
    + unfold set_session_extra_reward_payout. okgo.
    + unfold succeeds, bind, catch. destruct (transactional (exec_call Root c) s) as [[?|?] ?]; eauto.
Qed.

Lemma server_pos a (l : list (N * cluster_type)) : a ∈ l.*1 -> is_Some (position (fun x => fst x =? a) l).
Proof.
  intros Hin. apply elem_of_list_fmap in Hin as ([y ty]&->&Hin). destruct (position _ l) eqn:E; [eauto|].
  pose proof (position_None _ _ _ E Hin) as E2. cbn in E2. by rewrite N.eqb_refl in E2.
Qed.

(** A change of the tee pallet that keeps the ledgers, with the new state made abstract. *)
Lemma ok_tee f (k : unit -> M unit) s : (forall t, ledgers (f t) = ledgers t) ->
  (forall s1, ledgers (s_tee s1) = ledgers (s_tee s) -> s_era s1 = s_era s -> succeeds (k tt) s1) -> succeeds (bind (mod_tee f) k) s.
Proof. intros Hf Hk. apply ok_modify, Hk; [apply Hf|done]. Qed.
Lemma assign_rule s op k sl : teeok (s_tee s) -> root_rule s (C_assign_enclave op k sl) -> succeeds (assign_enclave op k sl) s.
Proof.
  intros Ht (r&l&Hr&Hl&Hlt&Hfa%none_true&[e He]). unfold cluster_ops in Hl. apply fmap_Some in Hl as (cl&Hcl&->).
  unfold nlen in Hlt. rewrite map_length in Hlt. fold (nlen (cl_enclaves cl)) in Hlt. destruct (k_regs _ Ht _ _ Hr) as [Hn%none_true _].
  unfold assign_enclave. oktee. do 3 (oktee; apply ok_tee; [done|intros ? ? ?]). okstep. eapply (ok_unwrap _ e); [congruence|]. okgo.
Qed.
Lemma force_remove_rule s op : teeok (s_tee s) -> root_rule s (C_force_remove_enclave op) -> succeeds (force_remove_enclave op) s.
Proof.
  intros Ht [[e He]%assigned_iff [n Hn]]. destruct (k_addr _ Ht _ _ He) as [Ha _]. unfold staked in Hn. apply fmap_Some in Hn as (l&Hl&->).
  destruct (proj1 (k_cluster _ Ht op) (ex_intro _ _ He)) as [k Hk]. destruct (proj1 (k_in _ Ht op k) Hk) as (cl&Hcl&_).
  unfold force_remove_enclave, detach_enclave. oktee. okstep; [by rewrite Ha|]. oktee.
  do 7 (oktee; apply ok_tee; [done|intros ? ? ?]). okstep. eapply (ok_unwrap _ l); [congruence|]. okgo.
Qed.
Lemma force_update_rule s op addr uri : root_rule s (C_force_update_enclave op addr uri) -> succeeds (force_update_enclave op addr uri) s.
Proof.
  intros ([e He]%assigned_iff&Hor&Hu&Ha). unfold force_update_enclave. okto. okstep; [destruct addr, uri; try done; by destruct Hor|]. okto.
  destruct addr as [a|].
  - destruct (Ha _ eq_refl) as [Hne Hoa]. apply ok_on_some. okto. destruct (e_addr e =? a) eqn:Ea; cbn [negb].
    + okto. apply ok_on_some. destruct uri as [u|]; [|okgo]. okto. okstep; [apply uri_iff; by intros ->|]. okgo.
    + apply N.eqb_neq in Ea. destruct Hoa as [(e'&He'&?)|Hoa%none_true]; [congruence|].
      okto. apply ok_on_some. destruct uri as [u|]; [|okgo]. okto. okstep; [apply uri_iff; by intros ->|]. okgo.
  - apply ok_on_some. okto. apply ok_on_some. destruct uri as [u|]; [|okgo]. okto. okstep; [apply uri_iff; by intros ->|]. okgo.
Qed.

Lemma fact_root_rule s o c : reachable s -> wf_call c = true -> root_call c ->
  (exists s', dispatch o c s = (Ok tt, s')) <-> o = Root /\ root_rule s c.
Proof.
  intros Hs Hw Hc. pose proof (reachable_teeok s Hs) as Ht. apply rule_intro; [done| |].
  - intros s' H. assert (Ho : o = Root). { destruct o; [done|..]; destruct c; try (destruct Hc; fail); cbn [exec_call root] in H; discriminate H. }
    subst o. split; [done|]. destruct c; try (destruct Hc; fail); cbn [exec_call root] in H; cbn [root_rule]; try exact I.
    + unfold assign_enclave in H. minv H. eexists _, _. split_and!; [eassumption|unfold cluster_ops; by rewrite U0|unfold nlen; by rewrite map_length|done|by eexists].
    + unfold remove_registration in H. minv H. by eexists.
    + unfold reject_update in H. minv H. by eexists.
    + unfold approve_enclave_unregistration in H. minv H. by apply memN_iff.
    + unfold force_remove_enclave, detach_enclave in H. minv H. split; [apply assigned_iff; eauto|]. unfold staked. st_cbn_in U2. rewrite U2. by eexists.
    + unfold approve_update_enclave in H. do 5 mstep H. exists x. split_and!; [done|by intros E'; rewrite E' in *|done|]. apply bind_ok in H as (?&?&HW&_).
      destruct (e_addr x0 =? e_addr x) eqn:E'; [apply N.eqb_eq in E'; left; by exists x0|]. cbn in HW. minv HW. by right.
    + unfold force_update_enclave in H. do 3 mstep H. apply bind_ok in H as ([]&s1&HA&H). apply bind_ok in H as ([]&s2&HU&_).
      split_and!; [apply assigned_iff; eauto|by destruct addr, uri; auto|..].
      * intros ->. cbn in HU. minv HU. done.
      * intros y ->. cbn [on_some] in HA. mstep HA. split; [done|]. destruct (e_addr x =? y) eqn:E'; [apply N.eqb_eq in E'; left; by exists x|].
        cbn in HA. minv HA. by right.
    + unfold create_cluster in H. minv H. lia.
    + unfold update_cluster in H. minv H. by eexists.
    + unfold remove_cluster in H. minv H. unfold cluster_ops. rewrite U. cbn. by destruct (cl_enclaves x).
    + unfold register_metrics_server in H. minv H. split; [|done].
      intros Hin. apply elem_of_list_fmap in Hin as ([y ty]&->&Hin). cbn in *.
      match goal with H : existsb _ _ = false |- _ => rewrite <- not_true_iff_false, existsb_exists in H; apply H end.
      exists (y, ty). split; [by apply elem_of_list_In|by apply N.eqb_eq].
    + unfold unregister_metrics_server in H. minv H. destruct (position_lookup _ _ _ U) as (y&Hy&Ey). apply N.eqb_eq in Ey. rewrite <- Ey. by eapply elem_of_list_fmap_1, elem_of_list_lookup_2.
    + unfold force_update_metrics_server_type in H. minv H. destruct (position_lookup _ _ _ U) as (y&Hy&Ey). apply N.eqb_eq in Ey. rewrite <- Ey. by eapply elem_of_list_fmap_1, elem_of_list_lookup_2.
    + unfold update_operator_assigned_era in H. minv H. apply assigned_iff, (k_era _ Ht). eauto.
  - intros [-> H]. destruct c; try (destruct Hc; fail); cbn [root_rule] in H; cbn [exec_call root].
    + unfold set_nft_mint_fee. okgo.
    + unfold set_secret_nft_mint_fee. okgo.
    + unfold set_capsule_mint_fee. okgo.
    + unfold set_marketplace_mint_fee. okgo.
    + unfold set_protocol_fee. okgo.
    + by apply assign_rule.
    + destruct H as [r Hr]. unfold remove_registration. okgo.
    + destruct H as [r Hr]. unfold reject_update. okgo.
    + pose proof (k_unreg_enc _ Ht _ H) as [e He]. destruct (k_addr _ Ht _ _ He) as [Ha _].
      destruct (proj1 (k_cluster _ Ht op) (ex_intro _ _ He)) as [k Hk]. destruct (proj1 (k_in _ Ht op k) Hk) as (cl&Hcl&_).
      apply memN_iff in H. unfold approve_enclave_unregistration, detach_enclave. okgo. okstep; [by rewrite Ha|]. okgo.
    + by apply force_remove_rule.
    + destruct H as (u&Hu&Huri%uri_iff&Hne&Hor). destruct (k_upd _ Ht _ (ex_intro _ _ Hu)) as [e He].
      unfold approve_update_enclave. okgo. destruct (e_addr e =? e_addr u) eqn:Ea; cbn [negb]; [okgo|]. apply N.eqb_neq in Ea.
      destruct Hor as [(e'&He'&?)|Hor%none_true]; [congruence|]. okgo.
    + by apply force_update_rule.
    + unfold create_cluster. okgo.
    + destruct H as [cl Hcl]. unfold update_cluster. okgo.
    + unfold cluster_ops in H. apply fmap_Some in H as (cl&Hcl&Hnil). symmetry in Hnil. apply map_eq_nil in Hnil. unfold remove_cluster. okgo.
      okstep; [by rewrite Hnil|]. okgo.
    + destruct H as [Ha Hl]. unfold register_metrics_server. okgo. okstep; [|okgo]. rewrite negb_true_iff. apply not_true_is_false. rewrite existsb_exists.
      intros ([y ty]&Hin&Hy). cbn in Hy. apply N.eqb_eq in Hy as ->. apply Ha. apply elem_of_list_In in Hin. by apply (elem_of_list_fmap_1 fst) in Hin.
    + apply server_pos in H as [p Hp]. unfold unregister_metrics_server. okgo.
    + apply server_pos in H as [p Hp]. unfold force_update_metrics_server_type. okgo.
    + unfold set_report_params_weightage. okgo.
    + unfold set_staking_amount. okgo.
    + unfold set_daily_reward_pool. okgo.
    + apply assigned_iff, (k_era _ Ht) in H as [e He]. unfold update_operator_assigned_era. okgo.
Qed.
End rules.
