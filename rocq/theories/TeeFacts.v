(** The TEE properties. *)
From Verif Require Export TeeInv2.
Local Open Scope N_scope.

(** The effects of a successful call of the TEE pallet, case by case: [He : exec_call o c s = (Ok tt, s1)]
    becomes an equation for [s1] in every case. *)
Ltac tee_cases He Hpal :=
  lazymatch type of He with exec_call ?o ?c ?s = (_, ?s1) =>
  destruct c; try discriminate Hpal; clear Hpal; cbn [exec_call] in He; unfold signed, root, external in He;
    try (destruct o as [|who|]; try done; []);
  [ unfold register_enclave in He; minv He; subst s1
  | unfold unregister_enclave in He; do 2 mstep He; let E := fresh "Een" in destruct (encs _ !! _) eqn:E; minv He; subst s1
  | unfold update_enclave in He; minv He; subst s1
  | unfold cancel_update in He; minv He; subst s1
  | unfold assign_enclave in He; minv He; subst s1
  | unfold remove_registration in He; minv He; subst s1
  | unfold reject_update in He; minv He; subst s1
  | unfold approve_enclave_unregistration, detach_enclave in He; minv He; subst s1
  | unfold force_remove_enclave, detach_enclave in He; minv He; subst s1
  | unfold approve_update_enclave in He; do 5 mstep He; let s0 := fresh "s0" in let HW := fresh "HW" in let Hb := fresh "Hb" in
    apply bind_ok in He as ([]&s0&HW&He); minv He; subst s1;
    apply when_ok in HW as [[Hb HW]|[Hb <-]]; [minv HW; subst s0|]
  | unfold force_update_enclave in He; do 3 mstep He; let s0 := fresh "s0" in let s2 := fresh "s2" in let HW := fresh "HW" in let HW1 := fresh "HW1" in let Hb := fresh "Hb" in
    apply bind_ok in He as ([]&s0&HW&He); apply bind_ok in He as ([]&s2&HW1&He);
    assert (s2 = s0) as -> by (apply on_some_ok in HW1 as [(?&_&HW1)|[_ ->]]; [by minv HW1|done]); clear HW1; minv He; subst s1;
    apply on_some_ok in HW as [(?&->&HW)|[-> <-]]; cbn [default]; [mstep HW; apply when_ok in HW as [[Hb HW]|[Hb <-]]; [minv HW; subst s0|]|]
  | unfold create_cluster in He; minv He; subst s1
  | unfold update_cluster in He; minv He; subst s1
  | unfold remove_cluster in He; minv He; subst s1
  | unfold withdraw_unbonded in He; minv He; subst s1
  | unfold register_metrics_server in He; minv He; subst s1
  | unfold unregister_metrics_server in He; minv He; subst s1
  | unfold force_update_metrics_server_type in He; minv He; subst s1
  | unfold submit_metrics_server_report in He; minv He; subst s1
  | unfold set_report_params_weightage in He; minv He; subst s1
  | unfold set_staking_amount in He; minv He; subst s1
  | unfold set_daily_reward_pool in He; minv He; subst s1
  | unfold claim_rewards in He; minv He; subst s1
  | unfold update_operator_assigned_era in He; minv He; subst s1
  | unfold bond_extra in He; minv He; subst s1
  | unfold refund_excess in He; minv He; subst s1 ]
  end.

Section facts.
Context {C : Config}.

(** *** C51 *)
Lemma assigned_iff s op : assigned s op <-> is_Some (encs (s_tee s) !! op).
Proof. split; [intros (?&e&He&_); eauto|intros [e He]; by exists (e_addr e), e]. Qed.
Lemma ops_iff s c op : (exists l, cluster_ops s c = Some l /\ op ∈ l) <-> exists cl, clusters (s_tee s) !! c = Some cl /\ op ∈ (cl_enclaves cl).*1.
Proof.
  unfold cluster_ops. split.
  - intros (l&Hl&Hin). destruct (clusters (s_tee s) !! c) as [cl|]; [|done]. injection Hl as <-. eauto.
  - intros (cl&Hl&Hin). rewrite Hl. eauto.
Qed.
Lemma fact_one_cluster s op : reachable s ->
  (assigned s op <-> is_Some (cluster_of s op)) /\
  (forall c, cluster_of s op = Some c <-> exists l, cluster_ops s c = Some l /\ op ∈ l) /\
  (assigned s op <-> exists! c, exists l, cluster_ops s c = Some l /\ op ∈ l).
Proof.
  intros Hs. pose proof (reachable_teeok s Hs) as HK. rewrite assigned_iff. split; [apply (k_cluster _ HK)|].
  assert (H : forall c, cluster_of s op = Some c <-> exists l, cluster_ops s c = Some l /\ op ∈ l) by (intros c; rewrite ops_iff; apply (k_in _ HK)).
  split; [exact H|]. rewrite (k_cluster _ HK). split.
  - intros [c Hc]. exists c. split; [by apply H|]. intros c' Hc'. apply H in Hc'. unfold cluster_of in Hc'. congruence.
  - intros (c&Hc&_). apply H in Hc. by exists c.
Qed.
Lemma fact_cluster_shape s c l : reachable s -> cluster_ops s c = Some l -> NoDup l /\ nlen l <= cluster_size.
Proof.
  intros Hs Hl. pose proof (reachable_teeok s Hs) as HK. unfold cluster_ops in Hl. destruct (clusters (s_tee s) !! c) as [cl|] eqn:E; [|done]. injection Hl as <-.
  destruct (k_list _ HK c cl E) as (H1&H2&_). split; [done|]. unfold nlen in *. by rewrite map_length.
Qed.

(** *** C52 *)
Lemma fact_current_accepted s op addr : reachable s -> enclave_at s op addr -> accepted s addr op.
Proof.
  intros Hs (e&He&<-). pose proof (reachable_teeok s Hs) as HK. split; [by apply (k_addr _ HK)|]. apply (k_cluster _ HK). eauto.
Qed.
Lemma fact_accepted_assigned s op addr : reachable s -> accepted s addr op -> assigned s op.
Proof. intros Hs (_&Hc). apply assigned_iff. by apply (k_cluster _ (reachable_teeok s Hs)). Qed.
Lemma addr_step s a x op : reachable s -> addr_op (s_tee (step s a)) !! x = Some op -> addr_op (s_tee s) !! x = Some op \/ enclave_at (step s a) op x.
Proof.
  intros Hs H. destruct (tee_steps s a) as [o c s1 Hr Hpal Hm He Et _ _|Et _|_ (m1&m2&Et&_) _]; [|rewrite Et in H; by left..].
  unfold enclave_at. rewrite Et in *. clear Et Hr Hm. tee_cases He Hpal; st_cbn; st_cbn_in H; try (by left).
  - apply lookup_insert_Some in H as [[<- <-]|[_ H]]; [|by left]. right. eexists. by rewrite lookup_insert.
  - left. by apply lookup_delete_Some in H as [_ ?].
  - left. by apply lookup_delete_Some in H as [_ ?].
  - apply lookup_insert_Some in H as [[<- <-]|[_ H]]; [|by left]. right. eexists. by rewrite lookup_insert.
  - apply lookup_insert_Some in H as [[<- <-]|[_ H]]; [|left; by apply lookup_delete_Some in H as [_ ?]]. right. eexists. by rewrite lookup_insert.
Qed.
Lemma genesis_tee s : genesis s -> s_tee s = mkTeeSt ∅ [] ∅ ∅ ∅ ∅ 0 ∅ [] init_staking_amount ∅ ∅ (mkWeightage 0 0 0 0 0) init_reward_pool ∅ ∅.
Proof. by intros (now&era&bal&lk&->&_). Qed.
Lemma acts_snoc (acts : list action) a : Forall action_ok (acts ++ [a]) -> Forall action_ok acts /\ action_ok a.
Proof. intros [H1 H2]%Forall_app. split; [done|]. by inversion H2. Qed.
Lemma fact_accepted_was_current s0 acts addr op : genesis s0 -> Forall action_ok acts -> accepted (after s0 acts) addr op ->
  exists acts1 acts2, acts = acts1 ++ acts2 /\ enclave_at (after s0 acts1) op addr.
Proof.
  intros H0 Hacts [Ha _]. revert Ha. induction acts as [|a acts IH] using rev_ind; intros Ha.
  - unfold after in Ha. cbn in Ha. rewrite (genesis_tee _ H0) in Ha. cbn in Ha. by rewrite lookup_empty in Ha.
  - apply acts_snoc in Hacts as [H1 H2]. rewrite after_snoc in Ha. apply addr_step in Ha as [Ha|Ha].
    + destruct (IH H1 Ha) as (acts1&acts2&->&He). exists acts1, (acts2 ++ [a]). by rewrite app_assoc.
    + exists (acts ++ [a]), []. rewrite app_nil_r, after_snoc. done.
    + apply after_reachable; [by apply reach_init|done].
Qed.
Definition exact_addr (s : state) : Prop := forall x op, addr_op (s_tee s) !! x = Some op -> enclave_at s op x.
Lemma exact_step s a : reachable s -> exact_addr s ->
  (forall op u e, runs a Root (C_approve_update_enclave op) -> updates (s_tee s) !! op = Some u -> encs (s_tee s) !! op = Some e -> e_addr u = e_addr e) ->
  exact_addr (step s a).
Proof.
  intros Hs HE Hu. pose proof (reachable_teeok s Hs) as HK. unfold exact_addr, enclave_at in *.
  destruct (tee_steps s a) as [o c s1 Hr Hpal Hm He Et _ _|Et _|_ (m1&m2&Et&_) _]; rewrite Et; [|exact HE..]. clear Et Hm.
  tee_cases He Hpal; st_cbn; try exact HE; intros y op' Hy.
  - apply lookup_insert_Some in Hy as [[<- <-]|[Hne Hy]]; [eexists; by rewrite lookup_insert|].
    destruct (HE y op' Hy) as (e&He&<-). exists e. split; [|done]. rewrite lookup_insert_ne; [done|]. intros <-. congruence.
  - apply lookup_delete_Some in Hy as [Hne Hy]. destruct (HE y op' Hy) as (e&He&<-). exists e. split; [|done]. rewrite lookup_delete_ne; [done|]. intros <-. congruence.
  - apply lookup_delete_Some in Hy as [Hne Hy]. destruct (HE y op' Hy) as (e&He&<-). exists e. split; [|done]. rewrite lookup_delete_ne; [done|]. intros <-. congruence.
  - exfalso. bool_in Hb. apply Hb. symmetry. by eapply Hu.
  - destruct (HE y op' Hy) as (e&He&<-). apply negb_false_iff, N.eqb_eq in Hb. destruct (decide (op = op')) as [<-|Hne]; [|rewrite lookup_insert_ne by done; eauto].
    rewrite lookup_insert. eexists. split; [done|]. cbn. congruence.
  - apply lookup_insert_Some in Hy as [[<- <-]|[Hne Hy]]; [eexists; by rewrite lookup_insert|]. apply lookup_delete_Some in Hy as [Hne2 Hy].
    destruct (HE y op' Hy) as (e&He&<-). exists e. split; [|done]. rewrite lookup_insert_ne; [done|]. intros <-. congruence.
  - destruct (HE y op' Hy) as (e&He&<-). apply negb_false_iff, N.eqb_eq in Hb. destruct (decide (op = op')) as [<-|Hne]; [|rewrite lookup_insert_ne by done; eauto].
    rewrite lookup_insert. eexists. split; [done|]. cbn. congruence.
  - destruct (HE y op' Hy) as (e&He&<-). destruct (decide (op = op')) as [<-|Hne]; [|rewrite lookup_insert_ne by done; eauto].
    rewrite lookup_insert. eexists. split; [done|]. cbn. congruence.
Qed.
Lemma fact_exact_without_updates s0 acts addr op : genesis s0 -> Forall action_ok acts ->
  (forall acts1 a acts2 o u e, acts = acts1 ++ a :: acts2 -> runs a Root (C_approve_update_enclave o) ->
     updates (s_tee (after s0 acts1)) !! o = Some u -> encs (s_tee (after s0 acts1)) !! o = Some e -> e_addr u = e_addr e) ->
  accepted (after s0 acts) addr op <-> enclave_at (after s0 acts) op addr.
Proof.
  intros H0 Hacts Hno. split; [|intros He; apply fact_current_accepted; [apply after_reachable; [by apply reach_init|done]|done]].
  intros [Ha _]. assert (HE : exact_addr (after s0 acts)); [|by apply HE]. clear Ha. induction acts as [|a acts IH] using rev_ind.
  - intros x o Hx. unfold after in Hx. cbn in Hx. rewrite (genesis_tee _ H0) in Hx. cbn in Hx. by rewrite lookup_empty in Hx.
  - apply acts_snoc in Hacts as [H1 H2]. rewrite after_snoc. apply exact_step; [apply after_reachable; [by apply reach_init|done]| |].
    + apply IH; [done|]. intros acts1 b acts2 o u e ->. apply (Hno acts1 b (acts2 ++ [a])). by rewrite <- app_assoc.
    + intros o u e. by apply (Hno acts a []).
Qed.

(** *** C53 *)
Lemma fact_lock_of_stake s op : reachable s ->
  (staked s op = None -> locked s op = None) /\ (forall n, staked s op = Some n -> n <> 0 -> locked s op = Some n).
Proof.
  intros Hs. pose proof (sreach_locks s (reachable_sreach s Hs) op) as H. unfold lock_ok, staked, locked in *.
  destruct (ledgers (s_tee s) !! op) as [l|]; cbn; [|done]. split; [done|]. intros n [= <-] Hn. apply N.eqb_neq in Hn. by rewrite Hn in H.
Qed.
Lemma fact_lock_equals_stake s op : zero_lock_clears = true -> reachable s ->
  default 0 (staked s op) = default 0 (locked s op) /\ (is_Some (locked s op) -> is_Some (staked s op)).
Proof.
  intros Hz Hs. pose proof (sreach_locks s (reachable_sreach s Hs) op) as H. unfold lock_ok, staked, locked in *.
  destruct (ledgers (s_tee s) !! op) as [l|]; cbn; [|rewrite H; split; [done|by intros []]]. split; [|eauto].
  destruct (l_staked l =? 0) eqn:E; [|by rewrite H]. apply N.eqb_eq in E. by rewrite E, H.
Qed.

(** *** C54 *)
Lemma fact_assigned_bonded s op : reachable s -> assigned s op -> ~ leaving s op -> bonded s op.
Proof. intros Hs Ha%assigned_iff Hl. by apply (k_stake _ (reachable_teeok s Hs)). Qed.

(** *** C55 *)
End facts.
