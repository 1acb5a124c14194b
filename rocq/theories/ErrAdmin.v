(** Why calls of pallet bridge and administrative calls are refused. *)
From Verif Require Export ErrTee RuleAdmin.
Local Open Scope N_scope.

Section errs.
Context {C : Config}.
Implicit Types (s : state).

Lemma burn_err w x b e : bsum b 0 -> withdraw_b w x false b = Err e ->
  poor_err e /\ x <> 0 /\ (free b w < x \/ (frozen b w <> 0 /\ free b w < x + N.max ed (frozen b w))).
Proof.
  intros Hb. unfold withdraw_b, poor_err. destruct (x =? 0) eqn:E0; [done|]. apply N.eqb_neq in E0. cbv zeta. cbn [andb].
  pose proof (has_lock_max b w) as Hl.
  destruct (free b w <? x) eqn:F1; [intros [= <-]; apply N.ltb_lt in F1; auto|]. apply N.ltb_ge in F1.
  destruct (free b w - x <? frozen b w) eqn:F2; [intros [= <-]; apply N.ltb_lt in F2; split_and!; [auto|done|right; lia]|].
  destruct (has_lock b w) eqn:F3; cbn [andb]; [|done]. destruct Hl as [Hl _]. specialize (Hl eq_refl).
  destruct (free b w - x <? ed) eqn:F4; [intros [= <-]; apply N.ltb_lt in F4; split_and!; [auto|done|right; lia]|done].
Qed.

Lemma fact_bridge_err s w c e s' : 0 < ed -> reachable s -> fees_collector <> Some w -> wf_call c = true -> is_bridge_call c ->
  dispatch (Signed w) c s = (Err e, s') -> justified e (bridge_table s w c).
Proof.
  intros Hed Hs Hfc Hw Hc H. pose proof (reachable_binv s Hs) as Hb. apply err_dispatch in H as [_ [s1 H]]; [|done].
  destruct c; try done; cbn [exec_call signed root] in H; cbn [bridge_table].
  - unfold vote_for_proposal in H. do 2 estep H. estep H; [because; rewrite <- memN_iff; congruence|].
    apply err_ensure in H as [[D ->]|[D H]].
    { because. unfold known_chain. intros [? E']. by rewrite E' in D. }
    cbv zeta in H. apply err_bind in H as [H|(p&s2&H2&H)].
    + destruct (votes (s_brg s) !! _) as [p0|] eqn:Ep in H.
      * apply err_ensure in H as [[D1 ->]|[D1 H]].
        { because. exists p0. split; [done|]. unfold is_complete in D1. by destruct (p_status p0). }
        estep H; [because; exists p0; split; [done|lia]|]. estep H; [because; exists p0; split; [done|]; apply memN_iff; by destruct (memN w _)|].
        estep H; [because; right; by exists p0|]. einv H.
      * estep H; [because; left; lia|]. einv H.
    + do 2 estep H. destruct (is_complete p); cbn [when] in H; einv H.
  - unfold deposit, free_balance in H. estep H. cbv zeta in H. apply err_ensure in H as [[D ->]|[D H]].
    { because. unfold known_chain. intros [? E']. by rewrite E' in D. }
    estep H. estep H.
    { because. unfold wadd in E. eapply N.lt_le_trans; [exact E|]. by apply N.mod_le. }
    estep H.
    { apply fee_poor in T as [? ?]; [|done|done]. apply justified_app_r, poor_intro; [done|]. by left. }
    estep H; [|einv H]. st_cbn_in T0. destruct (withdraw_b w amount false b) as [b1|e1] eqn:Ew; [done|]. injection T0 as ->.
    pose proof (fee_left _ _ _ _ Hb Hfc T) as (L1&L2&L3). apply burn_err in Ew as (He&Hx&Hor); [|done]. rewrite L2 in Hor.
    apply justified_app_r, poor_intro; [done|]. right. split; [done|]. clear -Hor L1. lia.
Qed.

Lemma fact_bridge_refused s w c e : 0 < ed -> reachable s -> fees_collector <> Some w -> wf_call c = true -> is_bridge_call c ->
  justified e (bridge_table s w c) -> exists e', dispatch (Signed w) c s = (Err e', s).
Proof.
  intros Hed Hs Hfc Hw Hc H. destruct (dispatch_cases (Signed w) c s) as [(s'&_&_&Hd)|[e' Hd]]; [|by exists e'].
  exfalso. assert (bridge_rule s w c) as Hr by (apply fact_bridge_rule; eauto). clear Hd.
  destruct c; try done; cbn [bridge_table bridge_rule] in H, Hr.
  - destruct Hr as (Hr&Hk&Hl&Hp). destruct H as (P&H&HP). each_line H; try done.
    + destruct HP as (p&Hp'&HP). destruct (Hp p Hp') as (?&?&?&?). congruence.
    + destruct HP as (p&Hp'&HP). destruct (Hp p Hp') as (?&?&?&?). lia.
    + destruct HP as (p&Hp'&HP). destruct (Hp p Hp') as (?&?&?&?). done.
    + destruct HP as [HP|(p&Hp'&HP)]; [lia|]. destruct (Hp p Hp') as (?&?&?&?). lia.
  - destruct Hr as (Hk&Ha&Hm). cbv zeta in H. apply justified_app in H as [H|H].
    + destruct H as (P&H&HP). each_line H; [done|]. unfold affords in Ha. clear -HP Ha Hm. lia.
    + apply poor_spec in H. destruct H as [H|[H1 H2]]; [done|]. clear -H1 H2 Hm. lia.
Qed.

Lemma fact_external_err s o c e s' : wf_call c = true -> external_call c ->
  dispatch o c s = (Err e, s') -> (external_ok o = false /\ e = BadOrigin) \/ (external_ok o = true /\ justified e (external_table s c)).
Proof.
  intros Hw Hc H. apply err_dispatch in H as [_ [s1 H]]; [|done].
  destruct c; try done; cbn [exec_call] in H; unfold external in H; (destruct (external_ok o); [right|left; injection H as <- <-; done]);
    (split; [done|]); cbn [external_table].
  - unfold set_threshold in H. einv H. because. lia.
  - unfold add_chain in H. estep H. estep H; [because; done|]. estep H; [because; unfold known_chain; eauto|]. einv H.
  - unfold set_relayers in H. einv H.
  - unfold set_deposit_nonce in H. estep H. estep H; [because; unfold known_chain; intros [? ?]; congruence|]. estep H; [because; eauto|]. einv H.
  - unfold set_bridge_fee in H. einv H.
  - unfold set_session_extra_reward_payout in H. einv H.
  - exfalso. unfold bind, catch in H. by destruct (transactional (exec_call Root c) s) as [[?|?] ?].
Qed.
Lemma fact_external_refused s o c e : wf_call c = true -> external_call c ->
  external_ok o = false \/ justified e (external_table s c) -> exists e', dispatch o c s = (Err e', s).
Proof.
  intros Hw Hc H. destruct (dispatch_cases o c s) as [(s'&_&_&Hd)|[e' Hd]]; [|by exists e'].
  exfalso. assert (external_ok o = true /\ external_rule s c) as [Ho Hr] by (apply fact_external_rule; eauto). clear Hd.
  destruct H as [H|H]; [congruence|]. destruct c; try done; cbn [external_table external_rule] in H, Hr; destruct H as (P&H&HP); each_line H.
  - lia.
  - by destruct Hr.
  - by destruct Hr.
  - destruct Hr as (m&Hm&_). apply HP. unfold known_chain. eauto.
  - destruct Hr as (m&Hm&?), HP as (m'&Hm'&?). assert (m' = m) as -> by congruence. lia.
Qed.

Lemma ops_none s k : clusters (s_tee s) !! k = None -> ~ exists_cluster s k.
Proof. intros E [? ?]. congruence. Qed.
Lemma address_no s a : none (addr_op (s_tee s) !! a) = false -> ~ free_address s a.
Proof. unfold free_address. intros D E. by rewrite E in D. Qed.

(** Taking an enclave away fails only if there is none. *)
Lemma err_detach op s (k : unit -> M unit) e s' : teeok (s_tee s) -> bind (detach_enclave op) k s = (Err e, s') ->
  (e = Tee_err E_EnclaveNotFound /\ ~ assigned s op) \/
  exists s2, ledgers (s_tee s2) = ledgers (s_tee s) /\ k tt s2 = (Err e, s').
Proof.
  intros Ht H. unfold detach_enclave in H. apply err_assoc in H. estep H. apply err_assoc in H.
  apply err_unwrap in H as [[U ->]|(x&U&H)]; [left; split; [done|by apply unassigned]|]. cbv beta in H. apply err_assoc in H.
  destruct (k_addr _ Ht _ _ U) as [Ha _]. apply err_ensure in H as [[D _]|[_ H]]; [by rewrite Ha in D|]. cbv beta in H. apply err_assoc in H.
  destruct (proj1 (k_cluster _ Ht op) (ex_intro _ _ U)) as [c Hc]. destruct (proj1 (k_in _ Ht op c) Hc) as (cl&Hcl&_).
  apply err_unwrap in H as [[U1 _]|(x1&U1&H)]; [congruence|]. cbv beta in H. apply err_assoc in H.
  apply err_unwrap in H as [[U2 _]|(x2&U2&H)]; [congruence|]. cbv beta in H.
  right. do 5 (apply err_assoc in H; apply err_bind in H as [H|([]&?&H2&H)]; [done|injection H2 as <-]).
  apply err_bind in H as [H|([]&?&H2&H)]; [done|injection H2 as <-]. eexists. split; [|exact H]. by st_cbn.
Qed.

Lemma fact_root_err s o c e s' : reachable s -> wf_call c = true -> root_call c ->
  dispatch o c s = (Err e, s') -> (o <> Root /\ e = BadOrigin) \/ (o = Root /\ justified e (root_table s c)).
Proof.
  intros Hs Hw Hc H. pose proof (reachable_teeok s Hs) as Ht. apply err_dispatch in H as [_ [s1 H]]; [|done].
  assert (o = Root \/ o <> Root) as [->|Ho] by (destruct o; auto).
  2: { left. split; [done|]. destruct o; [done|..]; destruct c; try (destruct Hc; fail); cbn [exec_call root] in H; by injection H as <- <-. }
  right. split; [done|]. destruct c; try (destruct Hc; fail); cbn [exec_call root] in H; cbn [root_table].
  - unfold set_nft_mint_fee in H. einv H.
  - unfold set_secret_nft_mint_fee in H. einv H.
  - unfold set_capsule_mint_fee in H. einv H.
  - unfold set_marketplace_mint_fee in H. einv H.
  - unfold set_protocol_fee in H. einv H.
  - unfold assign_enclave in H. estep H. estep H; [because; unfold waiting; intros [? ?]; congruence|]. estep H; [because; by apply ops_none|].
    estep H; [because; exists (map fst (cl_enclaves x0)); split; [unfold cluster_ops; by rewrite U0|unfold nlen; by rewrite map_length]|].
    apply err_ensure in H as [[D ->]|[D H]]; [because; exists x; split; [done|by apply address_no]|].
    destruct (k_regs _ Ht _ _ U) as [Hn _]. apply err_ensure in H as [[D2 _]|[_ H]]; [by rewrite Hn in D2|].
    do 3 estep H. estep H. apply err_unwrap in H as [[U1 ->]|(x1&U1&H)]; [because; exact U1|]. einv H.
  - unfold remove_registration in H. estep H. estep H; [because; unfold waiting; intros [? ?]; congruence|]. einv H.
  - unfold reject_update in H. estep H. estep H; [because; unfold updating; intros [? ?]; congruence|]. einv H.
  - unfold approve_enclave_unregistration in H. estep H. estep H; [because; unfold leaving; rewrite <- memN_iff; congruence|].
    apply memN_iff in E. pose proof (k_unreg_enc _ Ht _ E) as Hen%assigned_iff.
    apply err_detach in H as [[_ ?]|(s2&_&H)]; [done|einv H|done].
  - unfold force_remove_enclave in H. estep H. apply err_detach in H as [[-> ?]|(s2&Hl&H)]; [because; done| |done].
    do 2 estep H. apply err_unwrap in H as [[U ->]|(x&U&H)]; [|einv H]. st_cbn_in U. because. apply staked_none. congruence.
  - unfold approve_update_enclave in H. estep H. estep H; [because; unfold updating; intros [? ?]; congruence|].
    apply err_ensure in H as [[D ->]|[D H]]; [because; exists x; split; [done|by apply uri_no]|].
    estep H; [because; exists x; split; [done|congruence]|]. destruct (k_upd _ Ht _ (ex_intro _ _ U)) as [e0 He0].
    estep H; [congruence|]. destruct (e_addr x0 =? e_addr x) eqn:Ea; cbn [negb when] in H; [einv H|]. apply N.eqb_neq in Ea. apply err_assoc in H.
    apply err_ensure in H as [[D2 ->]|[D2 H]]; [|einv H]. because. exists x. split_and!; [done| |by apply address_no]. intros (e1&He1&?). congruence.
  - unfold force_update_enclave in H. apply err_ensure in H as [[D ->]|[D H]]; [because; by destruct addr, uri|].
    estep H. estep H; [because; by apply unassigned|].
    apply err_bind in H as [H|([]&s2&_&H)].
    { destruct addr as [a|]; [|done]. cbn [on_some] in H. estep H; [because; congruence|]. destruct (e_addr x =? a) eqn:Ea; cbn [negb when] in H; [einv H|].
      apply N.eqb_neq in Ea. apply err_ensure in H as [[D2 ->]|[D2 H]]; [|einv H]. because. exists a. split_and!; [done| |by apply address_no].
      intros (e1&He1&?). congruence. }
    apply err_bind in H as [H|([]&s3&_&H)]; [|einv H].
    destruct uri as [u|]; [|done]. cbn [on_some] in H. apply err_end in H. apply err_ensure in H as [[D2 ->]|[D2 H]]; [|done]. because. by rewrite (uri_no _ D2).
  - unfold create_cluster, get_tee in H. estep H. estep H; [because; lia|]. einv H.
  - unfold update_cluster in H. estep H. estep H; [because; by apply ops_none|]. einv H.
  - unfold remove_cluster in H. estep H. estep H; [because; by apply ops_none|]. estep H; [|einv H].
    because. unfold cluster_ops. rewrite U. cbn. destruct (cl_enclaves x) as [|y l]; [done|]. by eexists _, _.
  - unfold register_metrics_server, get_tee in H. estep H.
    apply err_ensure in H as [[D ->]|[D H]].
    { because. apply negb_false_iff, existsb_exists in D as ([y ty]&Hin&Hy). cbn in Hy. apply N.eqb_eq in Hy as ->.
      apply elem_of_list_In in Hin. by apply (elem_of_list_fmap_1 fst) in Hin. }
    estep H; [because; done|]. einv H.
  - unfold unregister_metrics_server, get_tee in H. estep H. estep H; [|einv H]. because. intros [p Hp]%server_pos. congruence.
  - unfold force_update_metrics_server_type, get_tee in H. estep H. estep H; [|einv H]. because. intros [p Hp]%server_pos. congruence.
  - unfold set_report_params_weightage in H. einv H.
  - unfold set_staking_amount in H. einv H.
  - unfold set_daily_reward_pool in H. einv H.
  - unfold update_operator_assigned_era in H. estep H. estep H; [|einv H]. because. intros [y Hy]%assigned_iff%(k_era _ Ht). congruence.
Qed.
Lemma fact_root_refused s o c e : reachable s -> wf_call c = true -> root_call c ->
  o <> Root \/ justified e (root_table s c) -> exists e', dispatch o c s = (Err e', s).
Proof.
  intros Hs Hw Hc H. destruct (dispatch_cases o c s) as [(s'&_&_&Hd)|[e' Hd]]; [|by exists e'].
  exfalso. assert (o = Root /\ root_rule s c) as [Ho Hr] by (apply fact_root_rule; eauto). clear Hd.
  destruct H as [H|H]; [congruence|]. destruct c; try (destruct Hc; fail); cbn [root_table root_rule] in H, Hr; destruct H as (P&H&HP); each_line H; try done.
  - destruct Hr as (r&l&Hr&_). apply HP. unfold waiting. eauto.
  - destruct Hr as (r&l&_&Hl&_). apply HP. unfold cluster_ops in Hl. apply fmap_Some in Hl as (cl&?&_). by eexists.
  - destruct Hr as (r&l&_&Hl&Hlt&_), HP as (l'&Hl'&HP). assert (l' = l) as -> by congruence. lia.
  - destruct Hr as (r&l&Hr&_&_&Hf&_), HP as (r'&Hr'&HP). assert (r' = r) as -> by congruence. done.
  - destruct Hr as (r&l&_&_&_&_&[x Hx]). congruence.
  - by destruct Hr.
  - destruct Hr as [_ [n Hn]]. congruence.
  - destruct Hr as (u&Hu&_). apply HP. unfold updating. eauto.
  - destruct Hr as (u&Hu&?&_), HP as (u'&Hu'&HP). assert (u' = u) as -> by congruence. done.
  - destruct Hr as (u&Hu&_&?&_), HP as (u'&Hu'&HP). assert (u' = u) as -> by congruence. done.
  - destruct Hr as (u&Hu&_&_&Hor), HP as (u'&Hu'&H1&H2). assert (u' = u) as -> by congruence. by destruct Hor.
  - destruct Hr as (_&Hor&_), HP as [-> ->]. by destruct Hor.
  - by destruct Hr.
  - destruct Hr as (_&_&_&Ha). by destruct (Ha _ HP).
  - destruct Hr as (_&_&_&Ha), HP as (x&Hx&H1&H2). by destruct (Ha _ Hx) as [_ [?|?]].
  - by destruct Hr as (_&_&?&_).
  - lia.
  - apply HP. unfold cluster_ops in Hr. apply fmap_Some in Hr as (cl&?&_). by eexists.
  - destruct HP as (x&l&HP). congruence.
  - by destruct Hr.
  - destruct Hr. lia.
Qed.
End errs.
