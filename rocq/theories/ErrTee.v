(** Why the calls of operators and metrics servers to pallet tee are refused. *)
From Verif Require Export ErrCalc RuleTee.
Local Open Scope N_scope.

Section errs.
Context {C : Config}.
Implicit Types (s : state).

Lemma uri_no (u : bytes) : negb (nlen u =? 0) = false -> u = [].
Proof. by destruct u. Qed.
Lemma unassigned s w : encs (s_tee s) !! w = None -> ~ assigned s w.
Proof. rewrite assigned_iff. intros -> [? ?]. done. Qed.
Lemma staked_iff s w n : staked s w = Some n <-> exists l, ledgers (s_tee s) !! w = Some l /\ l_staked l = n.
Proof. unfold staked. rewrite fmap_Some. split; intros (l&?&?); eauto. Qed.
Lemma staked_none s w : staked s w = None <-> ledgers (s_tee s) !! w = None.
Proof. unfold staked. by rewrite fmap_None. Qed.
Lemma unlocked_no s w x : can_withdraw (s_bal s) w x (free (s_bal s) w - x) = false -> ~ has_unlocked s w x.
Proof. intros H [_ H2]%lock_iff. congruence. Qed.
Lemma server_find s w : find (fun x => fst x =? w) (servers (s_tee s)) = None <-> w ∉ (servers (s_tee s)).*1.
Proof.
  split.
  - intros H Hin. apply elem_of_list_fmap in Hin as ([y ty]&->&Hin). eapply find_none in H; [|by apply elem_of_list_In]. cbn in H. by rewrite N.eqb_refl in H.
  - intros H. destruct (find _ _) as [[y ty]|] eqn:E; [|done]. apply find_elem in E as [E1 E2]. apply N.eqb_eq in E2. cbn in E2. subst y.
    destruct H. by apply (elem_of_list_fmap_1 fst) in E1.
Qed.

Lemma fact_tee_err s w c e s' : config_ok -> reachable s -> w ∉ pots -> wf_call c = true -> is_tee_call c ->
  dispatch (Signed w) c s = (Err e, s') -> justified e (tee_table s w c).
Proof.
  intros HC Hs Hpw Hw Hc H. pose proof (reachable_binv s Hs) as Hb. pose proof (reachable_teeok s Hs) as Ht.
  pose proof (ok_ed HC) as Hed. apply err_dispatch in H as [_ [s1 H]]; [|done].
  destruct c; try done; cbn [exec_call signed root] in H; cbn [tee_table].
  - unfold register_enclave, ensure_can_withdraw, free_balance in H. apply err_ensure in H as [[E ->]|[E H]]; [because; by apply uri_no|].
    estep H; [because; congruence|]. estep H.
    estep H; [because; unfold waiting; eauto|]. estep H; [because; apply assigned_iff; eauto|].
    estep H; [because; unfold free_address; congruence|]. estep H; [because; unfold staked; rewrite O2; by eexists|].
    cbv zeta in H. estep H. estep H; [because; done|]. apply err_assoc in H. estep H. estep H; [because; by apply unlocked_no|]. einv H.
  - unfold unregister_enclave in H. do 2 estep H. destruct (encs (s_tee s) !! w) as [x|] eqn:Ee.
    + assert (assigned s w) by (apply assigned_iff; eauto). estep H; [because; apply memN_iff; by destruct (memN w _)|].
      estep H; [because; done|]. estep H. destruct (k_stake _ Ht w) as (l&Hl&_); [eauto|rewrite <- memN_iff; congruence|].
      einv H. congruence.
    + estep H; [because; split; [unfold waiting; intros [? ?]; congruence|by apply unassigned]|]. einv H.
  - unfold update_enclave in H. apply err_ensure in H as [[E ->]|[E H]]; [because; by apply uri_no|].
    estep H; [because; congruence|]. estep H. estep H; [because; by apply unassigned|].
    estep H; [because; unfold updating; eauto|].
    apply err_ensure in H as [[D ->]|[D H]]; [|einv H]. apply orb_false_iff in D as [D1%N.eqb_neq D2].
    because. split; [intros (e'&He'&?); congruence|]. unfold free_address. intros D3. by rewrite D3 in D2.
  - unfold cancel_update in H. estep H. estep H; [|einv H]. because. intros [? ?]. congruence.
  - unfold withdraw_unbonded in H. do 2 estep H. estep H; [because; by apply staked_none|].
    estep H; [because; intros b (l&Hl&?&?); congruence|]. estep H; [|einv H]. because. exists (l_unbonded_at x). split; [|done].
    exists x. split_and!; done.
  - unfold submit_metrics_server_report in H. estep H. estep H; [because; by apply server_find|].
    estep H; [because; split|].
    { apply find_elem in U as [U1 U2]. apply N.eqb_eq in U2. rewrite <- U2. by apply elem_of_list_fmap_1. }
    { intros (y&Hy&Hp)%public_iff; [|done]. congruence. }
    estep H; [because; by apply unassigned|]. estep H. estep H; [because; done|]. cbv zeta in H. estep H; [|einv H].
    because. exists x1. split; [done|]. unfold reports_of.
    match goal with Hp : put_report _ ?o = None |- _ => pose proof (put_report_iff r o) as Hpr; rewrite Hp in Hpr end.
    split; [intros Hin; by destruct (proj2 Hpr (or_introl Hin))|]. apply N.nlt_ge. intros Hlt. by destruct (proj2 Hpr (or_intror Hlt)).
  - unfold claim_rewards in H. estep H. estep H; [because; eauto|]. estep H. estep H; [because; done|].
    estep H; [because; rewrite assigned_iff; rewrite (k_era _ Ht); intros [? ?]; congruence|].
    apply err_ensure in H as [[D ->]|[D H]].
    { because. exists x, x0. split_and!; [done|done|]. apply andb_false_iff in D as [D|D%N.leb_gt]; [|lia].
      apply andb_false_iff in D as [D%N.ltb_ge|D%N.ltb_ge]; lia. }
    assert (assigned s w) as Has by (apply assigned_iff; rewrite (k_era _ Ht); eauto).
    estep H; [by eapply unassigned in Has|]. cbv zeta in H. estep H; [|einv H]. apply justified_app_r.
    eapply (pot_short_intro s tee_pot _ [(w, reward_amount (s_tee s) era w)]); [done|done|apply pot_unfrozen; [by apply reachable_sreach|unfold pots; set_solver]|by left|].
    eexists. split; [|done]. apply reward_is. by eapply assigned_count.
  - unfold bond_extra, ensure_can_withdraw, free_balance in H. cbv zeta in H. estep H. estep H; [because; by apply staked_none|].
    assert (staked s w = Some (l_staked x)) as Hst by (apply staked_iff; eauto).
    estep H; [because; eauto|]. estep H. estep H; [because; eauto|]. apply err_assoc in H. estep H.
    estep H; [because; exists (l_staked x); split; [done|by apply unlocked_no]|]. einv H.
  - unfold refund_excess in H. cbv zeta in H. estep H. estep H; [because; by apply staked_none|].
    assert (staked s w = Some (l_staked x)) as Hst by (apply staked_iff; eauto).
    estep H; [because; eauto|]. einv H.
Qed.

Lemma fact_tee_refused s w c e : config_ok -> reachable s -> w ∉ pots -> wf_call c = true -> is_tee_call c ->
  justified e (tee_table s w c) -> exists e', dispatch (Signed w) c s = (Err e', s).
Proof.
  intros HC Hs Hpw Hw Hc H. destruct (dispatch_cases (Signed w) c s) as [(s'&_&_&Hd)|[e' Hd]]; [|by exists e'].
  exfalso. assert (tee_rule s w c) as Hr by (apply fact_tee_rule; eauto). clear Hd. pose proof (reachable_teeok s Hs) as Ht.
  assert (assigned s w -> ~ waiting s w) as Haw.
  { intros Ha%assigned_iff [r Hr']. destruct (k_regs _ Ht _ _ Hr'). destruct Ha. congruence. }
  assert (leaving s w -> assigned s w) as Hlw by (intros Hl; by apply assigned_iff, (k_unreg_enc _ Ht)).
  destruct c; try done; cbn [tee_table tee_rule] in H, Hr.
  - destruct Hr as (?&?&?&?&?&Hl&Hu). destruct H as (P&H&HP). each_line H; try done.
    + unfold staked in HP. rewrite Hl in HP. by destruct HP.
    + unfold has_unlocked in Hu. lia.
  - destruct H as (P&H&HP). each_line H.
    + destruct HP, Hr as [?|(?&?&?)]; done.
    + destruct Hr as [?|(?&?&?)]; [|done]. by apply Haw; [apply Hlw|].
    + destruct HP, Hr as [?|(?&?&?)]; [by apply Haw|lia].
  - destruct Hr as (?&?&?&?&Hor). destruct H as (P&H&HP). each_line H; try done. destruct HP, Hor; done.
  - destruct H as (P&H&HP). each_line H. done.
  - destruct Hr as (b&Hb&Hle). destruct H as (P&H&HP). each_line H.
    + apply staked_none in HP. destruct Hb as (l&Hl&_). congruence.
    + by eapply HP.
    + destruct HP as (b'&Hb'&HP). assert (b' = b) as ->; [|lia]. destruct Hb as (l&Hl&_&<-), Hb' as (l'&Hl'&_&<-). congruence.
  - destruct Hr as (Hp&Ha&active&Hact&Hlim). destruct H as (P&H&HP). each_line H.
    + apply HP. unfold public_server in Hp. by apply (elem_of_list_fmap_1 fst) in Hp.
    + by destruct HP.
    + done.
    + congruence.
    + destruct HP as (a&Ha'&Hn&Hle). assert (a = active) as -> by congruence. destruct Hlim; [done|lia].
  - destruct Hr as (Ha&Hcl&active&since&x&Hact&Hsi&L1&L2&L3&L4&Hrw&Hpay). apply justified_app in H as [H|H].
    + destruct H as (P&H&HP). each_line H.
      * rewrite Hcl in HP. by destruct HP.
      * congruence.
      * done.
      * destruct HP as (a&si&Ha'&Hsi'&HP). assert (a = active) as -> by congruence. assert (si = since) as -> by congruence. lia.
    + apply pot_short_spec in H as (l&(x'&Hx'&->)&Hn). by rewrite (reward_det _ _ _ _ _ Hx' Hrw) in Hn.
  - destruct Hr as (n&Hn&Hlt&Hu). destruct H as (P&H&HP). each_line H.
    + congruence.
    + destruct HP as (m&Hm&HP). assert (m = n) as -> by congruence. lia.
    + destruct HP as (m&Hm&HP). assert (m = n) as -> by congruence. unfold has_unlocked in Hu. lia.
    + destruct HP as (m&Hm&HP). assert (m = n) as -> by congruence. done.
  - destruct Hr as (n&Hn&Hlt). destruct H as (P&H&HP). each_line H.
    + congruence.
    + destruct HP as (m&Hm&HP). assert (m = n) as -> by congruence. lia.
Qed.
End errs.
