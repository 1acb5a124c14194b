(** The transmission queue in the course of time. *)
From Verif Require Export TransFacts3 SpecWait Ahead.
Local Open Scope N_scope.

Section facts.
Context {C : Config}.

Lemma now_same s a : a <> NextBlock -> s_now (step s a) = s_now s.
Proof.
  intros Ha. apply (step_cases (fun t => s_now t = s_now s)); try done.
  - intros x s' Hm He. by rewrite (call_now _ _ _ _ Hm He).
  - intros o x s' _ Hm _ He. by rewrite (call_now _ _ _ _ Hm He).
  - intros e s' _ He. apply env_kept in He as (->&_). done.
Qed.
Lemma now_grows s a : s_now s <= s_now (step s a).
Proof.
  assert (a = NextBlock \/ a <> NextBlock) as [->|Hnb] by (destruct a; auto); [|by rewrite now_same].
  cbn [step]. rewrite now_next_block. lia.
Qed.
Lemma blocks_other a acts : a <> NextBlock -> blocks (a :: acts) = blocks acts.
Proof. by destruct a. Qed.

(** Between blocks nothing gets before a due entry. *)
Lemma ahead_step s a i t b n : config_ok -> reachable s -> action_ok a -> a <> NextBlock -> under s i t ->
  ahead (t_queue (s_trans s)) i b n -> b <= s_now s + 1 ->
  ahead (t_queue (s_trans (step s a))) i b n \/ called_off s a i t.
Proof.
  intros HC Hs Ha Hnb Hu Hq Hb. pose proof (reachable_inv1 s Hs) as HI. pose proof (reachable_tinv s Hs) as HT.
  assert (Hso : qok (t_queue (s_trans s))) by apply HT.
  destruct a as [o c| |e]; [|done|].
  2: { left. cbn [step]. destruct (transactional_cases (run_env e) s) as [(s2&Hok&E)|(x&s2&_&E)]; rewrite E; cbn [snd]; [|done].
       apply env_kept in Hok as (_&_&_&_&_&Et&_). by rewrite Et. }
  destruct (is_mandate c) eqn:Hm. { left. destruct (mandate_trans s o c Hm) as (_&E&_). cbv zeta in E. by rewrite E. }
  pose proof (trans_step_ok s (Extrinsic o c) i t HC Hs Ha Hu) as Hts.
  cbn [step] in Hts |- *. destruct (dispatch_cases o c s) as [(s'&Hw&He&Hdp)|[e Hdp]]; [|left; by rewrite Hdp].
  assert (Es : step s (Extrinsic o c) = s') by (cbn [step]; by rewrite Hdp). rewrite Hdp. cbn [snd].
  assert (pallet_of c = PTrans \/ pallet_of c <> PTrans) as [Hpal|Hpal] by (destruct (pallet_of c); auto).
  2: { left. by rewrite (call_trans_kept _ _ _ _ Hm He Hpal). }
  destruct c; try discriminate Hpal; clear Hpal Hm; cbn [exec_call] in He.
  all: try (unfold signed in He; destruct o as [who| |]; try done).
  - left. apply tset_ok in He as (d0&b0&q'&_&_&_&_&_&_&Hend&_&Hq'&_&->). st_cbn.
    destruct (block_to_queue p) as [x|] eqn:Ep; [|by subst]. destruct Hq' as [_ ->]. apply ahead_ins; [apply Hso| |done]. cbn [snd].
    destruct (Hend x) as [? _]; [by destruct p|lia].
  - apply tremove_ok in He as (d0&t0&Hd0&Ho0&_&Ht0&Hc&En&_&E1&E2&_). destruct (decide (id = i)) as [->|Hne].
    + right. exists who. split; [unfold owner_of; rewrite Hd0; cbn; by rewrite Ho0|]. left. split; [done|]. unfold under in Hu. assert (t0 = t) as -> by congruence.
      split; [by apply may_cancel_is|]. rewrite Es. split; [by rewrite E1, lookup_delete|].
      rewrite En. cbn. rewrite lookup_insert. eexists. split; [done|]. done.
    + left. rewrite E2. destruct (t_protocol t0); [by apply ahead_del..|done|by apply ahead_del].
  - apply treset_ok in He as (d0&t0&bb&Hd0&Ho0&_&Ht0&Ep&Hb0&_&E). destruct (decide (id = i)) as [->|Hne].
    + right. exists who. split; [unfold owner_of; rewrite Hd0; cbn; by rewrite Ho0|]. right. unfold under in Hu. assert (t0 = t) as -> by congruence.
      exists bb. eexists. split; [done|]. split; [done|]. rewrite Es, E. unfold under. st_cbn. by rewrite lookup_insert.
    + left. rewrite E. st_cbn. apply ahead_update; try done. lia.
  - left. apply tconsent_ok in He as (d0&t0&cl&th&_&_&_&_&_&_&_&_&He). cbv zeta in He.
    destruct He as [(_&_&->)|[(_&x&_&Hx&_&_&->)|(_&_&_&->)]]; cbn; try done. apply ahead_ins; [apply Hso| |done]. cbn. lia.
  - left. minv He. subst s'. st_cbn. by destruct k.
Qed.

Lemma fact_waits_its_turn acts : forall s i t b n, config_ok -> reachable s -> Forall action_ok acts -> under s i t ->
  ahead (t_queue (s_trans s)) i b n -> b <= s_now s + 1 -> n < blocks acts * N.max 1 trans_actions ->
  transmitted_or_called_off s acts i t.
Proof.
  induction acts as [|a acts IH]; intros s i t b n HC Hs Hok Hu Hq Hb Hn; [cbn in Hn; lia|].
  apply Forall_cons in Hok as [Ha Hok].
  assert (Hnext : under (step s a) i t -> (exists m, ahead (t_queue (s_trans (step s a))) i b m /\ m < blocks acts * N.max 1 trans_actions) ->
    transmitted_or_called_off s (a :: acts) i t).
  { intros Hu' (m&Hq'&Hm).
    destruct (IH (step s a) i t b m HC (reach_step _ _ Hs Ha) Hok Hu' Hq') as (p&a'&q&E&H1&H2); [pose proof (now_grows s a); lia|done|].
    exists (a :: p), a', q. split; [by rewrite E|]. done. }
  assert (Hout : a = NextBlock /\ given_to (step s a) i (t_recipient t) \/ called_off s a i t -> transmitted_or_called_off s (a :: acts) i t).
  { intros H. exists [], a, acts. done. }
  pose proof (ahead_elem _ _ _ _ Hq) as Hel.
  destruct (trans_step_ok s a i t HC Hs Ha Hu) as [Hu' _|w Ea Ho Hc Hg|w b0 b' Ea Ho Ep Hb' Hu' _|w l k Ea Hcd _ _ Hni _ _ _ _ _|b0 Ea _ _ _ Hg].
  - assert (a = NextBlock \/ a <> NextBlock) as [->|Hnb] by (destruct a; auto).
    + cbn [step] in *. destruct (turn_exists HookTrans s HC) as (u&u'&Hx).
      destruct (fact_trans_turn s u u' HC Hs Hx) as (_&_&_&_&l&El&Hin&_&Hend&_&_&_).
      assert (Hil : i ∉ l.*1). { intros [x Hx']%q_fst_elem. destruct (Hin i x Hx') as (_&y&_&_&[G _]). unfold under in Hu'. congruence. }
      rewrite El in Hq. destruct (ahead_app l _ i b n Hil Hq) as (m&Hm&Hq').
      destruct Hend as [Hend|Hend].
      * apply Hnext; [done|]. exists m. split; [done|]. cbn [blocks] in Hn. lia.
      * apply ahead_elem in Hq'. specialize (Hend i b Hq'). lia.
    + destruct (ahead_step s a i t b n HC Hs Ha Hnb Hu Hq Hb) as [Hq'|Hx]; [|apply Hout; by right].
      apply Hnext; [done|]. exists n. split; [done|]. by rewrite blocks_other in Hn.
  - apply Hout. right. exists w. split; [done|]. left. done.
  - apply Hout. right. exists w. split; [done|]. right. exists b0, b'. done.
  - exfalso. apply Hni, q_fst_elem. eauto.
  - apply Hout. left. done.
Qed.

Lemma fact_transmitted_in_time acts : forall s i t b k, config_ok -> reachable s -> Forall action_ok acts -> under s i t ->
  timed (t_protocol t) b -> trans_limit <= k * N.max 1 trans_actions -> b - (s_now s + 1) + k <= blocks acts ->
  transmitted_or_called_off s acts i t.
Proof.
  induction acts as [|a acts IH]; intros s i t b k HC Hs Hok Hu Ht Hk Hbl.
  all: destruct (decide (b <= s_now s + 1)) as [Hb|Hb].
  all: try (pose proof (fact_timed_waits s i t b Hs Hu Ht) as Hw; destruct (elem_ahead _ _ _ Hw) as (n&Hq&Hn);
            pose proof (to_len _ _ (reachable_tinv s Hs)) as Hlen;
            eapply fact_waits_its_turn; [done..|exact Hq|done|]; nia).
  { cbn in Hbl. lia. }
  apply Forall_cons in Hok as [Ha Hok].
  assert (Hnext : under (step s a) i t -> transmitted_or_called_off s (a :: acts) i t).
  { intros Hu'. destruct (IH (step s a) i t b k HC (reach_step _ _ Hs Ha) Hok Hu' Ht Hk) as (p&a'&q&E&H1&H2).
    - assert (a = NextBlock \/ a <> NextBlock) as [->|Hnb] by (destruct a; auto).
      + cbn [step blocks] in *. rewrite now_next_block. lia.
      + rewrite now_same by done. by rewrite blocks_other in Hbl.
    - exists (a :: p), a', q. split; [by rewrite E|]. done. }
  assert (Hout : called_off s a i t -> transmitted_or_called_off s (a :: acts) i t).
  { intros H. exists [], a, acts. split; [done|]. split; [done|]. by right. }
  destruct (trans_step_ok s a i t HC Hs Ha Hu) as [Hu' _|w Ea Ho Hc Hg|w b0 b' Ea Ho Ep Hb' Hu' _|w l x Ea Hcd _ _ Hni _ _ _ _ _|b0 Ea _ Ee Hle Hg].
  - by apply Hnext.
  - apply Hout. exists w. split; [done|]. left. done.
  - apply Hout. exists w. split; [done|]. right. exists b0, b'. done.
  - exfalso. destruct Ht as [E|E]; rewrite E in Hcd; done.
  - exfalso. destruct Ht as [E|E]; rewrite E in Ee; cbn in Ee; injection Ee as ->; lia.
Qed.
End facts.
