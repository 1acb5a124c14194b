(** The facts the transmission theorems state. *)
From Verif Require Export TransFacts2.
Local Open Scope N_scope.

Section facts.
Context {C : Config}.

Lemma now_next_block s : s_now (next_block s) = s_now s + 1.
Proof. apply (next_block_ind (fun t => s_now t = s_now s + 1)); [done|]. intros h t Ht. by rewrite hook_now. Qed.

Lemma fact_consent_needed s0 acts a i t l k :
  config_ok -> genesis s0 -> Forall action_ok (acts ++ [a]) ->
  let s := after s0 acts in
  under s i t -> asks (t_protocol t) l k ->
  owner_of (step s a) i <> owner_of s i \/
    (transs (s_trans (step s a)) !! i = None /\ forall w, a <> Extrinsic (Signed w) (C_remove_transmission_protocol i)) ->
  given_to (step s a) i (t_recipient t) /\ (forall b, block_of (t_protocol t) = Some b -> b <= s_now (step s a)) /\
  exists acts1 acts2 ws, acts = acts1 ++ acts2 /\ since s0 acts1 acts2 i t /\
    NoDup ws /\ k <= nlen ws /\ forall w, w ∈ ws -> w ∈ l /\ consented s0 acts1 (acts2 ++ [a]) i w.
Proof.
  cbv zeta. intros HC H0 Hacts Hu Hk Hch. apply Forall_app in Hacts as [Hacts Ha]. inversion Ha as [|?? Ha0 _]; subst.
  assert (Hr : reachable (after s0 acts)) by (apply after_reachable; [by apply reach_init|done]).
  destruct (since_exists s0 acts i t l k HC H0 Hacts Hu Hk) as (acts1&acts2&E&Hs).
  destruct (consent_history s0 acts1 acts2 i t l k HC (reach_init _ H0)) as (ws&Hn&Hl&Hw&Hq); [by rewrite <- E|done|done|].
  rewrite <- E in Hq. set (s := after s0 acts) in *.
  destruct (trans_step_ok s a i t HC Hr Ha0 Hu) as [S So|w Ea Ho _ G|w b b' Ea Eo Ep Hb S So|w lc kc Ea Ec Hwl Hd Hnq Hwn Hle Hb En G|b Ea Hb Eb Hle G].
  - destruct Hch as [?|[? _]]; [done|]. congruence.
  - apply given_is in G. destruct Hch as [?|[_ Hx]]; [congruence|]. by destruct (Hx w).
  - destruct Hch as [?|[? _]]; [done|]. congruence.
  - apply asks_data in Hk. assert (lc = l /\ kc = k) as [-> ->] by (split; congruence).
    split; [done|]. split. { intros b Eb. rewrite En. apply Hb. by rewrite <- block_of_end. }
    exists acts1, acts2, (ws ++ [w]). split; [done|]. split; [done|]. destruct Hq as [(Q1&Q2&Q3)|[Q1 Q2]]; [|done].
    unfold recorded in Q2. rewrite <- Q2 in *.
    split. { apply NoDup_app. split; [done|]. split; [|apply NoDup_singleton]. intros x Hx Hy%elem_of_list_singleton. by subst. }
    split. { unfold nlen in *. rewrite app_length. cbn [length]. lia. }
    intros x [Hx|Hx%elem_of_list_singleton]%elem_of_app.
    + split; [by apply Hl|]. apply consented_snoc. left. by apply Hw.
    + subst x. split; [done|]. apply consented_snoc. right. rewrite <- E. fold s. eauto.
  - split; [done|]. split. { intros b' Eb'. rewrite block_of_end in Eb'. subst a. cbn [step]. rewrite now_next_block. assert (b' = b) as -> by congruence. done. }
    exists acts1, acts2, ws. split; [done|]. split; [done|]. destruct Hq as [(Q1&_)|[Q1 Q2]].
    { exfalso. apply Q1. apply q_fst_elem. by exists b. }
    split; [done|]. split; [done|]. intros w Hx. split; [by apply Hl|]. apply consented_snoc. left. by apply Hw.
Qed.

Lemma fact_recorded s i ws : reachable s -> consents (s_trans s) !! i = Some ws ->
  exists t l k, under s i t /\ asks (t_protocol t) l k /\ NoDup ws /\ (forall w, w ∈ ws -> w ∈ l) /\ nlen ws < k /\ forall b, ~ waits s i b.
Proof.
  intros Hs Hw. pose proof (reachable_tinv s Hs) as HT. destruct (to_cons _ _ HT i ws Hw) as (t&l&k&Ht&Hk&Hn&Hl&Hlt&Hq).
  exists t, l, k. split_and!; try done; [by apply asks_data|]. intros b Hb. apply Hq, q_fst_elem. by exists b.
Qed.

Lemma fact_not_early s a i t b : config_ok -> reachable s -> action_ok a -> under s i t -> block_of (t_protocol t) = Some b ->
  s_now (step s a) < b ->
  owner_of (step s a) i = owner_of s i /\
  (under (step s a) i t \/
   exists w, owner_of s i = Some w /\
     ((a = Extrinsic (Signed w) (C_remove_transmission_protocol i) /\ may_cancel (t_cancellation t) (s_now s)) \/
      (exists b', a = Extrinsic (Signed w) (C_reset_timer i b') /\ t_protocol t = AtBlockWithReset b /\
         under (step s a) i (t <| t_protocol := AtBlockWithReset b' |>)))).
Proof.
  intros HC Hs Ha Hu Eb Hlt. rewrite block_of_end in Eb.
  destruct (trans_step_ok s a i t HC Hs Ha Hu) as [S So|w Ea Ho Hc G|w b0 b' Ea Eo Ep Hb S So|w lc kc Ea Ec Hwl Hd Hnq Hwn Hle Hb En G|b0 Ea Hb Eb0 Hle G].
  - split; [done|]. by left.
  - split; [rewrite Ho; by apply given_is|]. right. exists w. split; [done|]. left. done.
  - split; [done|]. right. exists w. split; [done|]. right. exists b'. split; [done|]. rewrite Ep in Eb. cbn in Eb. split; [congruence|done].
  - exfalso. specialize (Hb b Eb). lia.
  - exfalso. subst a. cbn [step] in Hlt. rewrite now_next_block in Hlt. assert (b0 = b) as -> by congruence. lia.
Qed.

Lemma fact_timed_waits s i t b : reachable s -> under s i t -> timed (t_protocol t) b -> waits s i b.
Proof. intros Hs Hu Ht%timed_queue. by apply (to_timed _ _ (reachable_tinv s Hs) i t). Qed.

Lemma fact_fifo s i t b l1 l2 : config_ok -> reachable s -> under s i t -> t_queue (s_trans s) = l1 ++ (i, b) :: l2 ->
  b <= s_now s + 1 -> nlen l1 < N.max 1 trans_actions -> given_to (next_block s) i (t_recipient t).
Proof.
  intros HC Hs Hu Eq Hb Hl. destruct (turn_exists HookTrans s HC) as (u&u'&Hx).
  destruct (fact_trans_turn s u u' HC Hs Hx) as (_&_&_&_&l&El&Hin&_&Hend&_&_&_).
  assert ((i, b) ∈ l) as Hi.
  { destruct (decide ((i, b) ∈ l)) as [?|Hni]; [done|exfalso].
    assert (Hw : waits (next_block s) i b).
    { assert ((i, b) ∈ t_queue (s_trans s)) as He by (rewrite Eq; apply elem_of_app; right; left). rewrite El in He. by apply elem_of_app in He as [?|?]. }
    destruct Hend as [Hend|Hend]; [|specialize (Hend i b Hw); lia].
    assert (length l <= length l1)%nat as Hle.
    { destruct (decide (length l <= length l1)%nat) as [?|Hgt]; [done|]. exfalso. apply Hni.
      assert (l !! length l1 = Some (i, b)) as E.
      { rewrite <- (lookup_app_l l (t_queue (s_trans (next_block s)))) by lia. rewrite <- El, Eq. by rewrite list_lookup_middle. }
      by apply elem_of_list_lookup_2 in E. }
    unfold nlen in *. lia. }
  destruct (Hin i b Hi) as (_&t0&Ht0&_&G). assert (t0 = t) as -> by (unfold under in Hu; congruence). done.
Qed.

Lemma fact_on_time s l i t b : config_ok -> reachable s -> all_waiting_fit s l -> under s i t -> waits s i b -> b <= s_now s + 1 ->
  given_to (next_block s) i (t_recipient t).
Proof.
  intros HC Hs [Hall Hfit] Hu Hw Hb. pose proof (reachable_tinv s Hs) as HT. destruct (to_q _ _ HT) as [Hso Hnd].
  pose proof Hw as (l1&l2&Eq)%elem_of_list_split. eapply fact_fifo; [done|done|done|exact Eq|done|].
  assert (length ((l1 ++ [(i, b)]).*1) <= length l)%nat as Hle.
  { apply submseteq_length, NoDup_submseteq.
    - rewrite Eq in Hnd. change ((i, b) :: l2) with ([(i, b)] ++ l2) in Hnd. rewrite app_assoc, fmap_app in Hnd. by apply NoDup_app in Hnd as [? _].
    - intros j [x Hx]%q_fst_elem. apply (Hall j x).
      + unfold waits. rewrite Eq. apply elem_of_app in Hx as [?|Hx]; apply elem_of_app; [by left|right]. apply elem_of_list_singleton in Hx. rewrite Hx. left.
      + apply elem_of_app in Hx as [Hx|Hx]; [|apply elem_of_list_singleton in Hx; injection Hx as -> ->; done].
        rewrite Eq in Hso. clear -Hso Hx Hb. induction l1 as [|y l1 IH]; [by apply elem_of_nil in Hx|]. cbn in Hso.
        apply sorted_elem in Hso as [Hso Hy]. apply elem_of_cons in Hx as [<-|Hx]; [|by apply IH].
        specialize (Hy (i, b)). cbn in Hy. assert (x <= b) by (apply Hy, elem_of_app; right; left). lia. }
  rewrite fmap_length, app_length in Hle. cbn [length] in Hle. unfold nlen in *. lia.
Qed.

Lemma fact_queue_shape s : reachable s ->
  StronglySorted (fun x y => snd x <= snd y) (t_queue (s_trans s)) /\ NoDup (map fst (t_queue (s_trans s))) /\ nlen (t_queue (s_trans s)) <= trans_limit.
Proof. intros Hs. pose proof (reachable_tinv s Hs) as HT. destruct (to_q _ _ HT) as [Hso Hnd]. split; [done|]. split; [done|]. by apply to_len in HT. Qed.

Lemma fact_queue_exact s0 acts i b : config_ok -> genesis s0 -> Forall action_ok acts ->
  let s := after s0 acts in
  waits s i b <-> exists t, under s i t /\ (timed (t_protocol t) b \/
    exists l k acts1 acts2 ws, t_protocol t = OnConsentAtBlock l k b /\ acts = acts1 ++ acts2 /\ since s0 acts1 acts2 i t /\
      NoDup ws /\ k <= nlen ws /\ forall w, w ∈ ws -> w ∈ l /\ consented s0 acts1 acts2 i w).
Proof.
  cbv zeta. intros HC H0 Hacts. assert (Hr : reachable (after s0 acts)) by (apply after_reachable; [by apply reach_init|done]).
  pose proof (reachable_tinv _ Hr) as HT. split.
  - intros Hw. destruct (to_entry _ _ HT i b Hw) as (t&Ht&Et). exists t. split; [done|]. destruct (t_protocol t) as [x|x|l k|l k x] eqn:Ep; cbn in Et; try done.
    + injection Et as ->. left. by left.
    + injection Et as ->. left. by right.
    + injection Et as ->. right. assert (Hk : asks (t_protocol t) l k) by (right; eauto).
      destruct (since_exists s0 acts i t l k HC H0 Hacts Ht Hk) as (acts1&acts2&E&Hs).
      destruct (consent_history s0 acts1 acts2 i t l k HC (reach_init _ H0)) as (ws&Hn&Hl&Hc&Hq); [by rewrite <- E|done|done|]. rewrite <- E in Hq.
      exists l, k, acts1, acts2, ws. split_and!; try done.
      * destruct Hq as [[Q _]|[_ ?]]; [|done]. exfalso. apply Q, q_fst_elem. by exists b.
      * intros w Hx. split; [by apply Hl|by apply Hc].
  - intros (t&Ht&[Hti|(l&k&acts1&acts2&ws&Ep&->&Hs&Hn&Hk&Hws)]); [by eapply fact_timed_waits|].
    destruct (consent_history s0 acts1 acts2 i t l k HC (reach_init _ H0) Hacts Hs) as (ws'&Hn'&Hl&Hc&Hq); [right; eauto|].
    assert (in_queue (after s0 (acts1 ++ acts2)) i) as [x Hx]%q_fst_elem.
    { destruct Hq as [(Q1&Q2&Q3)|[? _]]; [|done]. exfalso. assert (length ws <= length ws')%nat.
      { apply submseteq_length, NoDup_submseteq; [done|]. intros w Hw. apply Hc. by apply Hws. }
      unfold nlen in *. lia. }
    destruct (to_entry _ _ HT i x Hx) as (t'&Ht'&Et). unfold under in Ht. assert (t' = t) as -> by congruence. rewrite Ep in Et. injection Et as <-. done.
Qed.

Lemma nft_fits s i d : reachable s -> nfts (s_nft s) !! i = Some d -> fits u32_max i = true.
Proof. intros Hs Hd. apply N.leb_le. pose proof (nft_old s i Hs ltac:(eauto)). pose proof (next_nft_range s Hs). lia. Qed.
Lemma flag_under s i d : reachable s -> nfts (s_nft s) !! i = Some d -> is_transmission (nstate d) = true <-> exists t, under s i t.
Proof.
  intros Hs Hd. pose proof (reachable_inv1 s Hs) as HI. split.
  - intros Hf. destruct (transs (s_trans s) !! i) as [t|] eqn:Ht; [by exists t|]. pose proof (i_view s HI i) as V. unfold view_ok in V. rewrite Hd, Ht in V.
    apply v_trans in V. cbn in V. congruence.
  - intros [t Ht]. destruct (trans_nft s i t HI Ht) as (d'&Hd'&?). congruence.
Qed.

Lemma fact_remove_iff s w i : reachable s ->
  (exists s', dispatch (Signed w) (C_remove_transmission_protocol i) s = (Ok tt, s')) <->
  owner_of s i = Some w /\ exists t, under s i t /\ may_cancel (t_cancellation t) (s_now s).
Proof.
  intros Hs. split.
  - intros (s'&He). apply dispatch_ok in He as [_ He]. apply tremove_ok in He as (d&t&Hd&<-&_&Ht&Hc&_).
    split; [unfold owner_of; by rewrite Hd|]. exists t. split; [done|]. by apply may_cancel_is.
  - intros (Ho&t&Ht&Hc). unfold owner_of in Ho. destruct (nfts (s_nft s) !! i) as [d|] eqn:Hd; [|discriminate Ho]. cbn in Ho. injection Ho as <-.
    assert (Hf : is_transmission (nstate d) = true) by (apply (flag_under s i d Hs Hd); by exists t). apply may_cancel_is in Hc.
    unfold dispatch. cbn [wf_call]. rewrite (nft_fits s i d Hs Hd). unfold transactional. cbn [exec_call signed].
    unfold remove_transmission_protocol, get_nft, get_trans, bind, gets, unwrap, ensure, ret, fail. rewrite Hd. cbn. rewrite N.eqb_refl, Hf.
    unfold under in Ht. rewrite Ht, Hc. destruct (kind_of_protocol _); eexists; reflexivity.
Qed.

Lemma fact_remove_effect s w i s' : config_ok -> reachable s -> dispatch (Signed w) (C_remove_transmission_protocol i) s = (Ok tt, s') ->
  given_to s' i w /\ (forall b, ~ waits s' i b) /\ consents (s_trans s') !! i = None /\
  (forall j, j <> i -> transs (s_trans s') !! j = transs (s_trans s) !! j /\ consents (s_trans s') !! j = consents (s_trans s) !! j /\
     nfts (s_nft s') !! j = nfts (s_nft s) !! j /\ forall b, waits s' j b <-> waits s j b) /\ s_bal s' = s_bal s.
Proof.
  intros HC Hs He. pose proof (reachable_tinv s Hs) as HT. destruct (to_q _ _ HT) as [Hso Hnd].
  apply dispatch_ok in He as [_ He]. apply tremove_ok in He as (d&t&Hd&Ho&_&Ht&Hc&En&Eb&E1&E2&E3).
  assert (Hq : forall j b, waits s' j b <-> waits s j b /\ j <> i).
  { intros j b. unfold waits. rewrite E2. assert (D : (j, b) ∈ q_del i (t_queue (s_trans s)) <-> (j, b) ∈ t_queue (s_trans s) /\ j <> i) by (by apply q_del_elem).
    destruct (t_protocol t) eqn:Ep; try done. split; [|by intros [? _]]. intros Hx. split; [done|]. intros ->.
    destruct (to_entry _ _ HT _ _ Hx) as (t'&Ht'&Et). assert (t' = t) as -> by congruence. by rewrite Ep in Et. }
  split_and!; try done.
  - split; [by rewrite E1, lookup_delete|]. rewrite En. cbn. rewrite lookup_insert. eexists. split; [done|]. done.
  - intros b [_ ?]%Hq. done.
  - rewrite E3. destruct (consent_data (t_protocol t)) eqn:Ec; [by rewrite lookup_delete|].
    destruct (consents (s_trans s) !! i) eqn:Ei; [|done]. destruct (to_cons _ _ HT _ _ Ei) as (t'&?&?&?&?&_). congruence.
  - intros j Hne. split_and!; [by rewrite E1, lookup_delete_ne| |by rewrite En; cbn; rewrite lookup_insert_ne|].
    + rewrite E3. destruct (consent_data (t_protocol t)); [by rewrite lookup_delete_ne|done].
    + intros b. rewrite Hq. naive_solver.
Qed.

Lemma fact_reset_iff s w i b : reachable s ->
  (exists s', dispatch (Signed w) (C_reset_timer i b) s = (Ok tt, s')) <->
  owner_of s i = Some w /\ (exists t b0, under s i t /\ t_protocol t = AtBlockWithReset b0) /\
  s_now s < b /\ N.min (b - s_now s) u32_max <= max_block_duration.
Proof.
  intros Hs. split.
  - intros (s'&He). apply dispatch_ok in He as [_ He]. apply treset_ok in He as (d&t&b0&Hd&<-&_&Ht&Ep&Hb&Hm&_).
    split; [unfold owner_of; by rewrite Hd|]. split; [by exists t, b0|]. done.
  - intros (Ho&(t&b0&Ht&Ep)&Hb&Hm). unfold owner_of in Ho. destruct (nfts (s_nft s) !! i) as [d|] eqn:Hd; [|discriminate Ho]. cbn in Ho. injection Ho as <-.
    assert (Hf : is_transmission (nstate d) = true) by (apply (flag_under s i d Hs Hd); by exists t).
    apply N.ltb_lt in Hb. apply N.leb_le in Hm.
    unfold dispatch. cbn [wf_call]. rewrite (nft_fits s i d Hs Hd). unfold transactional. cbn [exec_call signed].
    unfold reset_timer, get_nft, get_trans, bind, gets, unwrap, ensure, ret, fail. rewrite Hd. cbn -[N.min]. rewrite N.eqb_refl, Hf.
    unfold under in Ht. rewrite Ht, Ep. cbn -[N.min]. rewrite Hb, Hm. eexists. reflexivity.
Qed.

Lemma fact_reset_effect s w i b s' : config_ok -> reachable s -> dispatch (Signed w) (C_reset_timer i b) s = (Ok tt, s') ->
  exists t, under s i t /\ under s' i (t <| t_protocol := AtBlockWithReset b |>) /\ waits s' i b /\ s_bal s' = s_bal s /\ s_nft s' = s_nft s /\
  consents (s_trans s') = consents (s_trans s) /\
  forall j, j <> i -> transs (s_trans s') !! j = transs (s_trans s) !! j /\ forall x, waits s' j x <-> waits s j x.
Proof.
  intros HC Hs He. pose proof (reachable_tinv s Hs) as HT. destruct (to_q _ _ HT) as [Hso Hnd].
  apply dispatch_ok in He as [_ He]. apply treset_ok in He as (d&t&b0&Hd&Ho&_&Ht&Ep&Hb&Hm&->). exists t. unfold under, waits. st_cbn.
  assert (Hi : i ∈ (t_queue (s_trans s)).*1). { apply q_fst_elem. exists b0. apply (to_timed _ _ HT i t); [done|]. by rewrite Ep. }
  assert (Hq : forall x, x ∈ q_update i b (t_queue (s_trans s)) <-> x = (i, b) \/ (x ∈ t_queue (s_trans s) /\ fst x <> i)) by (intros; by apply q_update_elem).
  split_and!; try done; [by rewrite lookup_insert|apply Hq; by left|].
  intros j Hne. split; [by rewrite lookup_insert_ne|]. intros x. rewrite Hq. cbn. naive_solver.
Qed.

Lemma fact_hook_turn s t t' : config_ok -> reachable s -> turn HookTrans s t t' ->
  fst (run_hook HookTrans t) = Ok tt /\
  exists l, t_queue (s_trans s) = l ++ t_queue (s_trans (next_block s)) /\
    (forall i b, (i, b) ∈ l -> b <= s_now s + 1 /\ exists u, under s i u /\ given_to t' i (t_recipient u) /\ given_to (next_block s) i (t_recipient u)) /\
    (nlen l = N.max 1 trans_actions \/ forall i b, waits (next_block s) i b -> s_now s + 1 < b) /\
    s_events t' = map Ev_Transmitted (rev (map fst l)) ++ s_events t.
Proof.
  intros HC Hs Ht. destruct (fact_trans_turn s t t' HC Hs Ht) as (H1&_&_&_&l&H2&H3&_&H4&H5&H6&_). split; [done|]. exists l. split_and!; try done.
  destruct H4 as [?|?]; [left; lia|by right].
Qed.
End facts.
