(** Every engagement of an NFT can end. *)
From Verif Require Export SpecEnd SpecRules FreeFacts RentWait AucWait RuleTrans.
Local Open Scope N_scope.

Section waiting.
Context {C : Config}.

Definition wait (s : state) (n : nat) : state := after s (replicate n NextBlock).
Lemma wait_S s n : wait s (S n) = next_block (wait s n).
Proof. unfold wait. rewrite replicate_S_end. unfold after. rewrite fold_left_app. done. Qed.
Lemma wait_ok n : Forall action_ok (replicate n NextBlock).
Proof. induction n; [constructor|]. cbn [replicate]. constructor; done. Qed.
Lemma wait_blocks n : blocks (replicate n NextBlock) = N.of_nat n.
Proof. induction n; [done|]. cbn [replicate blocks]. lia. Qed.
Lemma wait_reach s n : reachable s -> reachable (wait s n).
Proof. intros Hs. apply after_reachable; [done|apply wait_ok]. Qed.
Lemma wait_wait s n m : wait (wait s n) m = wait s (n + m).
Proof. unfold wait, after. by rewrite replicate_add, fold_left_app. Qed.
Lemma wait_now s n : s_now (wait s n) = s_now s + N.of_nat n.
Proof.
  induction n as [|n IH]; [unfold wait; cbn; lia|]. rewrite wait_S, now_next_block, IH. lia.
Qed.
Lemma wait_prefix n p a q : replicate n NextBlock = p ++ a :: q -> p = replicate (length p) NextBlock /\ a = NextBlock.
Proof.
  revert n. induction p as [|x p IH]; intros n E; destruct n as [|n]; try discriminate E; cbn [replicate app] in E.
  - injection E as <- _. done.
  - injection E as <- E. destruct (IH n E) as [Hp Ha]. split; [|done]. cbn [length replicate]. by f_equal.
Qed.
Lemma wait_rel s n : reachable s -> hrel s (wait s n) /\ s_mkt (wait s n) = s_mkt s.
Proof.
  intros Hs. induction n as [|n [H1 H2]].
  - split; [by apply hrel_same|done].
  - rewrite wait_S. split.
    + eapply hrel_trans; [exact H1|]. apply block_hrel, reachable_inv1, wait_reach, Hs.
    + destruct (block_mkt (wait s n)) as [-> _]. done.
Qed.

(** Nothing new starts while blocks pass. *)
Lemma wait_free s i d n : reachable s -> nfts (s_nft s) !! i = Some d ->
  is_delegated (nstate d) = false -> is_syncing_secret (nstate d) = false -> is_syncing_capsule (nstate d) = false ->
  sales (s_mkt s) !! i = None -> auctions (s_auc (wait s n)) !! i = None -> contracts (s_rent (wait s n)) !! i = None ->
  transs (s_trans (wait s n)) !! i = None ->
  exists d', nfts (s_nft (wait s n)) !! i = Some d' /\ unengaged d'.
Proof.
  intros Hs Hd E1 E2 E3 E4 E5 E6 E7. destruct (wait_rel s n Hs) as [[_ _ _ _ Hn] Em]. specialize (Hn i). rewrite Hd in Hn.
  destruct Hn as (d'&Hd'&Ht&_). exists d'. split; [done|]. destruct Ht as (_&_&_&_&_&T1&_&_&T2&T3).
  pose proof (i_view _ (reachable_inv1 _ (wait_reach s n Hs)) i) as V. unfold view_ok in V. rewrite Hd' in V. destruct V.
  rewrite E5, Em, E4 in v_listed. rewrite E7 in v_trans. rewrite E6 in v_rented. cbn in v_listed, v_trans, v_rented.
  unfold unengaged. split_and!; congruence.
Qed.

(** An auction. *)
Lemma wait_auction s i x : config_ok -> ed <= 1 -> reachable s -> auctions (s_auc s) !! i = Some x ->
  exists n, auctions (s_auc (wait s n)) !! i = None.
Proof.
  intros HC He Hs Hx. set (n := N.to_nat (a_end x - (s_now s + 1) + parallel_auctions)).
  destruct (fact_auction_ends_in_time (replicate n NextBlock) s i x parallel_auctions HC He Hs (wait_ok n) Hx) as (p&a&q&E&H).
  { clear. set (m := auction_actions). generalize parallel_auctions. intros k. nia. }
  { rewrite wait_blocks. subst n. rewrite N2Nat.id. lia. }
  destruct (wait_prefix _ _ _ _ E) as [Hp ->]. exists (S (length p)). rewrite wait_S. unfold wait. rewrite <- Hp.
  destruct H as (y&_&_&[[H _]|(w&amt&z&Ha&_)]); [exact H|discriminate Ha].
Qed.

(** A contract. *)
Lemma renewed_not_over s f i b c : config_ok -> reachable s -> contracts (s_rent s) !! i = Some c ->
  leaves_schedule f s NextBlock i b -> f ∈ rent_lists -> contracts (s_rent (next_block s)) !! i <> None ->
  r_rentee c <> None /\ ~ over c (s_now s + 1) /\ contracts (s_rent (next_block s)) !! i = Some c.
Proof.
  intros HC Hs Hc (Hin&Hout&Hor) Hf Hn. destruct Hor as [(_&Hb&[E|(c0&Hc0&Hc1&Hq)])|(w&k&Ha&_)]; [done| |discriminate Ha].
  assert (c0 = c) as -> by congruence. cbn [step] in *. rewrite now_next_block in *.
  destruct (turn_exists HookRent s HC) as (t&t'&Ht).
  destruct (fact_rent_turn s t t' HC Hs Ht) as (_&_&En&l&_&_&Hk&Hother&_). rewrite <- En in *.
  destruct (decide (i ∈ l)) as [Hl|Hl].
  { destruct (Hk i c Hl Hc1) as (H1&_&H2&_). done. }
  exfalso. assert (Hsch : scheduled s i (s_now s + 1 + period_of (r_duration c))).
  { apply (Hother i _ Hl). unfold scheduled. rewrite <- En. right; left. exact Hq. }
  pose proof (scheduled_uniq s i _ _ HC Hs Hsch (queue_scheduled f s i b Hf Hin)) as Eb.
  destruct (sreach_rent s HC (reachable_sreach s Hs)) as [HR _].
  pose proof (c_per _ _ (r_cok _ _ _ HR i c Hc)) as Hper. rewrite period_is in Eb. lia.
Qed.

Lemma wait_contract_same s i c n : config_ok -> reachable s -> contracts (s_rent s) !! i = Some c ->
  contracts (s_rent (wait s n)) !! i = Some c \/ contracts (s_rent (wait s n)) !! i = None.
Proof.
  intros HC Hs Hc. destruct (wait_rel s n Hs) as [[_ H _ _ _] _].
  destruct (contracts (s_rent (wait s n)) !! i) as [c'|] eqn:E; [left|by right].
  eapply lookup_weaken in E; [|exact H]. congruence.
Qed.
Lemma contract_waits s i c : config_ok -> reachable s -> contracts (s_rent s) !! i = Some c ->
  exists f b, f ∈ rent_lists /\ (i, b) ∈ f (queues (s_rent s)).
Proof.
  intros HC Hs Hc. pose proof (fact_rent_scheduled s i c HC Hs Hc) as H. unfold rent_lists.
  destruct (r_start c) as [st|]; [destruct (r_duration c) as [m|x]|].
  - exists q_fixed. destruct H as [H _]. eexists. split; [|exact H]. set_solver.
  - exists q_sub. destruct H as [(b&H&_) _]. exists b. split; [|exact H]. set_solver.
  - exists q_avail. destruct H as [H _]. eexists. split; [|exact H]. set_solver.
Qed.
(** A contract nobody has rented, or whose time is over, ends. *)
Lemma wait_over s i c : config_ok -> reachable s -> contracts (s_rent s) !! i = Some c ->
  r_rentee c = None \/ over c (s_now s) -> exists n, contracts (s_rent (wait s n)) !! i = None.
Proof.
  intros HC Hs Hc Hov. destruct (contract_waits s i c HC Hs Hc) as (f&b&Hf&Hin).
  set (n := N.to_nat (b - s_now s + rent_limit)).
  destruct (fact_rent_handled_in_time (replicate n NextBlock) s f i b HC Hs (wait_ok n) Hf Hin) as (p&a&q&E&H).
  { rewrite wait_blocks. subst n. rewrite N2Nat.id. lia. }
  destruct (wait_prefix _ _ _ _ E) as [Hp ->]. rewrite Hp in H. change (after s (replicate (length p) NextBlock)) with (wait s (length p)) in H.
  exists (S (length p)). rewrite wait_S. set (m := length p) in *.
  destruct (contracts (s_rent (next_block (wait s m))) !! i) as [c'|] eqn:Ec; [exfalso|done].
  destruct (wait_contract_same s i c m HC Hs Hc) as [E1|E1].
  - destruct (renewed_not_over (wait s m) f i b c HC (wait_reach s m Hs) E1 H Hf) as (H1&H2&_); [congruence|].
    destruct Hov as [?|(st&Hst&Hle)]; [done|]. apply H2. exists st. split; [done|]. rewrite wait_now. lia.
  - destruct (wait_rel s (S m) Hs) as [[_ Hsub _ _ _] _]. destruct (block_hrel (wait s m) (reachable_inv1 _ (wait_reach s m Hs))) as [_ Hs2 _ _ _].
    eapply lookup_weaken in Ec; [|exact Hs2]. congruence.
Qed.
Lemma wait_contract s i c : config_ok -> reachable s -> contracts (s_rent s) !! i = Some c ->
  exists n, contracts (s_rent (wait s n)) !! i = None.
Proof.
  intros HC Hs Hc. destruct (r_rentee c) as [r|] eqn:Er.
  2: { apply (wait_over s i c HC Hs Hc). by left. }
  destruct (r_start c) as [st|] eqn:Est.
  2: { pose proof (fact_rent_scheduled s i c HC Hs Hc) as H. rewrite Est in H. destruct H. congruence. }
  set (n := N.to_nat (st + total_of (r_duration c))).
  destruct (wait_contract_same s i c n HC Hs Hc) as [E|E]; [|by exists n].
  destruct (wait_over (wait s n) i c HC (wait_reach s n Hs) E) as [m Hm].
  { right. exists st. split; [done|]. rewrite wait_now. subst n. rewrite N2Nat.id. lia. }
  exists (n + m)%nat. by rewrite <- wait_wait.
Qed.

(** A transmission in the queue. *)
Lemma wait_queue s i b n : reachable s -> waits s i b -> s_now s + N.of_nat n < b -> waits (wait s n) i b.
Proof.
  intros Hs Hw. induction n as [|n IH]; intros Hn; [done|]. specialize (IH ltac:(lia)). rewrite wait_S.
  destruct (td_t_queue _ _ (block_only_due (wait s n))) as (l&E&Hl). unfold waits in *. rewrite E in IH.
  apply elem_of_app in IH as [H|H]; [|done]. apply Hl in H. rewrite now_next_block, wait_now in H. lia.
Qed.
Lemma wait_trans s i t b : config_ok -> reachable s -> under s i t -> waits s i b ->
  exists n, transs (s_trans (wait s n)) !! i = None.
Proof.
  intros HC Hs Hu Hw. set (n := N.to_nat (b - (s_now s + 1))).
  assert (Hw1 : waits (wait s n) i b \/ n = 0%nat).
  { destruct (decide (n = 0%nat)) as [|Hn]; [by right|left]. apply wait_queue; [done|done|]. subst n. lia. }
  assert (Hw2 : waits (wait s n) i b) by (destruct Hw1 as [?| ->]; done). clear Hw1.
  destruct (to_entry _ _ (reachable_tinv _ (wait_reach s n Hs)) i b Hw2) as (t'&Ht'&_).
  apply elem_of_list_split in Hw2 as (l1&l2&Hq).
  set (m := N.to_nat (nlen l1 + 1)).
  destruct (fact_waits_its_turn (replicate m NextBlock) (wait s n) i t' b (nlen l1) HC (wait_reach s n Hs) (wait_ok m) Ht') as (p&a&q&E&_&H).
  { exists l1, l2. done. }
  { rewrite wait_now. subst n. lia. }
  { rewrite wait_blocks. subst m. rewrite N2Nat.id. clear. set (k := trans_actions). generalize (nlen l1). intros z. nia. }
  destruct (wait_prefix _ _ _ _ E) as [Hp ->]. rewrite Hp in H. change (after ?s (replicate ?k NextBlock)) with (wait s k) in H.
  destruct H as [[_ [H _]]|(w&_&[(Ha&_)|(x&y&Ha&_)])]; [|discriminate Ha..].
  exists (n + S (length p))%nat. rewrite <- wait_wait, wait_S. exact H.
Qed.
End waiting.

Section consenting.
Context {C : Config}.

Lemma threshold_bound s : reachable s -> forall i t l k, under s i t -> asks (t_protocol t) l k -> k <= consent_limit.
Proof.
  intros Hs. induction Hs as [s (now&era&bal&lk&->&_)|s a Hs IH Ha]; [by intros i t l k H|].
  assert (Hk : forall s', s_trans s' = s_trans s -> forall i t l k, under s' i t -> asks (t_protocol t) l k -> k <= consent_limit).
  { intros s' E i t l k Hu. unfold under in Hu. rewrite E in Hu. by apply (IH i). }
  assert (Hsub : forall s', transs (s_trans s') ⊆ transs (s_trans s) -> forall i t l k, under s' i t -> asks (t_protocol t) l k -> k <= consent_limit).
  { intros s' E i t l k Hu. eapply lookup_weaken in Hu; [|exact E]. by apply (IH i). }
  apply (step_cases (fun s' => forall i t l k, under s' i t -> asks (t_protocol t) l k -> k <= consent_limit)); try done.
  - intros c s' Hm He. assert (pallet_of c = PTrans \/ pallet_of c <> PTrans) as [Hp|Hp] by (destruct (pallet_of c); auto).
    + destruct c; try discriminate Hp; try discriminate He. apply Hsub. cbn [exec_call root] in He. minv He; subst; st_cbn; by destruct k.
    + apply Hk. by eapply call_trans_kept.
  - intros o c s' _ Hm _ He. assert (pallet_of c = PTrans \/ pallet_of c <> PTrans) as [Hp|Hp] by (destruct (pallet_of c); auto).
    2: { apply Hk. by eapply call_trans_kept. }
    destruct c; try discriminate Hp; clear Hp; cbn [exec_call] in He;
      first [unfold signed in He; destruct o as [|w|]; try done | unfold root in He; destruct o as [|w|]; try done].
    + apply tset_ok in He as (d&b&q'&_&_&_&_&_&_&_&Hl&_&_&->). intros i t l k Hu Has. unfold under in Hu. st_cbn_in Hu.
      apply lookup_insert_Some in Hu as [[<- <-]|[_ Hu]]; [|by eapply IH]. apply asks_data in Has. by destruct (Hl _ _ Has) as (_&_&?&_).
    + apply tremove_ok in He as (d&t&_&_&_&_&_&_&_&E&_). apply Hsub. rewrite E. apply delete_subseteq.
    + apply treset_ok in He as (d&t0&b0&_&_&_&_&_&_&_&->). intros i t l k Hu Has. unfold under in Hu. st_cbn_in Hu.
      apply lookup_insert_Some in Hu as [[<- <-]|[_ Hu]]; [|by eapply IH]. apply asks_data in Has. discriminate Has.
    + apply tconsent_ok in He as (d&t&cl&th&_&_&_&_&_&_&_&_&H). cbv zeta in H. apply Hsub.
      destruct H as [(_&_&->)|[(_&b&_&_&_&_&->)|(_&_&_&->)]]; st_cbn; [done|done|apply delete_subseteq].
    + apply Hsub. minv He; subst; st_cbn; by destruct k.
  - intros _. apply Hsub. apply (block_hrel s (reachable_inv1 s Hs)).
  - intros e s' _ He. apply Hk. apply env_kept in He. unfold env_kept_from in He. by destruct_and! He.
Qed.

Lemma pick_new (l cs : list N) : NoDup l -> NoDup cs -> (forall w, w ∈ cs -> w ∈ l) -> nlen cs < nlen l -> exists w, w ∈ l /\ w ∉ cs.
Proof.
  intros Hl Hcs Hin Hlt. destruct (decide (Forall (fun w => w ∈ cs) l)) as [H|H].
  - exfalso. assert (length l <= length cs)%nat; [|unfold nlen in Hlt; lia].
    apply submseteq_length, NoDup_submseteq; [done|]. intros w Hw. rewrite Forall_forall in H. by apply H.
  - apply not_Forall_Exists in H; [|apply _]. apply Exists_exists in H as (w&Hw&Hn). by exists w.
Qed.

(** The missing consents, one after the other, when the block has passed. *)
Lemma consents_end n : forall s i t l k, config_ok -> reachable s -> i <= u32_max -> under s i t -> asks (t_protocol t) l k ->
  (forall w, w ∈ l -> w ∉ pots) -> (forall b, block_of (t_protocol t) = Some b -> b <= s_now s) -> (forall b, ~ waits s i b) ->
  k <= nlen (consents_of s i) + N.of_nat n ->
  exists acts d', Forall (fun a => exists w, w ∈ l /\ a = Extrinsic (Signed w) (C_add_consent i)) acts /\
    nfts (s_nft (after s acts)) !! i = Some d' /\ unengaged d'.
Proof.
  induction n as [|n IH]; intros s i t l k HC Hs Hi Hu Has Hp Hb Hw Hn.
  - exfalso. pose proof (reachable_tinv s Hs) as HT. apply asks_data in Has as Hd.
    destruct (to_list _ _ HT i t l k Hu Hd) as (_&Hpos&_). unfold consents_of in Hn.
    destruct (consents (s_trans s) !! i) as [cs|] eqn:Ec; cbn [default from_option id] in Hn; [|unfold nlen in Hn; cbn in Hn; lia].
    destruct (to_cons _ _ HT i cs Ec) as (t'&l'&k'&Ht'&Hd'&_&_&Hlt&_). unfold under in Hu. assert (t' = t) as -> by congruence.
    assert (k' = k) as -> by congruence. lia.
  - pose proof (reachable_tinv s Hs) as HT. apply asks_data in Has as Hd.
    destruct (to_list _ _ HT i t l k Hu Hd) as (Hnd&Hpos&Hkl).
    assert (Hcs : NoDup (consents_of s i) /\ (forall w, w ∈ consents_of s i -> w ∈ l) /\ nlen (consents_of s i) < k).
    { unfold consents_of. destruct (consents (s_trans s) !! i) as [cs|] eqn:Ec; cbn [default from_option id].
      - destruct (to_cons _ _ HT i cs Ec) as (t'&l'&k'&Ht'&Hd'&Hn1&Hn2&Hn3&_). unfold under in Hu. assert (t' = t) as -> by congruence.
        assert (k' = k) as -> by congruence. assert (l' = l) as -> by congruence. done.
      - split; [constructor|]. split; [intros w H; by apply elem_of_nil in H|]. unfold nlen; cbn; lia. }
    destruct Hcs as (Hc1&Hc2&Hc3). destruct (pick_new l (consents_of s i) Hnd Hc1 Hc2 ltac:(lia)) as (w&Hwl&Hwn).
    pose proof (threshold_bound s Hs i t l k Hu Has) as Hlim.
    destruct (proj2 (fact_trans_rule s w (C_add_consent i) (ok_ed HC) Hs ltac:(cbn; unfold fits; by apply N.leb_le) I)) as [s' Hs'].
    { cbn [trans_rule]. exists t, l, k. split; [done|]. split; [done|]. split; [done|]. split; [done|]. split; [lia|]. split.
      - intros b _ b'. by apply Hw.
      - intros b Eb Hlt. specialize (Hb b Eb). lia. }
    assert (Hok : action_ok (Extrinsic (Signed w) (C_add_consent i))) by (cbn; by apply Hp).
    assert (Est : step s (Extrinsic (Signed w) (C_add_consent i)) = s') by (cbn [step]; by rewrite Hs').
    assert (Hrs : reachable s') by (rewrite <- Est; by apply reach_step).
    apply dispatch_ok in Hs' as [_ He]. cbn [exec_call signed] in He.
    apply tconsent_ok in He as (d&t0&cl&th&Hd0&Hfl&Ht0&Hd1&_&_&_&_&H). cbv zeta in H. unfold under in Hu. assert (t0 = t) as -> by congruence.
    assert (cl = l) as -> by congruence. assert (th = k) as -> by congruence. fold (consents_of s i) in H.
    assert (Hnow : s_now s' = s_now s). { rewrite <- Est. by apply now_same. }
    assert (Hblk : forall b, end_block (t_protocol t) = Some b -> b <= s_now s). { intros b Eb. apply Hb. by destruct (t_protocol t). }
    destruct H as [(H1&H2&H3)|[(_&b&Eb&Hlt&_)|(H1&H2&H3&H4)]].
    + destruct (IH s' i t l k HC Hrs Hi) as (acts&d'&Hall&Hd'&Hun); try done.
      * unfold under. by rewrite H3.
      * by rewrite Hnow.
      * intros b. unfold waits. rewrite H3. apply Hw.
      * unfold consents_of. rewrite H3. st_cbn. rewrite lookup_insert. cbn [default from_option id].
        unfold nlen. rewrite app_length. cbn [length]. unfold nlen, consents_of in Hn. unfold consents_of. lia.
      * exists (Extrinsic (Signed w) (C_add_consent i) :: acts), d'. split; [constructor; eauto|]. unfold after. cbn [fold_left]. rewrite Est. done.
    + specialize (Hblk b Eb). lia.
    + exists [Extrinsic (Signed w) (C_add_consent i)], (put_transmission false (d <| owner := t_recipient t |>)).
      split; [constructor; [eauto|constructor]|]. unfold after. cbn [fold_left]. rewrite Est, H3. st_cbn. rewrite lookup_insert. split; [done|].
      destruct (only_transmission d (one_of s i d (reachable_inv1 s Hs) Hd0) Hfl) as (G1&G2&G3&G4&G5). unfold unengaged. split_and!; done.
Qed.
End consenting.

Section ending.
Context {C : Config}.

Lemma wait_idle s i t n : under s i t -> (forall b, ~ waits s i b) ->
  under (wait s n) i t /\ (forall b, ~ waits (wait s n) i b) /\ consents_of (wait s n) i = consents_of s i.
Proof.
  intros Hu Hw. induction n as [|n (H1&H2&H3)]; [done|]. rewrite wait_S. pose proof (block_only_due (wait s n)) as B. split_and!.
  - unfold under in *. destruct (td_transs _ _ B i) as [E|[(b&Hb&_) _]]; [by rewrite E|by destruct (H2 b)].
  - intros b Hb. destruct (td_t_queue _ _ B) as (l&E&_). apply (H2 b). unfold waits in *. rewrite E. apply elem_of_app. by right.
  - rewrite <- H3. unfold consents_of. by rewrite (td_trans _ _ B).
Qed.

Lemma id_small s i d : reachable s -> nfts (s_nft s) !! i = Some d -> i <= u32_max.
Proof. intros Hs Hd. pose proof (nft_old s i Hs ltac:(eauto)). pose proof (next_nft_range s Hs). lia. Qed.

Lemma recall s i d : reachable s -> nfts (s_nft s) !! i = Some d -> is_delegated (nstate d) = true ->
  exists d', nfts (s_nft (step s (Extrinsic (Signed (owner d)) (C_delegate_nft i None)))) !! i = Some d' /\ unengaged d'.
Proof.
  intros Hs Hd Hdl. destruct (only_delegated d (one_of s i d (reachable_inv1 s Hs) Hd) Hdl) as (E1&E2&E3&E4&E5).
  exists (put_delegated false d). split; [|unfold unengaged; split_and!; done].
  assert (exists s', dispatch (Signed (owner d)) (C_delegate_nft i None) s = (Ok tt, s') /\ nfts (s_nft s') !! i = Some (put_delegated false d)) as (s'&E&Hn).
  { eexists. split.
    - unfold dispatch. cbn [wf_call]. unfold fits. rewrite (proj2 (N.leb_le i u32_max)); cycle 1.
      { pose proof (nft_old s i Hs ltac:(eauto)). pose proof (next_nft_range s Hs). lia. }
      unfold transactional. cbn [exec_call signed]. unfold delegate_nft. cbn [default from_option id]. rewrite N.eqb_refl. cbn [negb].
      unfold get_nft, gets, unwrap, bind, ensure. rewrite Hd, N.eqb_refl, E1, E2, E3, E4, E5. reflexivity.
    - st_cbn. by rewrite lookup_insert. }
  cbn [step]. rewrite E. exact Hn.
Qed.

Lemma fact_can_end s i d : config_ok -> reachable s -> nfts (s_nft s) !! i = Some d ->
  is_syncing_secret (nstate d) = false -> is_syncing_capsule (nstate d) = false ->
  (is_Some (auctions (s_auc s) !! i) -> ed <= 1) ->
  (forall t l k, under s i t -> asks (t_protocol t) l k -> forall w, w ∈ l -> w ∉ pots) ->
  exists acts d', Forall action_ok acts /\ Forall (helps s i d) acts /\ nfts (s_nft (after s acts)) !! i = Some d' /\ unengaged d'.
Proof.
  intros HC Hs Hd Hs1 Hs2 Hed Hcl. pose proof (reachable_inv1 s Hs) as HI.
  destruct (decide (engagements d = 0)) as [H0|Hne].
  { exists [], d. split; [constructor|]. split; [constructor|]. split; [done|]. by apply unengaged_flags in H0. }
  pose proof (i_view s HI i) as V. unfold view_ok in V. rewrite Hd in V. destruct V.
  assert (Hpot : owner d ∉ pots). { intros H. by apply Hne, v_pot. }
  assert (Hone : forall c, (forall o, c <> C_mandate o) -> helps s i d (Extrinsic (Signed (owner d)) c) ->
    (exists d', nfts (s_nft (step s (Extrinsic (Signed (owner d)) c))) !! i = Some d' /\ unengaged d') ->
    exists acts d', Forall action_ok acts /\ Forall (helps s i d) acts /\ nfts (s_nft (after s acts)) !! i = Some d' /\ unengaged d').
  { intros c _ Hh (d'&Hd'&Hu). exists [Extrinsic (Signed (owner d)) c], d'. split; [constructor; [done|constructor]|].
    split; [constructor; [done|constructor]|]. done. }
  assert (Hblocks : forall n, Forall (helps s i d) (replicate n NextBlock)).
  { intros n. apply Forall_forall. intros a Ha. apply elem_of_replicate in Ha as [-> _]. by left. }
  assert (Hwait : forall n, is_delegated (nstate d) = false -> sales (s_mkt s) !! i = None ->
    auctions (s_auc (wait s n)) !! i = None -> contracts (s_rent (wait s n)) !! i = None -> transs (s_trans (wait s n)) !! i = None ->
    exists acts d', Forall action_ok acts /\ Forall (helps s i d) acts /\ nfts (s_nft (after s acts)) !! i = Some d' /\ unengaged d').
  { intros n E1 E2 E3 E4 E5. destruct (wait_free s i d n Hs Hd E1 Hs1 Hs2 E2 E3 E4 E5) as (d'&Hd'&Hu).
    exists (replicate n NextBlock), d'. split; [apply wait_ok|]. split; [apply Hblocks|]. done. }
  assert (Hnone : forall n, auctions (s_auc s) !! i = None -> auctions (s_auc (wait s n)) !! i = None).
  { intros n. destruct (wait_rel s n Hs) as [[H _ _ _ _] _]. by apply sub_None. }
  assert (Hnonec : forall n, contracts (s_rent s) !! i = None -> contracts (s_rent (wait s n)) !! i = None).
  { intros n. destruct (wait_rel s n Hs) as [[_ H _ _ _] _]. by apply sub_None. }
  assert (Hnonet : forall n, transs (s_trans s) !! i = None -> transs (s_trans (wait s n)) !! i = None).
  { intros n. destruct (wait_rel s n Hs) as [[_ _ H _ _] _]. by apply sub_None. }
  destruct (is_listed (nstate d)) eqn:Hl.
  { destruct (only_listed d v_one Hl) as (E1&E2&E3&E4&E5). rewrite E2 in v_rented. rewrite E3 in v_trans.
    symmetry in v_rented, v_trans. apply isS_false in v_rented, v_trans.
    destruct (sales (s_mkt s) !! i) as [sl|] eqn:Es.
    - apply (Hone (C_unlist_nft i)); [done|right; by left|].
      destruct (fact_unlist s i d Hs Hd ltac:(eauto)) as (s'&d'&Hdp&_&_&En&_&Hu). exists d'. cbn [step]. rewrite Hdp. cbn [snd]. by rewrite En, lookup_insert.
    - destruct (auctions (s_auc s) !! i) as [x|] eqn:Ex; [|done].
      destruct (wait_auction s i x HC (Hed ltac:(eauto)) Hs Ex) as [n Hn]. apply (Hwait n); auto. }
  symmetry in v_listed. apply orb_false_iff in v_listed as [Hns Hna]. apply isS_false in Hns, Hna.
  destruct (is_delegated (nstate d)) eqn:Hdl.
  { apply (Hone (C_delegate_nft i None)); [done|right; right; by left|]. by apply recall. }
  destruct (is_rented (nstate d)) eqn:Hr.
  { destruct (only_rented d v_one Hr) as (E1&E2&E3&E4&E5). rewrite E3 in v_trans. symmetry in v_trans. apply isS_false in v_trans.
    destruct (contracts (s_rent s) !! i) as [c|] eqn:Ec; [|done].
    destruct (wait_contract s i c HC Hs Ec) as [n Hn]. apply (Hwait n); auto. }
  symmetry in v_rented. apply isS_false in v_rented.
  destruct (is_transmission (nstate d)) eqn:Ht.
  2: { destruct Hne. by apply free_zero. }
  destruct (transs (s_trans s) !! i) as [t|] eqn:Et; [|done].
  destruct (decide (i ∈ (t_queue (s_trans s)).*1)) as [Hq|Hq].
  { apply q_fst_elem in Hq as [b Hb]. destruct (wait_trans s i t b HC Hs Et Hb) as [n Hn]. apply (Hwait n); auto. }
  assert (Hnw : forall b, ~ waits s i b). { intros b Hb. apply Hq, q_fst_elem. by exists b. }
  assert (exists l k, asks (t_protocol t) l k) as (l&k&Has).
  { destruct (t_protocol t) as [b|b|l k|l k b] eqn:Ep; [exfalso|exfalso|eexists _, _; by left|eexists _, _; right; eauto].
    - apply (Hnw b), (fact_timed_waits s i t b Hs Et). left. done.
    - apply (Hnw b), (fact_timed_waits s i t b Hs Et). right. done. }
  set (n := match block_of (t_protocol t) with Some b => N.to_nat (b - s_now s) | None => 0%nat end).
  destruct (wait_idle s i t n Et Hnw) as (W1&W2&W3).
  pose proof (id_small s i d Hs Hd) as Hiu.
  destruct (consents_end (N.to_nat k) (wait s n) i t l k HC (wait_reach s n Hs) Hiu W1 Has (Hcl t l k Et Has)) as (acts&d'&Hall&Hd'&Hu).
  - intros b Eb. rewrite wait_now. subst n. rewrite Eb. clear. lia.
  - exact W2.
  - rewrite N2Nat.id. clear. lia.
  - exists (replicate n NextBlock ++ acts), d'. split; [|split].
    + apply Forall_app. split; [apply wait_ok|]. eapply Forall_impl; [exact Hall|]. intros a (w&Hw&->). cbn. by apply (Hcl t l k).
    + apply Forall_app. split; [apply Hblocks|]. eapply Forall_impl; [exact Hall|]. intros a (w&Hw&->). right; right; right; right. exists t, l, k, w. done.
    + unfold after. rewrite fold_left_app. done.
Qed.
End ending.
