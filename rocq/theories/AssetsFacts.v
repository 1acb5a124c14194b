(** Nobody is made poorer by others. *)
From Verif Require Export SpecAssets OwedAll Tokens.
Local Open Scope N_scope.

Section assets.
Context {C : Config}.

(** Balance and deposits together. *)
Definition holds (s : state) (w : N) : N := free (s_bal s) w + deposited s w.

Lemma sum_sub_list (f : N -> N) (l l' : list N) : NoDup l' -> (forall i, i ∈ l' -> i ∈ l) -> sum_of (map f l') <= sum_of (map f l).
Proof.
  intros Hn. revert l. induction Hn as [|i l' Hi Hn IH]; intros l Hl; [cbn; lia|].
  assert (i ∈ l) as Hil by (apply Hl; by left). apply elem_of_list_split in Hil as (l1&l2&->).
  rewrite map_app. cbn [map]. rewrite sum_of_app. specialize (IH (l1 ++ l2)). rewrite map_app, sum_of_app in IH.
  change (f i + sum_of (map f l') <= sum_of (map f l1) + (f i + sum_of (map f l2))).
  cut (sum_of (map f l') <= sum_of (map f l1) + sum_of (map f l2)); [lia|].
  apply IH. intros j Hj. assert (j <> i) as Hne by (intros ->; done). specialize (Hl j). set_solver.
Qed.

Lemma gone_sum (f : N -> N) (g : list (N * N)) : (forall i x, (i, x) ∈ g -> f i = x) -> map snd g = map f (map fst g).
Proof.
  induction g as [|[i x] g IH]; intros H; [done|]. cbn [map fst snd]. rewrite IH; [|intros; apply H; by right].
  f_equal. symmetry. apply H. by left.
Qed.

(** In a block. *)
Lemma block_holds s w : config_ok -> reachable s -> w ∉ pots ->
  exists l, NoDup (l.*1) /\ (forall i fee, (i, fee) ∈ l -> owes s w i fee) /\
    holds s w <= holds (next_block s) w + sum_of (l.*2).
Proof.
  intros HC Hs Hw. destruct (turn_exists HookRent s HC) as (t&t'&Ht).
  destruct (fact_rent_turn s t t' HC Hs Ht) as (Hnow&Er&En&l0&Heff&Hdue&Hre&_).
  assert (Hrp : w <> rent_pot) by (intros ->; apply Hw; unfold pots; set_solver).
  exists (renewals t t' w l0). split_and!.
  - apply renewals_nodup, (re_nodup _ _ _ Heff).
  - intros i fee Hi. apply renewals_in in Hi as (Hi&c&c'&Hc&Hc'&Hr&->).
    destruct (re_in _ _ _ Heff i Hi) as (c0&Hc0&[Hn|Hk]); [congruence|]. assert (c0 = c) as -> by congruence.
    assert (c' = c) as -> by congruence. destruct (Hre i c Hi Hc') as (_&Hopen&Hov&(x&Hx)&_). destruct (Hdue i Hi) as (b&Hb&Hle).
    rewrite Er in Hc. destruct (reachable_rent s HC Hs) as [HR _]. pose proof (c_fee _ _ (r_cok _ _ _ HR _ _ Hc)) as Hf.
    exists c, b, x. split_and!; try done.
    + rewrite Hx in Hf. destruct (r_rent_fee c); done.
    + rewrite Hx in Hopen. cbn in Hopen. by destruct (new_terms x).
  - rewrite <- renewals_sum by done. pose proof (re_bal _ _ _ Heff w (or_introl Hrp)) as Hb.
    assert (deposited s w <= deposited (next_block s) w + sum_of (map (gets_by t t' w) l0)) as Hd.
    { unfold deposited. rewrite En, <- Er.
      assert (contracts (s_rent t') ⊆ contracts (s_rent t)) as Hsub.
      { apply map_subseteq_spec. intros i c Hc. destruct (decide (i ∈ l0)) as [Hi|Hi].
        - destruct (re_in _ _ _ Heff i Hi) as (c0&Hc0&[Hn|Hk]); congruence.
        - by rewrite <- (re_out _ _ _ Heff i Hi). }
      destruct (gone_list (fun c => end_gets c w) _ _ Hsub) as (g&Hgn&Hg&->).
      rewrite (gone_sum (gets_by t t' w)).
      - cut (sum_of (map (gets_by t t' w) (map fst g)) <= sum_of (map (gets_by t t' w) l0)); [lia|].
        apply sum_sub_list; [done|]. intros i Hi. apply elem_of_list_fmap in Hi as ([j x]&->&Hi). destruct (Hg _ _ Hi) as (c&Hc&Hc'&_).
        cbn [fst]. destruct (decide (j ∈ l0)) as [|Hj]; [done|]. rewrite (re_out _ _ _ Heff j Hj) in Hc'. congruence.
      - intros i x Hi. destruct (Hg _ _ Hi) as (c&Hc&Hc'&Hx&_). unfold gets_by. by rewrite Hc, Hc'. }
    destruct Ht as (l1&l2&El&Et&Et'). pose proof (reachable_pg s w Hs) as Hp.
    assert (Hnd : NoDup hook_order). { rewrite (ok_hooks HC). repeat (apply NoDup_cons; split; [set_solver|]). apply NoDup_nil_2. }
    rewrite El in Hnd. apply NoDup_app in Hnd as (_&Hdj&Hnd). apply NoDup_cons in Hnd as [Hl2 _].
    assert (Hl1 : HookRent ∉ l1). { intros H. apply (Hdj _ H). by left. }
    assert (P1 : pg w (free (s_bal s) w) t). { rewrite Et. apply pg_hooks; done. }
    assert (P2 : pg w (free (s_bal t') w) (next_block s)).
    { unfold next_block, run_hooks. rewrite El, fold_left_app. cbn [fold_left]. rewrite <- Et, <- Et'. apply pg_hooks; [done|done|].
      split; [|lia]. assert (Hst : sreach t'). { rewrite Et', Et. apply sr_hook, sreach_hooks, sr_tick. by apply reachable_sreach. }
      apply (sreach_binv _ Hst). }
    apply pg_le in P1, P2. unfold holds. lia.
Qed.

(** Deposits of [w] after a rent call of somebody else. *)
Lemma dep_put s s' i c c' w : contracts (s_rent s) !! i = Some c -> contracts (s_rent s') = <[i := c']> (contracts (s_rent s)) ->
  end_gets c w <= end_gets c' w -> deposited s w <= deposited s' w.
Proof. intros Hc E Hle. unfold deposited. rewrite E. pose proof (msumf_insert (fun c => end_gets c w) _ i c c' Hc). cbn beta in *. lia. Qed.
Lemma dep_new s s' i c' w : contracts (s_rent s) !! i = None -> contracts (s_rent s') = <[i := c']> (contracts (s_rent s)) ->
  deposited s w <= deposited s' w.
Proof. intros Hc E. unfold deposited. rewrite E, msumf_new by done. lia. Qed.
Lemma dep_del s s' i c w : contracts (s_rent s) !! i = Some c -> contracts (s_rent s') = delete i (contracts (s_rent s)) ->
  deposited s w = end_gets c w + deposited s' w.
Proof. intros Hc E. unfold deposited. by rewrite E, (msumf_delete _ _ _ _ Hc). Qed.

Lemma call_deposited s who c s' w : config_ok -> reachable s -> w ∉ pots -> who <> w -> is_mandate c = false ->
  (forall i, c <> C_accept_rent_offer i w) -> dispatch (Signed who) c s = (Ok tt, s') -> holds s w <= holds s' w.
Proof.
  intros HC Hs Hw Hne Hm Hacc Hd. pose proof Hd as He. apply dispatch_ok in He as [_ He].
  assert (free (s_bal s) w <= free (s_bal s') w) as Hf.
  { apply pg_le. eapply pres_ge; [|exact He|by apply reachable_pg]. by apply pg_signed. }
  assert (deposited s w <= deposited s' w -> holds s w <= holds s' w) as Hk by (unfold holds; lia).
  pose proof (call_kept _ _ _ _ Hm He) as K. unfold kept in K.
  destruct c; cbn [pallet_of] in K; try (apply Hk; unfold deposited; destruct_and! K; by match goal with E : s_rent _ = _ |- _ => rewrite E end); try discriminate Hm.
  all: clear K Hm; cbn [exec_call] in He; unfold signed in He.
  - apply Hk. apply rcreate_ok in He as (bb&dd&Hd1&_&Hr&_&_&_&_&_&_&_&_&_&_&E). eapply dep_new; [|by rewrite E].
    pose proof (i_view s (reachable_inv1 s Hs) id) as V. unfold view_ok in V. rewrite Hd1 in V.
    destruct (contracts (s_rent s) !! id) as [c|] eqn:Ec; [|done]. exfalso.
    apply v_rented in V. unfold rentable_state in Hr. rewrite V in Hr. cbn in Hr. by rewrite ?andb_false_r in Hr.
  - apply rcancel_ok in He as (c&b1&Hc&Hr&Hn&_&_&E). apply Hk.
    rewrite (dep_del s s' id c w Hc) by (by rewrite E). unfold end_gets, at_acc. rewrite Hn, decide_False by congruence. lia.
  - destruct (fact_revoke s who id s' HC Hs Hd) as (c&other&own&theirs&share&Hc&Hrv&_&_&Hb&E&_).
    unfold holds. rewrite (dep_del s s' id c w Hc E). specialize (Hb w).
    assert (w <> rent_pot) as Hrp by (intros ->; apply Hw; unfold pots; set_solver). specialize (Hb (or_introl Hrp)).
    unfold at_acc in Hb. rewrite (decide_False (P := w = rent_pot)), (decide_False (P := w = who)) in Hb by congruence.
    assert (end_gets c w <= if decide (w = other) then token_deposit own - share + token_deposit theirs else 0) as Hle; [|lia].
    unfold end_gets, at_acc. destruct Hrv as [(Ew&_&Ht&->&->)|(Hwr&Ht&->&->&->)]; rewrite Ht.
    + rewrite (decide_False (P := w = r_renter c)) by congruence. destruct (decide (w = other)); lia.
    + rewrite (decide_False (P := w = who)) by congruence. destruct (decide (w = r_renter c)); lia.
  - apply Hk. apply rent_ok in He as (c&b1&b2&Hc&_&Hn&_&_&_&_&_&_&E). eapply dep_put; [exact Hc|by rewrite E|].
    unfold end_gets. st_cbn. rewrite Hn. lia.
  - apply Hk. unfold deposited. apply roffer_ok in He as (c&_&_&_&_&_&_&_&_&_&E). by rewrite E.
  - apply Hk. destruct (fact_accept_charges s who id rentee s' Hs Hd) as (c&Hc&Hn&_&_&E&_). eapply dep_put; [exact Hc|exact E|].
    unfold end_gets. st_cbn. rewrite Hn. lia.
  - apply Hk. unfold deposited. apply rretract_ok in He as (l&k&_&_&_&E). by rewrite E.
  - apply Hk. apply rchange_ok in He as (c&o&Hc&_&_&_&_&_&_&_&E). eapply dep_put; [exact Hc|by rewrite E|]. unfold end_gets. by st_cbn.
  - apply Hk. apply raccterms_ok in He as (c&sub&Hc&_&_&_&_&_&_&_&_&_&E). eapply dep_put; [exact Hc|by rewrite E|]. unfold end_gets. by st_cbn.
Qed.

(** Only signed calls and blocks change contracts. *)
Lemma rent_same s a : (forall w c, a = Extrinsic (Signed w) c -> is_mandate c = true) -> a <> NextBlock -> s_rent (step s a) = s_rent s.
Proof.
  intros Hs Hb. apply (step_cases (fun t => s_rent t = s_rent s)); try done.
  - intros c s' Hm Hc. pose proof (call_kept _ _ _ _ Hm Hc) as K. unfold kept in K.
    destruct c; cbn [pallet_of] in K; try (by destruct_and! K); try discriminate Hm; discriminate Hc.
  - intros o c s' -> Hm _ Hc. destruct o as [|w|n]; [|by rewrite (Hs w c eq_refl) in Hm|].
    all: pose proof (call_kept _ _ _ _ Hm Hc) as K; unfold kept in K.
    all: destruct c; cbn [pallet_of] in K; try (by destruct_and! K); try discriminate Hm; discriminate Hc.
  - intros e s' -> Hc. apply env_kept in Hc. unfold env_kept_from in Hc. by destruct_and! Hc.
Qed.

(** The renter accepts an offer of [w]. *)
Lemma accept_holds s who i s' w : reachable s -> w ∉ pots -> dispatch (Signed who) (C_accept_rent_offer i w) s = (Ok tt, s') ->
  exists c, contracts (s_rent s) !! i = Some c /\ r_rentee c = None /\ offered s i w /\ r_renter c = who /\
    holds s w <= holds s' w + token_fee (r_rent_fee c).
Proof.
  intros Hs Hw Hd. destruct (fact_accept_charges s who i w s' Hs Hd) as (c&Hc&Hn&Hr&Ho&E&Hp). exists c. split_and!; try done.
  unfold holds, deposited. rewrite E. specialize (Hp w). unfold pays2, at_acc in Hp. rewrite decide_True in Hp by done.
  pose proof (msumf_insert (fun c => end_gets c w) _ i c (c <| r_rentee := Some w |> <| r_start := Some (s_now s) |>) Hc) as H.
  cbn beta in H. unfold end_gets at 2 4 in H. st_cbn_in H. rewrite Hn in H. unfold at_acc in H.
  rewrite (decide_True (P := w = w)) in H by done. unfold at_acc in *.
  set (x := msum _) in *. set (y := msum _) in *. lia.
Qed.

Lemma fact_assets s a w : config_ok -> ed <= 1 -> reachable s -> action_ok a -> w ∉ pots ->
  (forall c, a <> Extrinsic (Signed w) c) -> (forall e, a = Env e -> ~ env_takes e w) ->
  exists l r, NoDup (map fst l) /\ (forall i x, (i, x) ∈ l -> won s (step s a) w i x) /\
    NoDup (map fst r) /\ (forall i fee, (i, fee) ∈ r -> pays_rent s a w i fee) /\
    assets s w <= assets (step s a) w + sum_of (map snd l) + sum_of (map snd r).
Proof.
  intros HC He Hs Ha Hw Hne Henv. destruct (only_won_step w s a HC He Hs Ha Hne) as (l&Hl1&Hl2&Hl3).
  cut (exists r, NoDup (map fst r) /\ (forall i fee, (i, fee) ∈ r -> pays_rent s a w i fee) /\
    holds s w <= holds (step s a) w + sum_of (map snd r)).
  { intros (r&H1&H2&H3). exists l, r. split_and!; try done. unfold assets, holds in *. lia. }
  clear l Hl1 Hl2 Hl3.
  assert (Hnil : forall t, holds s w <= holds t w -> exists r : list (N * N), NoDup (map fst r) /\
    (forall i fee, (i, fee) ∈ r -> pays_rent s a w i fee) /\ holds s w <= holds t w + sum_of (map snd r)).
  { intros t Ht. exists []. split_and!; [constructor|by intros ? ? ?%elem_of_nil|cbn; lia]. }
  pose proof (reachable_pg s w Hs) as Hp.
  assert (Hsame : s_rent (step s a) = s_rent s -> pg w (free (s_bal s) w) (step s a) -> holds s w <= holds (step s a) w).
  { intros E Hg. unfold holds, deposited. rewrite E. apply pg_le in Hg. lia. }
  destruct a as [o c| |e].
  - destruct (is_mandate c) eqn:Hm.
    + apply Hnil, Hsame; [apply rent_same; [by intros ? ? [= _ <-]|done]|]. apply step_extrinsic_pg; [by apply pg_mandate|done].
    + destruct o as [|who|n].
      * apply Hnil, Hsame; [by apply rent_same|]. apply step_extrinsic_pg; [by apply pg_root|done].
      * clear Hsame. assert (who <> w) as Hww by (intros ->; by eapply Hne).
        cbn [step]. destruct (dispatch_cases (Signed who) c s) as [(s'&_&Hc&Hd)|[x Hd]]; rewrite Hd; cbn [snd]; [|by apply Hnil].
        assert ((exists i, c = C_accept_rent_offer i w) \/ (forall i, c <> C_accept_rent_offer i w)) as [(i&->)|Hacc].
        { destruct c; try (right; congruence). destruct (decide (rentee = w)) as [->|]; [left; eauto|right; congruence]. }
        -- destruct (accept_holds s who i s' w Hs Hw Hd) as (k&Hk&Hn&Ho&Hr&Hle). exists [(i, token_fee (r_rent_fee k))]. split_and!.
           ++ repeat constructor. apply not_elem_of_nil.
           ++ intros j f Hj%elem_of_list_singleton. injection Hj as -> ->. right. exists k. subst who. done.
           ++ unfold sum_of. cbn. lia.
        -- apply Hnil. by eapply call_deposited.
      * apply Hnil, Hsame; [by apply rent_same|]. apply step_extrinsic_pg; [by apply pg_other|done].
  - destruct (block_holds s w HC Hs Hw) as (r&H1&H2&H3). exists r. split_and!; [done| |done]. intros i fee Hi. left. by auto.
  - apply Hnil, Hsame; [by apply rent_same|]. apply env_pays; [done|by apply Henv|done].
Qed.

Lemma fact_assets_run w acts : forall s, config_ok -> ed <= 1 -> reachable s -> Forall action_ok acts -> w ∉ pots -> by_others w acts ->
  exists x, spends w s acts x /\ assets s w <= assets (after s acts) w + x.
Proof.
  induction acts as [|a acts IH]; intros s HC He Hs Hok Hw Hby.
  - exists 0. split; [constructor|]. cbn. lia.
  - apply Forall_cons in Hok as [Ha Hok]. destruct (Hby a ltac:(by left)) as [H1 H2].
    destruct (fact_assets s a w HC He Hs Ha Hw H1 H2) as (l&r&L1&L2&R1&R2&Hle).
    destruct (IH (step s a) HC He) as (x&Hx&Hle2); [by apply reach_step|done|done|intros b Hb; apply Hby; by right|].
    exists (sum_of (map snd l) + sum_of (map snd r) + x). split; [by econstructor|].
    change (after s (a :: acts)) with (after (step s a) acts). lia.
Qed.

Lemma sublist_mem {A} (k l : list A) x : sublist k l -> x ∈ k -> x ∈ l.
Proof. induction 1; intros H0; [done|apply elem_of_cons in H0 as [->|?]; [by left|right; auto]|right; auto]. Qed.

(** Nobody gets involved by others. *)
Lemma bids_kept s a w : config_ok -> reachable s -> (forall c, a <> Extrinsic (Signed w) c) ->
  (forall i y x, auctions (s_auc s) !! i = Some y -> (w, x) ∉ a_bidders y) ->
  forall i y x, auctions (s_auc (step s a)) !! i = Some y -> (w, x) ∉ a_bidders y.
Proof.
  intros HC Hs Hne H0. set (R := fun t => forall i y x, auctions (s_auc t) !! i = Some y -> (w, x) ∉ a_bidders y).
  change (R (step s a)). assert (Hk : forall t, s_auc t = s_auc s -> R t) by (intros t E; unfold R; by rewrite E).
  assert (Hsub : forall t, auctions (s_auc t) ⊆ auctions (s_auc s) -> R t).
  { intros t E i y x Hy. eapply H0. by eapply lookup_weaken. }
  assert (Hput : forall t i y, auctions (s_auc t) = <[i := y]> (auctions (s_auc s)) -> (forall x, (w, x) ∉ a_bidders y) -> R t).
  { intros t i y E Hy j z x Hj. rewrite E in Hj. apply lookup_insert_Some in Hj as [[-> <-]|[_ Hj]]; [apply Hy|by eapply H0]. }
  apply step_cases; try done.
  - intros c s' Hm Hc. apply Hk. pose proof (call_kept _ _ _ _ Hm Hc) as K. unfold kept in K.
    destruct c; cbn [pallet_of] in K; try (by destruct_and! K); try discriminate Hm; discriminate Hc.
  - intros o c s' -> Hm _ Hc. pose proof (call_kept _ _ _ _ Hm Hc) as K. unfold kept in K.
    destruct c; cbn [pallet_of] in K; try (apply Hk; by destruct_and! K); try discriminate Hm.
    all: clear K Hm; cbn [exec_call] in Hc; unfold signed in Hc; destruct o as [|who|]; try done.
    all: assert (Hw : who <> w) by (intros ->; by eapply Hne).
    + apply create_ok in Hc as (d&m&Hd&_&Hu&_&_&_&_&_&_&_&_&_&_&_&E). eapply Hput; [by rewrite E|]. cbn. intros x. apply not_elem_of_nil.
    + apply cancel_ok in Hc as (d&y&_&_&_&_&_&_&E). apply Hsub. rewrite E. apply delete_subseteq.
    + apply end_ok in Hc as (d&y&m&f&v&x&rest&b'&_&_&_&_&_&_&_&_&_&_&E). apply Hsub. rewrite E. apply delete_subseteq.
    + apply bid_ok in Hc as (y&b'&l&a'&e&Hy&_&_&_&_&Hlim&El&_&Ee&_&_&E). eapply Hput; [by rewrite E|].
      destruct (extend_fields _ _ _ _ Ee) as (_&_&_&_&Ebs&_). change (a_bidders a' = snd (insert_new_bid who amount l)) in Ebs.
      intros x Hx. rewrite Ebs in Hx. destruct (insert_split who amount l) as (k&Hkl&Es&_). rewrite Es in Hx.
      apply elem_of_app in Hx as [Hx|Hx%elem_of_list_singleton]; [|congruence].
      apply (sublist_mem _ _ _ Hkl) in Hx. rewrite El in Hx. eapply H0; [exact Hy|]. eapply sublist_mem; [apply q_del_sub|exact Hx].
    + apply unbid_ok in Hc as (y&v&b'&Hy&_&_&_&_&_&E). eapply Hput; [by rewrite E|]. intros x Hx.
      eapply H0; [exact Hy|]. eapply sublist_mem; [apply q_del_sub|exact Hx].
    + apply buy_ok in Hc as (d&y&m&f&b'&_&_&_&_&_&_&_&_&_&_&_&E). apply Hsub. rewrite E. apply delete_subseteq.
    + apply claim_ok in Hc as (v&b'&_&_&_&_&E). apply Hsub. by rewrite E.
  - intros _. apply Hsub. apply (block_hrel _ (reachable_inv1 _ Hs)).
  - intros e s' -> Hc. apply Hk. by apply env_kept in Hc as (_&_&_&?&_).
Qed.

Lemma fact_uninvolved s a w : config_ok -> reachable s -> action_ok a -> (forall c, a <> Extrinsic (Signed w) c) ->
  uninvolved s w -> uninvolved (step s a) w.
Proof.
  intros HC Hs Ha Hne (Hb&Hr&Ho). split_and!.
  - by apply bids_kept.
  - intros i c' Hc' Ht. destruct (contracts (s_rent s) !! i) as [c|] eqn:Hc.
    + pose proof (Hr i c Hc) as Hn. pose proof (fact_contract_step s a i c c' HC Hs Ha Hc Hc') as Hst.
      destruct Hst as [->|[(t'&_&->&Hor)|[(fee&p&md&ch&z&_&_&_&->)|(t'&fee&p&md&ch&z&_&_&_&_&_&_&_&_&->)]]]; try done.
      cbn in Ht. injection Ht as ->. destruct Hor as [E|(E&Hof)]; [by eapply Hne|].
      apply (Ho i). unfold offered. destruct (offers (s_rent s) !! i) as [l|]; [by exists l|by apply elem_of_nil in Hof].
    + by destruct (fact_contract_new s a i c' HC Hs Ha Hc Hc') as (v&di&acc&cr&fee&f1&f2&_&_&->).
  - intros i Hi. destruct (fact_offer_made s a i w Hs Ha Hi (Ho i)) as (c&E&_). by eapply Hne.
Qed.

Lemma fact_uninvolved_keeps s a w : config_ok -> ed <= 1 -> reachable s -> action_ok a -> w ∉ pots ->
  (forall c, a <> Extrinsic (Signed w) c) -> (forall e, a = Env e -> ~ env_takes e w) ->
  uninvolved s w -> uninvolved (step s a) w /\ assets s w <= assets (step s a) w.
Proof.
  intros HC He Hs Ha Hw H1 H2 Hu. split; [by apply fact_uninvolved|]. destruct Hu as (Hb&Hr&Ho).
  destruct (fact_assets s a w HC He Hs Ha Hw H1 H2) as (l&r&_&L&_&R&Hle).
  destruct l as [|[i x] l]; [destruct r as [|[i x] r]|].
  - cbn in Hle. lia.
  - exfalso. destruct (R i x ltac:(by left)) as [(_&c&b&z&Hc&Ht&_)|(c&_&_&Hof&_)]; [by eapply Hr|by eapply Ho].
  - exfalso. destruct (L i x ltac:(by left)) as (y&Hy&Hl&_). eapply (Hb i y x Hy). apply last_Some in Hl as [k ->]. apply elem_of_app. right. by left.
Qed.
Lemma fact_uninvolved_run w acts : forall s, config_ok -> ed <= 1 -> reachable s -> Forall action_ok acts -> w ∉ pots -> by_others w acts ->
  uninvolved s w -> assets s w <= assets (after s acts) w.
Proof.
  induction acts as [|a acts IH]; intros s HC He Hs Hok Hw Hby Hu; [done|].
  apply Forall_cons in Hok as [Ha Hok]. destruct (Hby a ltac:(by left)) as [H1 H2].
  destruct (fact_uninvolved_keeps s a w HC He Hs Ha Hw H1 H2 Hu) as [Hu2 Hle].
  etrans; [exact Hle|]. apply (IH (step s a)); try done; [by apply reach_step|intros b Hb; apply Hby; by right].
Qed.
End assets.
