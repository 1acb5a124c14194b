(** The rent hook in reachable states: no contract is lost, every payment out of the account
    succeeds. *)
From Verif Require Export RentEff Ahead.
Local Open Scope N_scope.

Section rhook.
Context {C : Config}.

(** The invariant inside the loops, with [q] the queues as the loops have them. *)
Record rlinv (s : state) (q : rent_queues) : Prop := {
  rl_inv1 : inv1 s;
  rl_binv : binv s;
  rl_lock : nolock s;
  rl_rok : rok (s_now s) (contracts (s_rent s)) q;
  rl_solv : rsolv s
}.

Lemma finished_now i s : s_now (snd (handle_finished i s)) = s_now s.
Proof.
  assert (H : pres (fun t => s_now t = s_now s) (handle_finished i)) by (pres_go; st_cbn; assumption). by apply H.
Qed.

(** A contract on the books can always be closed. *)
Lemma finished_runs s q i c : config_ok -> rlinv s q -> contracts (s_rent s) !! i = Some c ->
  exists s', handle_finished i s = (Ok tt, s') /\
    rlinv s' (mkQueues (q_del i (q_fixed q)) (q_del i (q_sub q)) (q_del i (q_avail q))) /\
    contracts (s_rent s') = delete i (contracts (s_rent s)) /\ s_now s' = s_now s /\ rent_effects s [i] s'.
Proof.
  intros HC [HI HB HL HR HS] Hc.
  pose proof (r_cok _ _ _ HR _ _ Hc) as Hok.
  pose proof (zb_whole _ (ok_rent_ed HC) (c_cf1 _ _ Hok)) as W1. pose proof (zb_whole _ (ok_rent_ed HC) (c_cf2 _ _ Hok)) as W2.
  pose proof (rok_del _ _ _ i HR) as HRd. pose proof (whole_rescrow _ _ _ (ok_rent_ed HC) HRd) as WR.
  pose proof HS as HS0. unfold rsolv in HS. rewrite (rescrow_del _ _ _ Hc) in HS.
  set (R := rescrow (delete i (contracts (s_rent s)))) in *. unfold rdue in HS.
  pose proof (nolock_frozen s rent_pot HL rpot_in) as Hfr.
  destruct (can_pay_whole rent_pot (r_renter c) _ (s_bal s) W1 HB Hfr ltac:(lia)) as [b1 T1].
  assert (exists b2, match r_rentee c with Some t => transfer_b rent_pot t (cf_amount (r_rentee_cf c)) false b1 = Ok b2 | None => b2 = b1 end /\
    R <= free b2 rent_pot) as (b2&T2&Hend).
  { destruct (r_rentee c) as [t|]; cbn [isS] in HS.
    - pose proof (rpot_pays _ _ _ _ _ (R + cf_amount (r_rentee_cf c)) T1 ltac:(by apply whole_add) ltac:(lia)) as G1.
      destruct (can_pay_whole rent_pot t _ b1 W2) as [b2 T2].
      + by eapply transfer_bsum.
      + rewrite (frozen_locks _ _ _ (transfer_locks _ _ _ _ _ _ T1)). done.
      + lia.
      + exists b2. split; [done|]. eapply rpot_pays; [exact T2|done|lia].
    - exists b1. split; [done|]. eapply rpot_pays; [exact T1|done|lia]. }
  pose proof (inv1_pres_handle_finished i s HI) as HI'.
  assert (HB' : binv (snd (handle_finished i s))). { assert (pres binv (handle_finished i)) as Hp by (repeat bal_step). by apply Hp. }
  assert (HL' : nolock (snd (handle_finished i s))). { assert (pres nolock (handle_finished i)) as Hp by (repeat lock_step). by apply Hp. }
  pose proof (finished_now i s) as En.
  destruct (handle_finished i s) as [[[]|e] s'] eqn:E; cbn [snd] in *.
  - destruct (finished_ok _ _ _ _ E) as (c'&b1'&b2'&Hc'&T1'&T2'&Eb&Er).
    assert (c' = c) as -> by congruence. assert (b1' = b1) as -> by congruence.
    assert (b2' = b2) as -> by (destruct (r_rentee c); congruence).
    exists s'. split; [done|]. split; [|rewrite Er, En; split; [done|]; split; [done|by apply effects_finish]]. split; try done.
    + rewrite En, Er. exact HRd.
    + unfold rsolv. rewrite Er, Eb. exact Hend.
  - exfalso. clear HI' HB' HL' En.
    destruct (handle_finished_cases s i HI) as [(e'&b&Hh)|(c'&d&b&s1&Hc'&Hd&Hh&_)]; [|congruence].
    assert (exists d, nfts (s_nft s) !! i = Some d) as [d Hd].
    { pose proof (i_view s HI i) as V. unfold view_ok in V. destruct (nfts (s_nft s) !! i); [eauto|]. apply vn_con in V. congruence. }
    clear Hh e' b.
    unfold handle_finished, get_contract, get_nft, bind, gets, unwrap in E. rewrite Hc, Hd in E. unfold transfer at 1, lift_bal at 1 in E. rewrite T1 in E.
    assert (Hch : forall j w (t : state), (exists dj, nfts (s_nft t) !! j = Some dj) ->
      exists t', change_nft_ownership j w t = (Ok tt, t') /\ forall k, is_Some (nfts (s_nft t) !! k) -> is_Some (nfts (s_nft t') !! k)).
    { intros j w t [dj Hj]. unfold change_nft_ownership, get_nft, bind, gets, unwrap. rewrite Hj. eexists. split; [reflexivity|].
      st_cbn. intros k Hk. destruct (decide (j = k)) as [->|]; [by rewrite lookup_insert|by rewrite lookup_insert_ne]. }
    set (s1 := s <| s_bal := b1 |>) in E.
    assert (exists s2, on_some (r_rentee c) (fun rentee => transfer rent_pot rentee (cf_amount (r_rentee_cf c)) false) s1 = (Ok tt, s2) /\ s_nft s2 = s_nft s) as (s2&E2&N2).
    { destruct (r_rentee c); cbn [on_some]; [|eexists; split; [reflexivity|done]]. unfold transfer, lift_bal. subst s1. st_cbn. rewrite T2. eexists. split; [reflexivity|]. done. }
    rewrite E2 in E.
    assert (Hex : forall j, secures c j -> is_Some (nfts (s_nft s) !! j)).
    { intros j Hj. by eapply deposit_exists. }
    assert (exists s3, on_some (cf_nft (r_renter_cf c)) (fun j => change_nft_ownership j (r_renter c)) s2 = (Ok tt, s3) /\
       forall k, is_Some (nfts (s_nft s) !! k) -> is_Some (nfts (s_nft s3) !! k)) as (s3&E3&N3).
    { destruct (cf_nft (r_renter_cf c)) as [j|] eqn:Ej; cbn [on_some]; [|eexists; split; [reflexivity|by rewrite N2]].
      destruct (Hch j (r_renter c) s2) as (t'&Et&Hk'); [|exists t'; split; [done|]; intros k Hkk; apply Hk'; by rewrite N2].
      rewrite N2. apply Hex. left. destruct (r_renter_cf c); try done. by injection Ej as ->. }
    rewrite E3 in E.
    assert (exists s4, on_some (r_rentee c) (fun rentee => on_some (cf_nft (r_rentee_cf c)) (fun j => change_nft_ownership j rentee)) s3 = (Ok tt, s4)) as (s4&E4).
    { destruct (r_rentee c) as [t|] eqn:Et; cbn [on_some]; [|by eexists].
      destruct (cf_nft (r_rentee_cf c)) as [j|] eqn:Ej; cbn [on_some]; [|by eexists].
      destruct (Hch j t s3) as (t'&Et'&_); [|by exists t']. apply N3, Hex. right. rewrite Et. split; [eauto|]. destruct (r_rentee_cf c); try done. by injection Ej as ->. }
    rewrite E4 in E. unfold set_nft, del_contract, mod_nft, mod_rent, modify in E. done.
Qed.

(** What a loop over the queue [q] did: it handled [l]. *)
Record looped (ren : bool) (now : N) (q : list (N * N)) (s : state) (l : list N) (q' : list (N * N)) (s' : state) : Prop := {
  lo_out : forall i, i ∉ l -> contracts (s_rent s') !! i = contracts (s_rent s) !! i /\ forall b, (i, b) ∈ q' <-> (i, b) ∈ q;
  lo_in : forall i, i ∈ l -> exists c b, contracts (s_rent s) !! i = Some c /\ (i, b) ∈ q /\ b <= now /\
    (contracts (s_rent s') !! i = None /\ i ∉ q'.*1 \/
     ren = true /\ contracts (s_rent s') !! i = Some c /\ (i, now + duration_or_period (r_duration c)) ∈ q' /\
     terms_changed (r_duration c) = false /\ has_ended c now = false);
  lo_nd : NoDup l;
  lo_eff : rent_effects s l s';
  lo_rank : forall i b n, b <= now -> i ∉ l -> ahead q i b n -> exists m, m + nlen l <= n /\ ahead q' i b m
}.
Lemma looped_nil ren now q s : looped ren now q s [] q s.
Proof.
  split; [done| |constructor|apply effects_nil|]; [by intros i ?%elem_of_nil|]. intros i b n _ _ H. exists n. cbn. split; [lia|done].
Qed.
Lemma looped_cons ren now q s i q1 s1 l q' s' :
  inv1 s -> looped ren now q s [i] q1 s1 -> NoDup (q1.*1) ->
  (forall c, contracts (s_rent s) !! i = Some c -> 0 < duration_or_period (r_duration c)) ->
  looped ren now q1 s1 l q' s' -> looped ren now q s (i :: l) q' s'.
Proof.
  intros HI [O1 I1 _ F1 K1] Hnd Hpos [O2 I2 D2 F2 K2].
  assert (Hi : i ∉ l).
  { intros Hi. destruct (I2 i Hi) as (c&b&Hc&Hb&Hle&_). destruct (I1 i ltac:(by left)) as (c0&b0&Hc0&_&_&[[Hn _]|(_&Hc1&Hb1&_)]); [congruence|].
    pose proof (q_uniq _ _ _ _ Hnd Hb Hb1). specialize (Hpos _ Hc0). lia. }
  split.
  - intros j [Hne Hj]%not_elem_of_cons. destruct (O2 j Hj) as [E2 B2]. destruct (O1 j) as [E1 B1]; [by intros ?%elem_of_list_singleton|].
    split; [congruence|]. intros b. rewrite B2. apply B1.
  - intros j [->|Hj]%elem_of_cons.
    + destruct (I1 i ltac:(by left)) as (c&b&Hc&Hb&Hle&HH). exists c, b. split_and!; [done..|].
      destruct (O2 i Hi) as [E2 B2]. rewrite E2. destruct HH as [[Hn Hq]|(Hr&Hk&Hq&HH)].
      * left. split; [done|]. intros [b' Hb']%q_fst_elem. apply Hq, q_fst_elem. exists b'. by apply B2.
      * right. split_and!; try done; try (by apply HH). by apply B2.
    + assert (j <> i) by (intros ->; done). destruct (I2 j Hj) as (c&b&Hc&Hb&Hle&HH).
      destruct (O1 j) as [E1 B1]; [by intros ?%elem_of_list_singleton|]. exists c, b. split_and!; [congruence|by apply B1|done|done].
  - by constructor.
  - apply (effects_app s [i] s1 l s'); try done. by intros j ->%elem_of_list_singleton.
  - intros j b n Hb [Hne Hj]%not_elem_of_cons Ha. destruct (K1 j b n Hb) as (m&Hm&Ha1); [by intros ?%elem_of_list_singleton|done|].
    destruct (K2 j b m Hb Hj Ha1) as (k&Hk&Ha2). exists k. split; [|done]. unfold nlen in *. cbn [length] in *. lia.
Qed.

Lemma run_emit e (s : state) : emit e s = (Ok tt, s <| s_events ::= cons e |>).
Proof. done. Qed.
Lemma rlinv_emit s q e : rlinv s q -> rlinv (s <| s_events ::= cons e |>) q.
Proof. intros [H1 H2 H3 H4 H5]. split; try done. pose proof (inv1_pres_emit e s H1) as H. exact H. Qed.

(** The fixed and the available loop; [f] puts the list back among the queues. *)
Definition slot (f : list (N * N) -> rent_queues) : Prop :=
  (exists qs qa, f = fun l => mkQueues l qs qa) \/ (exists qf qs, f = fun l => mkQueues qf qs l).
Lemma slot_pop f s i b l : slot f -> rlinv s (f ((i, b) :: l)) ->
  exists c, contracts (s_rent s) !! i = Some c /\ qok ((i, b) :: l) /\
    mkQueues (q_del i (q_fixed (f ((i, b) :: l)))) (q_del i (q_sub (f ((i, b) :: l)))) (q_del i (q_avail (f ((i, b) :: l)))) = f l.
Proof.
  intros Hf [_ _ _ [H1 H2 H3 _ _] _].
  assert (Hd : q_del i ((i, b) :: l) = l) by (cbn; by rewrite N.eqb_refl).
  assert (Ho : forall (P P' : contract -> Prop) l', (forall c, P c -> P' c -> False) ->
    listing (s_now s) (contracts (s_rent s)) P ((i, b) :: l) -> listing (s_now s) (contracts (s_rent s)) P' l' ->
    exists c, contracts (s_rent s) !! i = Some c /\ q_del i l' = l').
  { intros P P' l' Hx (L1&L2&_) HL'. destruct (L2 i b ltac:(left)) as (c&Hc&Hp&_). exists c. split; [done|].
    apply q_del_notin. eapply listing_notin; [exact HL'|]. intros c' Hc' Hp'. assert (c' = c) as -> by congruence. by eapply Hx. }
  assert (X1 : forall c, in_fixed c -> in_sub c -> False) by (intros c [_ E1] [_ E2]; congruence).
  assert (X2 : forall c, in_fixed c -> in_avail c -> False) by (intros c [E1 _] E2; unfold in_avail in E2; congruence).
  assert (X3 : forall c, in_sub c -> in_avail c -> False) by (intros c [E1 _] E2; unfold in_avail in E2; congruence).
  destruct Hf as [(qs&qa&->)|(qf&qs&->)]; cbn [q_fixed q_sub q_avail] in *; rewrite Hd.
  - destruct (Ho _ _ _ X1 H1 H2) as (c&Hc&->). destruct (Ho _ _ _ X2 H1 H3) as (_&_&->). exists c. split_and!; [done|apply H1|done].
  - destruct (Ho in_avail in_fixed qf ltac:(intros; by eapply X2) H3 H1) as (c&Hc&->).
    destruct (Ho in_avail in_sub qs ltac:(intros; by eapply X3) H3 H2) as (_&_&->). exists c. split_and!; [done|apply H3|done].
Qed.
Lemma slot_qok f s l : slot f -> rlinv s (f l) -> qok l.
Proof. intros [(qs&qa&->)|(qf&qs&->)] [_ _ _ [H1 H2 H3 _ _] _]; [apply H1|apply H3]. Qed.

Lemma finish_loop_ok f ev fuel : config_ok -> slot f -> forall now q acts s, rlinv s (f q) -> (length q <= fuel)%nat ->
  exists l q' s', finish_loop ev fuel now q acts s = (Ok (q', acts + nlen l), s') /\ s_now s' = s_now s /\
    rlinv s' (f q') /\ looped false now q s l q' s' /\ (l = [] -> q' = q /\ s' = s) /\ nlen l <= N.max 1 (rent_actions - acts) /\
    ((forall x, x ∈ q' -> now < snd x) \/ (1 <= nlen l /\ rent_actions <= acts + nlen l)).
Proof.
  intros HC Hf. induction fuel as [|fuel IH]; intros now q acts s HL Hlen.
  - destruct q; [|cbn in Hlen; lia]. exists [], [], s. cbn. rewrite N.add_0_r. split_and!; try done; [apply looped_nil|lia|].
    left. by intros x ?%elem_of_nil.
  - cbn [finish_loop]. destruct (q_pop now q) as [[i q']|] eqn:Ep.
    + apply q_pop_some in Ep as (b&->&Hb). destruct (slot_pop f s i b q' Hf HL) as (c&Hc&Hq&Eq).
      destruct (finished_runs s _ i c HC HL Hc) as (s1&E1&HL1&Ec1&En1&Ef1). rewrite Eq in HL1.
      unfold attempt. unfold bind at 1. rewrite E1. cbn [snd]. unfold bind at 1. rewrite run_emit.
      apply (rlinv_emit _ _ (ev i)) in HL1. set (s2 := s1 <| s_events ::= _ |>) in *.
      assert (Hi : i ∉ q'.*1). { destruct Hq as [_ Hq]. cbn in Hq. by apply NoDup_cons in Hq as [? _]. }
      assert (HO : looped false now ((i, b) :: q') s [i] q' s2).
      { split.
        - intros j Hj. assert (j <> i) by (intros ->; apply Hj; by left). subst s2. st_cbn. rewrite Ec1, lookup_delete_ne by done.
          split; [done|]. intros b'. rewrite elem_of_cons. split; [by right|]. intros [[= ? ?]|?]; done.
        - intros j ->%elem_of_list_singleton. exists c, b. split_and!; [done|by left|done|]. left. subst s2. st_cbn. rewrite Ec1, lookup_delete. done.
        - apply NoDup_singleton.
        - by eapply effects_same; [..|exact Ef1].
        - intros j bj n Hbj Hj Ha. apply ahead_cons in Ha as (m&Hm&Ha); [|cbn; intros ->; apply Hj; by left]. exists m. done. }
      destruct (rent_actions <=? acts + 1) eqn:El.
      * apply N.leb_le in El. exists [i], q', s2. split_and!; try done; [cbn; lia|right; cbn; lia].
      * apply N.leb_gt in El. destruct (IH now q' (acts + 1) s2 HL1) as (l&q2&s'&Er&En&HL'&HO'&Hz&Hn&Hend); [cbn in Hlen; lia|].
        exists (i :: l), q2, s'. rewrite Er. replace (acts + nlen (i :: l)) with (acts + 1 + nlen l) by (unfold nlen; cbn; lia).
        assert (Enow : s_now s2 = s_now s) by exact En1.
        split_and!; try done; [congruence| |unfold nlen in *; cbn [length]; lia|].
        -- eapply looped_cons; [apply (rl_inv1 _ _ HL)|exact HO|apply (slot_qok f s2 q' Hf HL1)| |exact HO'].
           intros c' Hc'. assert (c' = c) as -> by congruence. apply (c_per _ _ (r_cok _ _ _ (rl_rok _ _ HL) _ _ Hc)).
        -- destruct Hend as [Hend|[G1 G2]]; [by left|right]. unfold nlen in *. cbn [length]. lia.
    + exists [], q, s. cbn. rewrite N.add_0_r. split_and!; try done; [apply looped_nil|lia|]. left. intros x Hx.
      eapply q_pop_none; [exact Ep|apply (slot_qok f s q Hf HL)|done].
Qed.

(** The subscription step. *)
Lemma subscription_case s i now : exists r s', handle_subscription i now s = (Ok r, s') /\
  (s' = s /\ r = None \/
   exists c t fee b, contracts (s_rent s) !! i = Some c /\ r_rentee c = Some t /\ r_rent_fee c = RentTokens fee /\
     terms_changed (r_duration c) = false /\ has_ended c now = false /\
     transfer_b t (r_renter c) fee true (s_bal s) = Ok b /\ s' = s <| s_bal := b |> /\ r = Some (now + duration_or_period (r_duration c))).
Proof.
  unfold handle_subscription, get_contract. unfold bind at 1, gets at 1.
  destruct (contracts (s_rent s) !! i) as [c|] eqn:Hc; [|eexists _, _; split; [reflexivity|by left]].
  destruct (r_rentee c) as [t|] eqn:Ht; [|eexists _, _; split; [reflexivity|by left]]. destruct (r_rent_fee c) as [fee|] eqn:Hf; cbn [rf_tokens]; [|eexists _, _; split; [reflexivity|by left]].
  destruct (terms_changed (r_duration c) || has_ended c now) eqn:E; [eexists _, _; split; [reflexivity|by left]|]. apply orb_false_iff in E as [E1 E2].
  unfold bind, catch, transfer, lift_bal. destruct (transfer_b t (r_renter c) fee true (s_bal s)) as [b|e] eqn:T.
  - eexists _, _. split; [reflexivity|]. right. exists c, t, fee, b. split_and!; done.
  - eexists _, _. split; [reflexivity|]. by left.
Qed.
Lemma rlinv_bal s q t to amt b : rlinv s q -> t ∉ pots -> transfer_b t to amt true (s_bal s) = Ok b -> rlinv (s <| s_bal := b |>) q.
Proof.
  intros [H1 H2 H3 H4 H5] Ht T. split; try done.
  - destruct H1 as [a1 a2 a3 a4]. split; done.
  - unfold binv. st_cbn. by eapply transfer_bsum.
  - eapply nolock_same; [|exact H3]. by eapply transfer_locks.
  - unfold rsolv in *. st_cbn. rewrite (transfer_free_other _ _ _ _ _ _ rent_pot T); [lia|]. intros <-. by apply Ht, rpot_in.
Qed.
Lemma sub_pop qf qa s i b l : rlinv s (mkQueues qf ((i, b) :: l) qa) ->
  exists c, contracts (s_rent s) !! i = Some c /\ in_sub c /\ qok ((i, b) :: l) /\ i ∉ qf.*1 /\ i ∉ qa.*1.
Proof.
  intros [_ _ _ [H1 H2 H3 _ _] _]. cbn [q_fixed q_sub q_avail] in *. pose proof H2 as (L1&L2&_).
  destruct (L2 i b ltac:(left)) as (c&Hc&Hp&_). exists c. split_and!; [done|done|done| |].
  - eapply listing_notin; [exact H1|]. intros c' Hc' [_ E]. assert (c' = c) as -> by congruence. destruct Hp as [_ E']. congruence.
  - eapply listing_notin; [exact H3|]. intros c' Hc' E. assert (c' = c) as -> by congruence. destruct Hp as [E' _]. unfold in_avail in E. congruence.
Qed.

Lemma subscription_loop_ok qf qa fuel : config_ok -> forall now q acts s, s_now s = now -> rlinv s (mkQueues qf q qa) ->
  rent_actions < acts + N.of_nat fuel -> (fuel <> O)%nat ->
  exists l q' s', subscription_loop fuel now q acts s = (Ok (q', acts + nlen l), s') /\ s_now s' = s_now s /\
    rlinv s' (mkQueues qf q' qa) /\ looped true now q s l q' s' /\ (l = [] -> q' = q /\ s' = s) /\ nlen l <= N.max 1 (rent_actions - acts) /\
    ((forall x, x ∈ q' -> now < snd x) \/ (1 <= nlen l /\ rent_actions <= acts + nlen l)).
Proof.
  intros HC. induction fuel as [|fuel IH]; [done|]. intros now q acts s Hnow HL Hlen _. cbn [subscription_loop].
  destruct (q_pop now q) as [[i q']|] eqn:Ep.
  - apply q_pop_some in Ep as (b&->&Hb). destruct (sub_pop qf qa s i b q' HL) as (c&Hc&Hsub&Hq&Hqf&Hqa).
    assert (Hi : i ∉ q'.*1). { destruct Hq as [_ Hq]. cbn in Hq. by apply NoDup_cons in Hq as [? _]. }
    pose proof (r_cok _ _ _ (rl_rok _ _ HL) _ _ Hc) as Hok.
    assert (exists q2 s2, (let! r := handle_subscription i now in
       match r with
            | Some b => emit (Ev_ContractSubscriptionPeriodStarted i) ;;; ret (default q' (q_insert rent_limit i b q'))
            | None => attempt (handle_finished i) ;;; emit (Ev_ContractEnded i None) ;;; ret q'
       end) s = (Ok q2, s2) /\ rlinv s2 (mkQueues qf q2 qa) /\ looped true now ((i, b) :: q') s [i] q2 s2 /\ s_now s2 = s_now s) as (q2&s2&E2&HL2&HO&En2).
    { destruct (subscription_case s i now) as (r&s'&E&[[-> ->]|(c'&t&fee&b'&Hc'&Ht&Hfee&Htc&Hhe&T&->&->)]).
      - destruct (finished_runs s _ i c HC HL Hc) as (s1&E1&HL1&Ec1&En1&Ef1).
        exists q', (s1 <| s_events ::= cons (Ev_ContractEnded i None) |>). unfold bind at 1. rewrite E.
        unfold attempt. unfold bind at 1. rewrite E1. split; [done|]. split; [|split; [|done]].
        + apply rlinv_emit. cbn [q_fixed q_sub q_avail] in HL1.
          rewrite (q_del_notin i qf), (q_del_notin i qa) in HL1 by done. cbn in HL1. by rewrite N.eqb_refl in HL1.
        + split.
          * intros j Hj. assert (j <> i) by (intros ->; apply Hj; by left). st_cbn. rewrite Ec1, lookup_delete_ne by done.
            split; [done|]. intros b'. rewrite elem_of_cons. split; [by right|]. intros [[= ? ?]|?]; done.
          * intros j ->%elem_of_list_singleton. exists c, b. split_and!; [done|by left|done|]. left. st_cbn. rewrite Ec1, lookup_delete. done.
          * apply NoDup_singleton.
          * by eapply effects_same; [..|exact Ef1].
          * intros j bj n Hbj Hj Ha. apply ahead_cons in Ha as (m&Hm&Ha); [|cbn; intros ->; apply Hj; by left]. exists m. done.
      - assert (c' = c) as -> by congruence. assert (t ∉ pots) as Htp by (by eapply (inv1_rentees s (rl_inv1 _ _ HL))).
        pose proof (rlinv_bal _ _ _ _ _ _ HL Htp T) as HL1.
        set (nb := now + duration_or_period (r_duration c)) in *.
        assert (Hins : q_insert rent_limit i nb q' = Some (q_ins (i, nb) q')).
        { unfold q_insert. pose proof (r_size _ _ _ (rl_rok _ _ HL)) as Hz. unfold queues_size, nlen in *. cbn [q_fixed q_sub q_avail length] in Hz.
          destruct (_ <? _) eqn:E3; [done|]. apply N.ltb_ge in E3. lia. }
        exists (q_ins (i, nb) q'), (s <| s_bal := b' |> <| s_events ::= cons (Ev_ContractSubscriptionPeriodStarted i) |>).
        unfold bind at 1. rewrite E. rewrite Hins. split; [done|]. split; [|split; [|done]].
        + apply rlinv_emit. destruct HL1 as [L1 L2 L3 L4 L5]. split; try done. clear L1 L2 L3 L5. st_cbn_in L4. st_cbn.
          pose proof (rok_del _ _ _ i L4) as Hd. cbn [q_fixed q_sub q_avail] in Hd.
          rewrite (q_del_notin i qf), (q_del_notin i qa) in Hd by done. cbn [q_del fst] in Hd. rewrite N.eqb_refl in Hd.
          pose proof (rok_put _ _ _ i c nb Hd (lookup_delete _ _)) as Hp. rewrite insert_delete in Hp by done.
          unfold put in Hp. destruct Hsub as [Hst Hk]. rewrite Hk in Hp. destruct (r_start c) eqn:Est; [|done]. apply Hp; clear Hp.
          * done.
          * unfold due_ok. rewrite Est. destruct (r_duration c) eqn:Ed; [done|]. subst nb. pose proof (c_per _ _ Hok) as Hper. rewrite Ed in Hper. lia.
          * pose proof (r_size _ _ _ (rl_rok _ _ HL)) as Hz. unfold queues_size, nlen in *. cbn [q_fixed q_sub q_avail length] in *. lia.
        + split.
          * intros j Hj. assert (j <> i) by (intros ->; apply Hj; by left). split; [done|]. intros b2. rewrite q_ins_elem, elem_of_cons.
            split; (intros [[= ? ?]|?]; [done|by right]).
          * intros j ->%elem_of_list_singleton. exists c, b. split_and!; [done|by left|done|]. right. split_and!; try done. apply q_ins_elem. by left.
          * apply NoDup_singleton.
          * eapply effects_same; [..|by eapply (effects_renew s i c t fee b')]; done.
          * intros j bj n Hbj Hj Ha. apply ahead_cons in Ha as (m&Hm&Ha); [|cbn; intros ->; apply Hj; by left]. exists m. split; [done|].
            apply ahead_ins; [|subst nb; cbn; lia|done]. destruct Hq as [Hq _]. by apply sorted_elem in Hq as [? _]. }
    assert (E2' : forall k : list (N * N) -> M (list (N * N) * N), (let! r := handle_subscription i now in
       let! q'' := match r with
            | Some b => emit (Ev_ContractSubscriptionPeriodStarted i) ;;; ret (default q' (q_insert rent_limit i b q'))
            | None => attempt (handle_finished i) ;;; emit (Ev_ContractEnded i None) ;;; ret q'
       end in k q'') s = k q2 s2).
    { intros k. unfold bind at 1 in E2. unfold bind at 1. destruct (handle_subscription i now s) as [[r|e] s'']; [|done].
      cbv beta iota in E2 |- *. unfold bind at 1. rewrite E2. done. }
    rewrite E2'. clear E2 E2'. destruct (rent_actions <=? acts + 1) eqn:El.
    + apply N.leb_le in El. exists [i], q2, s2. split_and!; try done; [cbn; lia|right; cbn; lia].
    + apply N.leb_gt in El. destruct (IH now q2 (acts + 1) s2) as (l&q3&s'&Er&En&HL'&HO'&Hz&Hn&Hend); [congruence|done|lia|lia|].
      exists (i :: l), q3, s'. rewrite Er. replace (acts + nlen (i :: l)) with (acts + 1 + nlen l) by (unfold nlen; cbn; lia).
      split_and!; try done; [congruence| |unfold nlen in *; cbn [length]; lia|].
      * eapply looped_cons; [apply (rl_inv1 _ _ HL)|exact HO|apply (r_subs _ _ _ (rl_rok _ _ HL2))| |exact HO'].
        intros c' Hc'. assert (c' = c) as -> by congruence. apply (c_per _ _ Hok).
      * destruct Hend as [Hend|[G1 G2]]; [by left|right]. unfold nlen in *. cbn [length]. lia.
  - exists [], q, s. cbn. rewrite N.add_0_r. split_and!; try done; [apply looped_nil|lia|]. left. intros x Hx.
    eapply q_pop_none; [exact Ep|apply (r_subs _ _ _ (rl_rok _ _ HL))|done].
Qed.

(** ** The whole hook *)
Definition due (now : N) (q : list (N * N)) : list (N * N) := filter (fun x => snd x <= now) q.
Lemma looped_some ren now q s l q' s' : looped ren now q s l q' s' -> nlen l <= nlen (due now q).
Proof.
  intros [_ I D _ _]. unfold nlen.
  assert (length l <= length ((due now q).*1))%nat as H; [|rewrite fmap_length in H; lia].
  apply submseteq_length, NoDup_submseteq; [done|]. intros i Hi. destruct (I i Hi) as (c&b&_&Hb&Hle&_).
  apply q_fst_elem. exists b. unfold due. by apply elem_of_list_filter.
Qed.
Lemma looped_more ren now q s l q' s' x : looped ren now q s l q' s' -> NoDup (q'.*1) ->
  (forall i c, contracts (s_rent s) !! i = Some c -> 0 < duration_or_period (r_duration c)) ->
  x ∈ q' -> snd x <= now -> nlen l + 1 <= nlen (due now q).
Proof.
  intros [O I D _ _] Hnd Hpos Hx Hle. destruct x as [i b]. cbn [snd] in Hle.
  assert (Hi : i ∉ l).
  { intros Hi. destruct (I i Hi) as (c&b0&Hc&_&_&[[_ Hn]|(_&_&Hb&_)]).
    - apply Hn, q_fst_elem. by exists b.
    - pose proof (q_uniq _ _ _ _ Hnd Hx Hb). specialize (Hpos _ _ Hc). lia. }
  assert (length (i :: l) <= length ((due now q).*1))%nat as H.
  { apply submseteq_length, NoDup_submseteq; [by constructor|]. intros j [->|Hj]%elem_of_cons.
    - apply q_fst_elem. exists b. unfold due. apply elem_of_list_filter. split; [done|]. by apply (O i Hi).
    - destruct (I j Hj) as (c&b'&_&Hb&Hle'&_). apply q_fst_elem. exists b'. unfold due. by apply elem_of_list_filter. }
  rewrite fmap_length in H. unfold nlen. cbn [length] in H. lia.
Qed.

(** What the hook did to the contracts in [l]. *)
Record rent_block (now : N) (s : state) (l : list N) (s' : state) : Prop := {
  rb_out : forall i, i ∉ l -> contracts (s_rent s') !! i = contracts (s_rent s) !! i /\
    forall b, ((i, b) ∈ q_fixed (queues (s_rent s')) <-> (i, b) ∈ q_fixed (queues (s_rent s))) /\
      ((i, b) ∈ q_sub (queues (s_rent s')) <-> (i, b) ∈ q_sub (queues (s_rent s))) /\
      ((i, b) ∈ q_avail (queues (s_rent s')) <-> (i, b) ∈ q_avail (queues (s_rent s)));
  rb_in : forall i, i ∈ l -> exists c b, contracts (s_rent s) !! i = Some c /\ b <= now /\
    ((i, b) ∈ q_fixed (queues (s_rent s)) \/ (i, b) ∈ q_sub (queues (s_rent s)) \/ (i, b) ∈ q_avail (queues (s_rent s))) /\
    (contracts (s_rent s') !! i = None \/
     (i, b) ∈ q_sub (queues (s_rent s)) /\ contracts (s_rent s') !! i = Some c /\
     (i, now + duration_or_period (r_duration c)) ∈ q_sub (queues (s_rent s')) /\
     terms_changed (r_duration c) = false /\ has_ended c now = false);
  rb_len : nlen l <= N.max 1 rent_actions + 2;
  rb_all : nlen (due now (q_fixed (queues (s_rent s)))) + nlen (due now (q_sub (queues (s_rent s)))) +
      nlen (due now (q_avail (queues (s_rent s)))) <= rent_actions ->
    forall x, x ∈ q_fixed (queues (s_rent s')) \/ x ∈ q_sub (queues (s_rent s')) \/ x ∈ q_avail (queues (s_rent s')) -> now < snd x;
  rb_eff : rent_effects s l s';
  rb_rank : forall f i b n, f ∈ [q_fixed; q_sub; q_avail] -> b <= now -> i ∉ l -> ahead (f (queues (s_rent s))) i b n ->
    exists m, m + 1 <= n /\ ahead (f (queues (s_rent s'))) i b m
}.

Lemma looped_entry ren now q s l q' s' i : looped ren now q s l q' s' -> i ∉ q.*1 -> i ∉ l.
Proof. intros [_ I _ _ _] Hi Hl. destruct (I i Hl) as (_&b&_&Hb&_). apply Hi, q_fst_elem. by exists b. Qed.

Lemma rent_hook_ok s : config_ok -> rlinv s (queues (s_rent s)) ->
  exists l, rent_block (s_now s) s l (snd (run_hook HookRent s)) /\
    rlinv (snd (run_hook HookRent s)) (queues (s_rent (snd (run_hook HookRent s)))).
Proof.
  intros HC HL0. set (now := s_now s). cbn [run_hook].
  destruct (queues (s_rent s)) as [qf qs qa] eqn:Eq.
  pose proof (r_fix _ _ _ (rl_rok _ _ HL0)) as LF. pose proof (r_subs _ _ _ (rl_rok _ _ HL0)) as LS. pose proof (r_av _ _ _ (rl_rok _ _ HL0)) as LA.
  cbn [q_fixed q_sub q_avail] in LF, LS, LA.
  assert (Hpos : forall i c, contracts (s_rent s) !! i = Some c -> 0 < duration_or_period (r_duration c)).
  { intros i c Hc. apply (c_per _ _ (r_cok _ _ _ (rl_rok _ _ HL0) _ _ Hc)). }
  destruct (finish_loop_ok (fun l => mkQueues l qs qa) (fun i => Ev_ContractEnded i None) (length qf) HC ltac:(left; eauto) now qf 0 s HL0 ltac:(done))
    as (l1&qf'&s1&R1&N1&HL1&O1&Z1&B1&E1).
  destruct (subscription_loop_ok qf' qa (S (N.to_nat rent_actions)) HC now qs (0 + nlen l1) s1 ltac:(done) HL1 ltac:(lia) ltac:(done))
    as (l2&qs'&s2&R2&N2&HL2&O2&Z2&B2&E2).
  destruct (finish_loop_ok (fun l => mkQueues qf' qs' l) Ev_ContractExpired (length qa) HC ltac:(right; eauto) now qa (0 + nlen l1 + nlen l2) s2 HL2 ltac:(done))
    as (l3&qa'&s3&R3&N3&HL3&O3&Z3&B3&E3).
  assert (exists s', snd (rent_on_initialize s) = s' /\ queues (s_rent s') = mkQueues qf' qs' qa' /\
    contracts (s_rent s') = contracts (s_rent s3) /\ rlinv s' (mkQueues qf' qs' qa') /\ nfts (s_nft s') = nfts (s_nft s3) /\ s_bal s' = s_bal s3)
    as (s'&Es&Eqs&Ecs&HL'&Ens&Ebs).
  { unfold rent_on_initialize. unfold bind at 1, gets at 1. unfold bind at 1, gets at 1. rewrite Eq. cbn [q_fixed q_sub q_avail].
    fold now. unfold bind at 1. rewrite R1. unfold bind at 1. cbn [snd fst]. rewrite R2. unfold bind at 1. cbn [snd fst]. rewrite R3. cbn [snd fst].
    destruct (0 <? 0 + nlen l1 + nlen l2 + nlen l3) eqn:E; cbn [when].
    - eexists. split; [reflexivity|]. cbn [snd]. split; [done|]. split; [done|]. split; [|done]. destruct HL3 as [a1 a2 a3 a4 a5]. split; try done. destruct a1. split; done.
    - apply N.ltb_ge in E. assert (l1 = [] /\ l2 = [] /\ l3 = []) as (El1&El2&El3).
      { destruct l1, l2, l3; try done; unfold nlen in E; cbn [length] in E; lia. }
      destruct (Z1 El1) as [Ef Es1], (Z2 El2) as [Es' Es2], (Z3 El3) as [Ea Es3]. rewrite Ef, Es', Ea in *. subst s1 s2 s3.
      exists s. split_and!; try done. }
  rewrite Es, Eqs. clear Es R1 R2 R3 Z1 Z2 Z3.
  assert (X12 : forall i, i ∈ l1 -> i ∉ l2).
  { intros i H1 H2. destruct (lo_in _ _ _ _ _ _ _ O1 i H1) as (_&_&_&_&_&[[H _]|[? _]]); [|done].
    destruct (lo_in _ _ _ _ _ _ _ O2 i H2) as (c&_&H'&_). congruence. }
  assert (X23 : forall i, i ∈ qs.*1 \/ i ∈ l1 -> i ∉ l3).
  { intros i H1 H3. destruct (lo_in _ _ _ _ _ _ _ O3 i H3) as (c&b&Hc&Hb&_).
    assert (Hs1 : contracts (s_rent s1) !! i = Some c).
    { destruct (decide (i ∈ l2)) as [H2|H2]; [|destruct (lo_out _ _ _ _ _ _ _ O2 i H2); congruence].
      destruct (lo_in _ _ _ _ _ _ _ O2 i H2) as (c'&_&H'&_&_&[[H _]|(_&H&_)]); congruence. }
    destruct (decide (i ∈ l1)) as [H1'|H1'].
    { destruct (lo_in _ _ _ _ _ _ _ O1 i H1') as (_&_&_&_&_&[[H _]|[? _]]); [|done]. congruence. }
    destruct H1 as [H1|H1]; [|done]. destruct (lo_out _ _ _ _ _ _ _ O1 i H1') as [E _]. rewrite E in Hs1.
    destruct LS as (_&L2&_). destruct LA as (_&A2&_). apply q_fst_elem in H1 as [b' Hb']. destruct (L2 _ _ Hb') as (x&Hx&[P1 _]&_).
    destruct (A2 _ _ Hb) as (y&Hy&P2&_). unfold in_avail in P2. congruence. }
  assert (S1 : forall i, i ∉ l1 -> contracts (s_rent s1) !! i = contracts (s_rent s) !! i) by (intros i Hi; by destruct (lo_out _ _ _ _ _ _ _ O1 i Hi)).
  assert (S2 : forall i, i ∉ l2 -> contracts (s_rent s2) !! i = contracts (s_rent s1) !! i) by (intros i Hi; by destruct (lo_out _ _ _ _ _ _ _ O2 i Hi)).
  assert (S3 : forall i, i ∉ l3 -> contracts (s_rent s3) !! i = contracts (s_rent s2) !! i) by (intros i Hi; by destruct (lo_out _ _ _ _ _ _ _ O3 i Hi)).
  assert (P1 : forall i c, contracts (s_rent s1) !! i = Some c -> 0 < duration_or_period (r_duration c)).
  { intros i c Hc. apply (c_per _ _ (r_cok _ _ _ (rl_rok _ _ HL1) _ _ Hc)). }
  assert (P2 : forall i c, contracts (s_rent s2) !! i = Some c -> 0 < duration_or_period (r_duration c)).
  { intros i c Hc. apply (c_per _ _ (r_cok _ _ _ (rl_rok _ _ HL2) _ _ Hc)). }
  exists (l1 ++ l2 ++ l3). split; [|done]. split; rewrite ?Eqs, ?Ecs; cbn [q_fixed q_sub q_avail].
  - intros i Hi. rewrite !not_elem_of_app in Hi. destruct Hi as (H1&H2&H3).
    rewrite S3, S2, S1 by done. split; [done|]. intros b. rewrite Eq. cbn [q_fixed q_sub q_avail].
    destruct (lo_out _ _ _ _ _ _ _ O1 i H1) as [_ Q1]. destruct (lo_out _ _ _ _ _ _ _ O2 i H2) as [_ Q2].
    destruct (lo_out _ _ _ _ _ _ _ O3 i H3) as [_ Q3]. auto.
  - intros i Hi. rewrite Eq. cbn [q_fixed q_sub q_avail]. rewrite !elem_of_app in Hi. destruct Hi as [H1|[H2|H3]].
    + destruct (lo_in _ _ _ _ _ _ _ O1 i H1) as (c&b&Hc&Hb&Hle&[[Hn _]|[? _]]); [|done]. exists c, b.
      split_and!; [done|done|by left|left]. rewrite S3, S2; auto.
    + destruct (lo_in _ _ _ _ _ _ _ O2 i H2) as (c&b&Hc&Hb&Hle&HH). exists c, b.
      assert (H1 : i ∉ l1) by (intros ?; by eapply X12). rewrite S1 in Hc by done.
      split_and!; [done|done|by right; left|]. rewrite S3 by (apply X23; left; apply q_fst_elem; by exists b).
      destruct HH as [[Hn _]|(_&Hk&Hq&HH)]; [by left|right]. split_and!; try done; by apply HH.
    + destruct (lo_in _ _ _ _ _ _ _ O3 i H3) as (c&b&Hc&Hb&Hle&[[Hn _]|[? _]]); [|done]. exists c, b.
      assert (H1 : i ∉ l1) by (intros ?; by eapply X23; [right|]).
      assert (H2 : i ∉ l2). { intros H2. destruct (lo_in _ _ _ _ _ _ _ O2 i H2) as (_&b'&_&Hb'&_). eapply X23; [|exact H3]. left. apply q_fst_elem. by exists b'. }
      rewrite S2, S1 in Hc by done. split_and!; [done|done|by right; right|by left].
  - assert (Hn : forall x y : list N, nlen (x ++ y) = nlen x + nlen y) by (intros x y; unfold nlen; rewrite app_length; lia).
    rewrite !Hn. lia.
  - rewrite Eq. cbn [q_fixed q_sub q_avail]. intros Hall x Hx.
    pose proof (looped_some _ _ _ _ _ _ _ O1) as C1. pose proof (looped_some _ _ _ _ _ _ _ O2) as C2. pose proof (looped_some _ _ _ _ _ _ _ O3) as C3.
    destruct (N.lt_ge_cases now (snd x)) as [|Hle]; [done|exfalso].
    pose proof (r_fix _ _ _ (rl_rok _ _ HL')) as ([_ F1]&_). pose proof (r_subs _ _ _ (rl_rok _ _ HL')) as ([_ F2]&_). pose proof (r_av _ _ _ (rl_rok _ _ HL')) as ([_ F3]&_).
    cbn [q_fixed q_sub q_avail] in F1, F2, F3.
    destruct Hx as [Hx|[Hx|Hx]].
    + pose proof (looped_more _ _ _ _ _ _ _ x O1 F1 Hpos Hx Hle). destruct E1 as [E1|E1]; [specialize (E1 x Hx)|]; lia.
    + pose proof (looped_more _ _ _ _ _ _ _ x O2 F2 P1 Hx Hle). destruct E2 as [E2|E2]; [specialize (E2 x Hx)|]; lia.
    + pose proof (looped_more _ _ _ _ _ _ _ x O3 F3 P2 Hx Hle). destruct E3 as [E3|E3]; [specialize (E3 x Hx)|]; lia.
  - eapply effects_same; [exact Ecs|exact Ens|exact Ebs|].
    apply (effects_app s l1 s1); [apply HL0| |apply O1|apply (effects_app s1 l2 s2); [apply HL1| |apply O2|apply O3]].
    + intros i H1 [H2|H3]%elem_of_app; [by eapply X12|]. eapply X23; [|exact H3]. by right.
    + intros i H2. apply X23. left. destruct (lo_in _ _ _ _ _ _ _ O2 i H2) as (_&b'&_&Hb'&_). apply q_fst_elem. by exists b'.
  - intros f i b n Hf Hb Hi Ha. rewrite !not_elem_of_app in Hi. destruct Hi as (H1&H2&H3).
    assert (Hstep : forall ren q0 t0 l0 q1 t1 acts, looped ren now q0 t0 l0 q1 t1 -> i ∉ l0 ->
      (forall x, x ∈ q1 -> now < snd x) \/ (1 <= nlen l0 /\ rent_actions <= acts) -> ahead q0 i b n -> exists m, m + 1 <= n /\ ahead q1 i b m).
    { intros ren q0 t0 l0 q1 t1 acts O Hl Hend Ha0. destruct (lo_rank _ _ _ _ _ _ _ O i b n Hb Hl Ha0) as (m&Hm&Ha1).
      exists m. split; [|done]. destruct Hend as [Hend|[? _]]; [|lia]. apply ahead_elem, Hend in Ha1. cbn in Ha1. lia. }
    rewrite Eq in Ha. rewrite !elem_of_cons, elem_of_nil in Hf. destruct Hf as [->|[->|[->|[]]]]; cbn [q_fixed q_sub q_avail] in *.
    + by eapply Hstep.
    + by eapply Hstep.
    + by eapply Hstep.
Qed.

(** ** Reachable states *)
Lemma sreach_rlinv s : sreach s -> rinv s -> rsolv s -> rlinv s (queues (s_rent s)).
Proof. intros Hs H1 H2. split; auto using sreach_inv1, sreach_binv, sreach_nolock. Qed.

Lemma hook_rent_kept h t : h <> HookRent -> s_rent (snd (run_hook h t)) = s_rent t.
Proof.
  intros Hne. pose proof (hook_kept h t) as Hk. unfold kept in Hk. destruct h; cbn [hook_pallet] in Hk; try done; by destruct_and! Hk.
Qed.
Lemma hook_now h t : s_now (snd (run_hook h t)) = s_now t.
Proof. pose proof (hook_kept h t) as Hk. unfold kept in Hk. by destruct Hk as [-> _]. Qed.

Lemma sreach_rent s : config_ok -> sreach s -> rinv s /\ rsolv s.
Proof.
  intros HC H. induction H as [s Hs|s o c s' Hs IH Ha Hw Hm He|s ev Hs IH|s Hs IH|s h Hs IH|s e s' Hs IH Ha He].
  - destruct Hs as (now&era&bal&lk&->&_). split.
    + assert (forall P, listing now ∅ P []).
      { intros P. split_and!; [split; constructor|by intros i b ?%elem_of_nil|by intros i c ?%lookup_empty_Some]. }
      unfold rinv. cbn. split; try done. unfold queues_size, nlen. cbn. lia.
    + unfold rsolv, rescrow. cbn. rewrite fmap_empty, msum_empty. lia.
  - destruct IH as [IH1 IH2]. pose proof (sreach_inv1 s Hs) as HI. split; [by eapply rinv_call|].
    eapply rsolv_call; eauto. by apply sreach_binv.
  - exact IH.
  - destruct IH as [IH1 IH2]. split; [|exact IH2]. unfold rinv in *. st_cbn. eapply rok_mono; [|exact IH1]. lia.
  - destruct IH as [IH1 IH2]. assert (h = HookRent \/ h <> HookRent) as [->|Hne] by (destruct h; auto).
    + destruct (rent_hook_ok s HC (sreach_rlinv s Hs IH1 IH2)) as (l&_&[_ _ _ H1 H2]). done.
    + split; [eapply rinv_kept; [apply hook_now|by apply hook_rent_kept|done]|].
      unfold rsolv. rewrite hook_rent_kept by done.
      apply (pg_hook rent_pot (rescrow (contracts (s_rent s))) h s); [apply HC|apply rpot_in| |by apply sreach_inv1|].
      * destruct (pots_ne (ok_pots HC)) as (?&?&?&?&_). destruct h; cbn; congruence.
      * split; [apply (sreach_binv s Hs)|done].
  - destruct IH as [IH1 IH2]. pose proof (env_kept _ _ _ _ He) as Hk. unfold env_kept_from in Hk. destruct Hk as (En&_&_&_&Er&_).
    split; [by eapply rinv_kept|]. unfold rsolv. rewrite Er.
    apply (pg_env rent_pot (rescrow (contracts (s_rent s))) e s s'); [apply rpot_in| |done|done|].
    + by destruct (pots_ne (ok_pots HC)) as (_&_&_&_&?&_).
    + split; [apply (sreach_binv s Hs)|done].
Qed.
Lemma reachable_rent s : config_ok -> reachable s -> rinv s /\ rsolv s.
Proof. intros HC H. apply sreach_rent; [done|by apply reachable_sreach]. Qed.
Lemma reachable_rlinv s : config_ok -> reachable s -> rlinv s (queues (s_rent s)).
Proof. intros HC H. destruct (reachable_rent s HC H). apply sreach_rlinv; [by apply reachable_sreach|done|done]. Qed.
End rhook.
