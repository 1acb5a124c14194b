(** The lemmas behind the events of a block. *)
From Verif Require Export SpecLog RentFacts TransFacts AucFacts.
Local Open Scope N_scope.

Section log.
Context {C : Config}.

(** ** The rent hook *)
Lemma finished_events i s : s_events (snd (handle_finished i s)) = s_events s.
Proof.
  assert (H : pres (fun t => s_events t = s_events s) (handle_finished i)) by (pres_go; st_cbn; assumption). by apply H.
Qed.

Lemma finish_log f ev fuel : config_ok -> slot f -> (forall i j, ev i = ev j -> i = j) -> forall now q acts s, rlinv s (f q) ->
  exists l, s_events (snd (finish_loop ev fuel now q acts s)) = map ev l ++ s_events s /\ NoDup l /\
    (forall i, i ∈ l -> exists c b, contracts (s_rent s) !! i = Some c /\ (i, b) ∈ q /\
       contracts (s_rent (snd (finish_loop ev fuel now q acts s))) !! i = None) /\
    (forall i, i ∉ l -> contracts (s_rent (snd (finish_loop ev fuel now q acts s))) !! i = contracts (s_rent s) !! i).
Proof.
  intros HC Hf Hev. induction fuel as [|fuel IH]; intros now q acts s HL.
  - exists []. cbn. split_and!; [done|constructor|by intros i ?%elem_of_nil|done].
  - cbn [finish_loop]. destruct (q_pop now q) as [[i q']|] eqn:Ep.
    2: { exists []. cbn. split_and!; [done|constructor|by intros j ?%elem_of_nil|done]. }
    apply q_pop_some in Ep as (b&->&Hb). destruct (slot_pop f s i b q' Hf HL) as (c&Hc&Hq&Eq).
    pose proof (finished_events i s) as Ev1.
    destruct (finished_runs s _ i c HC HL Hc) as (s1&E1&HL1&Ec1&En1&Ef1). rewrite Eq in HL1. rewrite E1 in Ev1. cbn [snd] in Ev1.
    apply (rlinv_emit _ _ (ev i)) in HL1. set (s2 := s1 <| s_events ::= _ |>) in *.
    assert (Ek : forall k : M (list (N * N) * N), (attempt (handle_finished i) ;;; emit (ev i) ;;; k) s = k s2).
    { intros k. unfold attempt. unfold bind at 1. rewrite E1. cbn [snd]. unfold bind at 1. by rewrite run_emit. }
    rewrite !Ek. clear Ek.
    assert (Hc2 : contracts (s_rent s2) = delete i (contracts (s_rent s))) by exact Ec1.
    assert (Hv2 : s_events s2 = ev i :: s_events s) by (subst s2; st_cbn; by rewrite Ev1).
    clearbody s2. destruct (rent_actions <=? acts + 1).
    + exists [i]. cbn [snd ret map app]. rewrite Hc2. split_and!; [done|apply NoDup_singleton| |].
      * intros j ->%elem_of_list_singleton. exists c, b. split_and!; [done|by left|apply lookup_delete].
      * intros j Hj. apply lookup_delete_ne. intros ->. apply Hj. by left.
    + destruct (IH now q' (acts + 1) s2 HL1) as (l&L1&L2&L3&L4).
      assert (Hi : i ∉ l). { intros Hi. destruct (L3 i Hi) as (c'&_&Hc'&_). rewrite Hc2, lookup_delete in Hc'. done. }
      exists (l ++ [i]). split_and!.
      * rewrite L1, Hv2, map_app, <- app_assoc. done.
      * apply NoDup_app. split_and!; [done| |apply NoDup_singleton]. by intros j Hj ->%elem_of_list_singleton.
      * intros j [Hj| ->%elem_of_list_singleton]%elem_of_app.
        -- destruct (L3 j Hj) as (c'&b'&Hc'&Hb'&Hg). exists c', b'. rewrite Hc2 in Hc'. apply lookup_delete_Some in Hc' as [_ Hc'].
           split_and!; [done|by right|done].
        -- exists c, b. split_and!; [done|by left|]. rewrite L4 by done. by rewrite Hc2, lookup_delete.
      * intros j Hj. rewrite not_elem_of_app, elem_of_list_singleton in Hj. destruct Hj as [Hj Hji]. rewrite L4 by done.
        rewrite Hc2. by apply lookup_delete_ne.
Qed.

(** One subscription. *)
Definition sub_body (i now : N) (q : list (N * N)) : M (list (N * N)) :=
  let! r := handle_subscription i now in
  match r with
  | Some b => emit (Ev_ContractSubscriptionPeriodStarted i) ;;; ret (default q (q_insert rent_limit i b q))
  | None => attempt (handle_finished i) ;;; emit (Ev_ContractEnded i None) ;;; ret q
  end.
Lemma sub_loop_body i now q (k : list (N * N) -> M (list (N * N) * N)) s q2 s2 : sub_body i now q s = (Ok q2, s2) ->
  (let! r := handle_subscription i now in
       let! q'' := match r with
            | Some b => emit (Ev_ContractSubscriptionPeriodStarted i) ;;; ret (default q (q_insert rent_limit i b q))
            | None => attempt (handle_finished i) ;;; emit (Ev_ContractEnded i None) ;;; ret q
       end in k q'') s = k q2 s2.
Proof.
  intros E2. unfold sub_body in E2. unfold bind at 1 in E2. unfold bind at 1. destruct (handle_subscription i now s) as [[r|e] s'']; [|done].
  cbv beta iota in E2 |- *. unfold bind at 1. rewrite E2. done.
Qed.

Lemma sub_step qf qa s i b q : config_ok -> rlinv s (mkQueues qf ((i, b) :: q) qa) -> b <= s_now s ->
  exists q2 s2 e c, sub_body i (s_now s) q s = (Ok q2, s2) /\ rlinv s2 (mkQueues qf q2 qa) /\ s_now s2 = s_now s /\
    s_events s2 = e :: s_events s /\ contracts (s_rent s) !! i = Some c /\
    (e = Ev_ContractEnded i None /\ contracts (s_rent s2) = delete i (contracts (s_rent s)) /\ q2 = q \/
     e = Ev_ContractSubscriptionPeriodStarted i /\ contracts (s_rent s2) = contracts (s_rent s) /\
     q2 = q_ins (i, s_now s + duration_or_period (r_duration c)) q /\ 0 < duration_or_period (r_duration c)).
Proof.
  intros HC HL Hb. destruct (sub_pop qf qa s i b q HL) as (c&Hc&Hsub&Hq&Hqf&Hqa).
  pose proof (r_cok _ _ _ (rl_rok _ _ HL) _ _ Hc) as Hok.
  assert (exists q2 s2 e, sub_body i (s_now s) q s = (Ok q2, s2) /\ s_events s2 = e :: s_events s /\
    (e = Ev_ContractEnded i None /\ contracts (s_rent s2) = delete i (contracts (s_rent s)) /\ q2 = q \/
     e = Ev_ContractSubscriptionPeriodStarted i /\ contracts (s_rent s2) = contracts (s_rent s) /\
     q2 = q_ins (i, s_now s + duration_or_period (r_duration c)) q /\ 0 < duration_or_period (r_duration c))) as (q2&s2&e&E&Hev&Hcase).
  { unfold sub_body. destruct (subscription_case s i (s_now s)) as (r&s'&E&[[-> ->]|(c'&t&fee&b'&Hc'&Ht&Hfee&Htc&Hhe&T&->&->)]).
    - pose proof (finished_events i s) as Ev1.
      destruct (finished_runs s _ i c HC HL Hc) as (s1&E1&HL1&Ec1&En1&Ef1). rewrite E1 in Ev1. cbn [snd] in Ev1.
      exists q, (s1 <| s_events ::= cons (Ev_ContractEnded i None) |>), (Ev_ContractEnded i None). unfold bind at 1. rewrite E.
      unfold attempt. unfold bind at 1. rewrite E1. split; [done|]. st_cbn. rewrite Ev1. split; [done|]. left. split_and!; done.
    - assert (c' = c) as -> by congruence.
      set (nb := s_now s + duration_or_period (r_duration c)) in *.
      assert (Hins : q_insert rent_limit i nb q = Some (q_ins (i, nb) q)).
      { unfold q_insert. pose proof (r_size _ _ _ (rl_rok _ _ HL)) as Hz. unfold queues_size, nlen in *. cbn [q_fixed q_sub q_avail length] in Hz.
        destruct (_ <? _) eqn:E3; [done|]. apply N.ltb_ge in E3. lia. }
      exists (q_ins (i, nb) q), (s <| s_bal := b' |> <| s_events ::= cons (Ev_ContractSubscriptionPeriodStarted i) |>), (Ev_ContractSubscriptionPeriodStarted i).
      unfold bind at 1. rewrite E. rewrite Hins. split; [done|]. split; [done|]. right. split_and!; try done. apply (c_per _ _ Hok). }
  destruct (subscription_loop_ok qf qa 1 HC (s_now s) ((i, b) :: q) rent_actions s eq_refl HL ltac:(lia) ltac:(done))
    as (l&q3&s3&R&N3&HL3&_).
  cbn [subscription_loop] in R.
  assert (Ep : q_pop (s_now s) ((i, b) :: q) = Some (i, q)). { unfold q_pop. by rewrite (proj2 (N.leb_le _ _) Hb). }
  rewrite Ep in R. rewrite (sub_loop_body _ _ _ _ _ _ _ E) in R.
  replace (rent_actions <=? rent_actions + 1) with true in R by (symmetry; apply N.leb_le; lia).
  assert (q3 = q2 /\ s3 = s2) as [-> ->]. { unfold ret in R. injection R as -> _ ->. done. }
  exists q2, s2, e, c. split_and!; done.
Qed.

Lemma sub_log qf qa fuel : config_ok -> forall q acts s, rlinv s (mkQueues qf q qa) ->
  rent_actions < acts + N.of_nat fuel -> (fuel <> O)%nat ->
  exists l q' n s', subscription_loop fuel (s_now s) q acts s = (Ok (q', n), s') /\ s_events s' = l ++ s_events s /\ NoDup l /\
    (forall e, e ∈ l -> exists i c b, contracts (s_rent s) !! i = Some c /\ (i, b) ∈ q /\ b <= s_now s /\
       (e = Ev_ContractEnded i None /\ contracts (s_rent s') !! i = None \/
        e = Ev_ContractSubscriptionPeriodStarted i /\ contracts (s_rent s') !! i = Some c /\ (i, s_now s + duration_or_period (r_duration c)) ∈ q')) /\
    (forall i, contracts (s_rent s') !! i = contracts (s_rent s) !! i \/ contracts (s_rent s') !! i = None /\ (contracts (s_rent s) !! i <> None -> Ev_ContractEnded i None ∈ l)) /\
    (forall i b, (i, b) ∈ q' -> (i, b) ∉ q -> Ev_ContractSubscriptionPeriodStarted i ∈ l) /\
    (forall i b, (i, b) ∈ q -> s_now s < b -> (i, b) ∈ q' /\ contracts (s_rent s') !! i = contracts (s_rent s) !! i).
Proof.
  intros HC. induction fuel as [|fuel IH]; [done|]. intros q acts s HL Hlen _. cbn [subscription_loop].
  destruct (q_pop (s_now s) q) as [[i q']|] eqn:Ep.
  2: { exists [], q, acts, s. split_and!; try done; [constructor|by intros e ?%elem_of_nil|by left]. }
  apply q_pop_some in Ep as (b&->&Hb).
  destruct (sub_pop qf qa s i b q' HL) as (_&_&_&Hq&_).
  assert (Hi : i ∉ q'.*1). { destruct Hq as [_ Hq]. cbn in Hq. by apply NoDup_cons in Hq as [? _]. }
  destruct (sub_step qf qa s i b q' HC HL Hb) as (q2&s2&e&c&E&HL2&En2&Hev&Hc&Hcase).
  rewrite (sub_loop_body _ _ _ _ _ _ _ E). destruct (rent_actions <=? acts + 1) eqn:El.
  - exists [e], q2, (acts + 1), s2. split_and!; try done; [apply NoDup_singleton|..].
    + intros e' ->%elem_of_list_singleton. exists i, c, b. split_and!; [done|by left|done|].
      destruct Hcase as [(->&Ec&->)|(->&Ec&->&_)]; [left|right]; rewrite Ec.
      * split; [done|apply lookup_delete].
      * split_and!; [done|done|]. apply q_ins_elem. by left.
    + intros j. destruct Hcase as [(->&Ec&->)|(->&Ec&->&_)]; rewrite Ec; [|by left].
      destruct (decide (j = i)) as [->|Hne]; [right|left; by apply lookup_delete_ne]. split; [apply lookup_delete|]. intros _. by left.
    + intros j b' Hj Hn. destruct Hcase as [(->&Ec&->)|(->&Ec&->&_)]; [by destruct Hn; right|].
      apply q_ins_elem in Hj as [[= -> ->]|Hj]; [by left|by destruct Hn; right].
    + intros j b' Hj Hlt. apply elem_of_cons in Hj as [[= -> ->]|Hj]; [lia|]. assert (j <> i) by (intros ->; apply Hi, q_fst_elem; eauto).
      destruct Hcase as [(->&Ec&->)|(->&Ec&->&_)]; rewrite Ec; [by rewrite lookup_delete_ne|]. split; [|done]. apply q_ins_elem. by right.
  - apply N.leb_gt in El. destruct (IH q2 (acts + 1) s2 HL2) as (l&q3&n&s'&R&L1&L2&L3&L4&L5&L6); [lia|lia|]. rewrite En2 in *.
    assert (Hin2 : forall j b', (j, b') ∈ q2 -> b' <= s_now s -> (j, b') ∈ q' /\ j <> i).
    { intros j b' Hj Hle. assert (Hq' : (j, b') ∈ q').
      { destruct Hcase as [(_&_&->)|(_&_&->&Hpos)]; [done|]. apply q_ins_elem in Hj as [[= -> ->]|Hj]; [lia|done]. }
      split; [done|]. intros ->. apply Hi, q_fst_elem. eauto. }
    assert (Hnot : e ∉ l).
    { intros He. destruct (L3 e He) as (j&c'&b'&Hc'&Hb'&Hle&Hx). destruct (Hin2 j b' Hb' Hle) as [_ Hji].
      destruct Hcase as [(->&_)|(->&_)]; destruct Hx as [[[=] _]|[[=] _]]; congruence. }
    exists (l ++ [e]), q3, n, s'. split_and!.
    + done.
    + by rewrite L1, Hev, <- app_assoc.
    + apply NoDup_app. split_and!; [done| |apply NoDup_singleton]. by intros x Hx ->%elem_of_list_singleton.
    + intros x [Hx| ->%elem_of_list_singleton]%elem_of_app.
      * destruct (L3 x Hx) as (j&c'&b'&Hc'&Hb'&Hle&Hxx). destruct (Hin2 j b' Hb' Hle) as [Hq' Hji]. exists j, c', b'.
        split_and!; [|by right|done|done]. destruct Hcase as [(_&Ec&_)|(_&Ec&_)]; rewrite Ec in Hc'; [|done]. by rewrite lookup_delete_ne in Hc'.
      * exists i, c, b. split_and!; [done|by left|done|]. destruct Hcase as [(->&Ec&_)|(->&Ec&->&Hpos)]; [left|right].
        -- split; [done|]. destruct (L4 i) as [L|[L _]]; [|done]. by rewrite L, Ec, lookup_delete.
        -- destruct (L6 i (s_now s + duration_or_period (r_duration c))) as [Q1 Q2]; [apply q_ins_elem; by left|lia|]. split_and!; [done| |done].
           by rewrite Q2, Ec.
    + intros j. destruct (decide (j = i)) as [->|Hne].
      * destruct Hcase as [(->&Ec&_)|(->&Ec&->&Hpos)].
        -- right. split; [|intros _; apply elem_of_app; right; by left]. destruct (L4 i) as [L|[L _]]; [|done]. by rewrite L, Ec, lookup_delete.
        -- left. destruct (L6 i (s_now s + duration_or_period (r_duration c))) as [_ Q2]; [apply q_ins_elem; by left|lia|]. by rewrite Q2, Ec.
      * assert (Ej : contracts (s_rent s2) !! j = contracts (s_rent s) !! j).
        { destruct Hcase as [(_&Ec&_)|(_&Ec&_)]; rewrite Ec; [by rewrite lookup_delete_ne|done]. }
        destruct (L4 j) as [L|[L L']]; rewrite Ej in *; [by left|right]. split; [done|]. intros H. apply elem_of_app. left. by apply L'.
    + intros j b' Hj Hn. destruct (decide ((j, b') ∈ q2)) as [H2|H2]; [|apply elem_of_app; left; by eapply L5].
      destruct Hcase as [(->&Ec&->)|(->&Ec&->&_)]; [by destruct Hn; right|].
      apply q_ins_elem in H2 as [[= -> ->]|H2]; [apply elem_of_app; right; by left|by destruct Hn; right].
    + intros j b' Hj Hlt. apply elem_of_cons in Hj as [[= -> ->]|Hj]; [lia|]. assert (Hne : j <> i) by (intros ->; apply Hi, q_fst_elem; eauto).
      assert (Hj2 : (j, b') ∈ q2). { destruct Hcase as [(_&_&->)|(_&_&->&_)]; [done|]. apply q_ins_elem. by right. }
      destruct (L6 j b' Hj2 Hlt) as [Q1 Q2]. split; [done|]. rewrite Q2.
      destruct Hcase as [(_&Ec&_)|(_&Ec&_)]; rewrite Ec; [by rewrite lookup_delete_ne|done].
Qed.

(** ** What one hook reports *)
Definition mine (h : hook) (e : event) : Prop :=
  match e with
  | Ev_AuctionCompleted _ _ _ _ _ _ => h = HookAuction
  | Ev_ContractEnded _ _ | Ev_ContractExpired _ | Ev_ContractSubscriptionPeriodStarted _ => h = HookRent
  | Ev_Transmitted _ => h = HookTrans
  | _ => h = HookTee
  end.
Definition told (s t : state) (e : event) : Prop :=
  announced s t e /\ match e with Ev_AuctionCompleted i _ _ _ _ _ | Ev_Transmitted i => settled t i | _ => True end.
Definition full (h : hook) (s s' : state) (l : list event) : Prop :=
  match h with
  | HookAuction => forall i a, auctions (s_auc s) !! i = Some a -> auctions (s_auc s') !! i = None ->
      exists w paid mc rc ac, Ev_AuctionCompleted i w paid mc rc ac ∈ l
  | HookRent =>
      (forall i c, contracts (s_rent s) !! i = Some c -> contracts (s_rent s') !! i = None -> r_rentee c <> None -> Ev_ContractEnded i None ∈ l) /\
      (forall i c, contracts (s_rent s) !! i = Some c -> contracts (s_rent s') !! i = None -> r_rentee c = None -> Ev_ContractExpired i ∈ l) /\
      (forall i, renewed s s' i -> Ev_ContractSubscriptionPeriodStarted i ∈ l)
  | HookTrans => forall i t, transs (s_trans s) !! i = Some t -> transs (s_trans s') !! i = None -> Ev_Transmitted i ∈ l
  | HookTee => s_era s = None -> Ev_FailedToGetActiveEra (s_now s') ∈ l
  end.
Definition reports_on (h : hook) (t : state) : Prop :=
  let t' := snd (run_hook h t) in
  exists l, s_events t' = l ++ s_events t /\ NoDup l /\ (forall e, e ∈ l -> mine h e /\ told t t' e) /\ full h t t' l.

(** The rent hook. *)
Lemma rent_reports t : config_ok -> sreach t -> reports_on HookRent t.
Proof.
  intros HC Ht. destruct (sreach_rent t HC Ht) as [HR HS]. pose proof (sreach_rlinv t Ht HR HS) as HL0.
  unfold reports_on. pose proof (hook_now HookRent t) as Enow. cbn [run_hook] in *.
  destruct (queues (s_rent t)) as [qf qs qa] eqn:Eq.
  destruct (finish_loop_ok (fun l => mkQueues l qs qa) (fun i => Ev_ContractEnded i None) (length qf) HC ltac:(left; eauto) (s_now t) qf 0 t HL0 ltac:(done))
    as (l1&qf'&s1&R1&N1&HL1&O1&Z1&_).
  destruct (finish_log (fun l => mkQueues l qs qa) (fun i => Ev_ContractEnded i None) (length qf) HC ltac:(left; eauto) ltac:(by intros i j [=]) (s_now t) qf 0 t HL0)
    as (m1&V1&D1&I1&U1). rewrite R1 in V1, I1, U1. cbn [snd] in V1, I1, U1.
  destruct (subscription_loop_ok qf' qa (S (N.to_nat rent_actions)) HC (s_now t) qs (0 + nlen l1) s1 ltac:(done) HL1 ltac:(lia) ltac:(done))
    as (l2&qs'&s2&R2&N2&HL2&O2&Z2&_).
  destruct (sub_log qf' qa (S (N.to_nat rent_actions)) HC qs (0 + nlen l1) s1 HL1 ltac:(lia) ltac:(done))
    as (es&q2&n2&s2'&R2'&V2&D2&I2&U2&W2&X2). rewrite N1 in *. rewrite R2' in R2. injection R2 as -> -> ->.
  destruct (finish_loop_ok (fun l => mkQueues qf' qs' l) Ev_ContractExpired (length qa) HC ltac:(right; eauto) (s_now t) qa (0 + nlen l1 + nlen l2) s2 HL2 ltac:(done))
    as (l3&qa'&s3&R3&N3&HL3&O3&Z3&_).
  destruct (finish_log (fun l => mkQueues qf' qs' l) Ev_ContractExpired (length qa) HC ltac:(right; eauto) ltac:(by intros i j [=]) (s_now t) qa (0 + nlen l1 + nlen l2) s2 HL2)
    as (m3&V3&D3&I3&U3). rewrite R3 in V3, I3, U3. cbn [snd] in V3, I3, U3.
  assert (exists s', snd (rent_on_initialize t) = s' /\ queues (s_rent s') = mkQueues qf' qs' qa' /\
    contracts (s_rent s') = contracts (s_rent s3) /\ s_events s' = s_events s3)
    as (s'&Es&Eqs&Ecs&Evs).
  { unfold rent_on_initialize. unfold bind at 1, gets at 1. unfold bind at 1, gets at 1. rewrite Eq. cbn [q_fixed q_sub q_avail].
    unfold bind at 1. rewrite R1. unfold bind at 1. cbn [snd fst]. rewrite R2'. unfold bind at 1. cbn [snd fst]. rewrite R3. cbn [snd fst].
    destruct (0 <? 0 + nlen l1 + nlen l2 + nlen l3) eqn:E; cbn [when].
    - eexists. split; [reflexivity|]. done.
    - apply N.ltb_ge in E. assert (l1 = [] /\ l2 = [] /\ l3 = []) as (El1&El2&El3).
      { destruct l1, l2, l3; try done; unfold nlen in E; cbn [length] in E; lia. }
      destruct (Z1 El1) as [Ef Es1], (Z2 El2) as [Es' Es2], (Z3 El3) as [Ea Es3]. rewrite Ef, Es', Ea in *. subst s1 s2 s3.
      exists t. split_and!; try done. }
  rewrite Es in *. clear Es R1 R2' R3 Z1 Z2 Z3 O1 O2 O3.
  pose proof (rl_rok _ _ HL0) as K0. destruct (r_fix _ _ _ K0) as ([_ NF]&F0&_). destruct (r_subs _ _ _ K0) as ([_ NS]&S0&_). destruct (r_av _ _ _ K0) as (_&A0&_).
  cbn [q_fixed q_sub q_avail] in *.
  destruct (r_subs _ _ _ (rl_rok _ _ HL2)) as (_&S2&_). destruct (r_av _ _ _ (rl_rok _ _ HL2)) as (_&A2&_). cbn [q_fixed q_sub q_avail] in *.
  assert (Hrun : forall i c, contracts (s_rent t) !! i = Some c -> isS (r_start c) = isS (r_rentee c)).
  { intros i c Hc. apply (c_run _ _ (r_cok _ _ _ K0 _ _ Hc)). }
  assert (G1 : forall i, contracts (s_rent s1) !! i = contracts (s_rent t) !! i \/ contracts (s_rent s1) !! i = None /\ (contracts (s_rent t) !! i <> None -> i ∈ m1)).
  { intros i. destruct (decide (i ∈ m1)) as [Hi|Hi]; [|left; auto]. destruct (I1 i Hi) as (_&_&_&_&?). right. auto. }
  assert (G3 : forall i, contracts (s_rent s3) !! i = contracts (s_rent s2) !! i \/ contracts (s_rent s3) !! i = None /\ (contracts (s_rent s2) !! i <> None -> i ∈ m3)).
  { intros i. destruct (decide (i ∈ m3)) as [Hi|Hi]; [|left; auto]. destruct (I3 i Hi) as (_&_&_&_&?). right. auto. }
  assert (B1 : forall i c, contracts (s_rent s1) !! i = Some c -> contracts (s_rent t) !! i = Some c).
  { intros i c Hc. destruct (G1 i) as [E|[E _]]; congruence. }
  assert (B2 : forall i c, contracts (s_rent s2) !! i = Some c -> contracts (s_rent s1) !! i = Some c).
  { intros i c Hc. destruct (U2 i) as [E|[E _]]; congruence. }
  assert (B2n : forall i, contracts (s_rent s1) !! i = None -> contracts (s_rent s2) !! i = None).
  { intros i Hc. destruct (U2 i) as [E|[E _]]; congruence. }
  assert (B3n : forall i, contracts (s_rent s2) !! i = None -> contracts (s_rent s3) !! i = None).
  { intros i Hc. destruct (G3 i) as [E|[E _]]; congruence. }
  set (l := map Ev_ContractExpired m3 ++ es ++ map (fun i => Ev_ContractEnded i None) m1).
  assert (Htrue : forall e, e ∈ l -> mine HookRent e /\ announced t s' e).
  { intros e He. unfold l in He. rewrite !elem_of_app, !elem_of_list_fmap in He. unfold announced, renewed. rewrite Ecs, Eqs, Enow, Eq. cbn [q_sub].
    destruct He as [(i&->&Hi)|[He|(i&->&Hi)]]; cbn [mine].
    - split; [done|]. destruct (I3 i Hi) as (c&b&Hc&Hb&Hn). pose proof (B1 _ _ (B2 _ _ Hc)) as Hc0. exists c. split_and!; [done..|].
      destruct (A2 _ _ Hb) as (c'&Hc'&Ha&_). assert (c' = c) as -> by congruence. unfold in_avail in Ha. rewrite (Hrun _ _ Hc0) in Ha.
      by destruct (r_rentee c).
    - destruct (I2 e He) as (i&c&b&Hc&Hb&Hle&[[-> Hn]|(->&Hk&Hq)]); cbn [mine]; (split; [done|]); pose proof (B1 _ _ Hc) as Hc0.
      + exists c. split_and!; [done|by apply B3n| |done]. destruct (S0 _ _ Hb) as (c'&Hc'&[Ha _]&_). assert (c' = c) as -> by congruence.
        rewrite (Hrun _ _ Hc0) in Ha. by destruct (r_rentee c).
      + exists c, b. split_and!; [done| |done|done|by rewrite period_is].
        destruct (G3 i) as [E|[E H3]]; [congruence|]. exfalso. destruct (I3 i) as (_&b3&_&Hb3&_); [apply H3; congruence|].
        destruct (A2 _ _ Hb3) as (c1&Hc1&P1&_). destruct (S2 _ _ Hq) as (c2&Hc2&[P2 _]&_). unfold in_avail in P1. congruence.
    - split; [done|]. destruct (I1 i Hi) as (c&b&Hc&Hb&Hn). exists c. split_and!; [done|by apply B3n, B2n| |done].
      destruct (F0 _ _ Hb) as (c'&Hc'&[Ha _]&_). assert (c' = c) as -> by congruence. rewrite (Hrun _ _ Hc) in Ha. by destruct (r_rentee c). }
  assert (Hgone : forall i c, contracts (s_rent t) !! i = Some c -> contracts (s_rent s') !! i = None ->
    Ev_ContractEnded i None ∈ l \/ Ev_ContractExpired i ∈ l).
  { intros i c Hc Hn. rewrite Ecs in Hn. unfold l. rewrite !elem_of_app, !elem_of_list_fmap.
    destruct (G1 i) as [E1|[E1 H1]]; [|left; right; right; exists i; split; [done|apply H1; congruence]].
    destruct (U2 i) as [E2|[E2 H2]]; [|left; right; left; apply H2; congruence].
    destruct (G3 i) as [E3|[E3 H3]]; [congruence|]. right; left. exists i. split; [done|apply H3; congruence]. }
  exists l. split_and!.
  - rewrite Evs, V3, V2, V1. unfold l. by rewrite !app_assoc.
  - unfold l. apply NoDup_app. split_and!; [by apply NoDup_fmap; [intros ? ? [=]|]| |apply NoDup_app; split_and!; [done| |by apply NoDup_fmap; [intros ? ? [=]|]]].
    + intros e (i&->&Hi)%elem_of_list_fmap [He|(j&[=]&_)%elem_of_list_fmap]%elem_of_app.
      by destruct (I2 _ He) as (?&?&?&_&_&_&[[[=] _]|[[=] _]]).
    + intros e He (i&->&Hi)%elem_of_list_fmap. destruct (I2 _ He) as (j&c&b&Hc&_&_&[[[=] _]|[[=] _]]). subst j.
      destruct (I1 i Hi) as (_&_&_&_&Hn). congruence.
  - intros e He. destruct (Htrue e He) as [M A]. split; [done|]. split; [done|]. destruct e; try done; discriminate M.
  - split_and!.
    + intros i c Hc Hn Hr. destruct (Hgone i c Hc Hn) as [H|H]; [done|]. destruct (Htrue _ H) as [_ (c'&Hc'&_&Hr')]. congruence.
    + intros i c Hc Hn Hr. destruct (Hgone i c Hc Hn) as [H|H]; [|done]. destruct (Htrue _ H) as [_ (c'&Hc'&_&Hr'&_)]. congruence.
    + intros i (c&b&Hc&_&Hb&Hle&Hnew). unfold l. rewrite !elem_of_app. right; left. rewrite Eqs, Enow, Eq in *. cbn [q_sub] in *.
      eapply W2; [exact Hnew|]. intros Hold. pose proof (q_uniq _ _ _ _ NS Hb Hold) as E. rewrite period_is in E.
      pose proof (c_per _ _ (r_cok _ _ _ K0 _ _ Hc)). lia.
Qed.

(** The transmission hook. *)
Lemma trans_reports t : sreach t -> reports_on HookTrans t.
Proof.
  intros Ht. pose proof (sreach_inv1 t Ht) as HI. pose proof (sreach_tinv t Ht) as HT.
  destruct (trans_hook_run t (inv1_tback t HI) HT) as (l&t2&Eh&Eq&_&_&_&[D1 D2 (m1&m2&q&D3)]&_).
  unfold reports_on. cbn [run_hook]. rewrite Eh. cbn [snd].
  assert (Hrev : forall i, i ∈ rev (l.*1) <-> i ∈ l.*1) by (intros i; by rewrite <- (Permutation_rev (l.*1))).
  exists (map Ev_Transmitted (rev (l.*1))). split_and!.
  - rewrite D3. done.
  - apply NoDup_fmap; [by intros ? ? [=]|]. rewrite <- (Permutation_rev (l.*1)). destruct HT as [K1 K2 K3 K4 K5 K6].
    destruct K1 as [_ K1]. rewrite Eq, fmap_app in K1. by apply NoDup_app in K1 as (?&_&_).
  - intros e (i&->&Hi%Hrev)%elem_of_list_fmap. split; [done|].
    destruct (D1 i Hi) as (u&d&Hu&Hd&N1&N2). split.
    + exists u. split_and!; [done|done|]. unfold owner_of. by rewrite N2.
    + destruct (trans_alone t i u d HI Hu Hd) as (F1&F2&_). split_and!; [|done|]; rewrite D3; [exact F1|exact F2].
  - intros i u Hu Hn. apply elem_of_list_fmap. exists i. split; [done|]. apply Hrev.
    destruct (decide (i ∈ l.*1)) as [|Hi]; [done|]. destruct (D2 i Hi). congruence.
Qed.

(** The tee hook. *)
Lemma tee_reports t : reports_on HookTee t.
Proof.
  unfold reports_on. cbn [run_hook].
  assert (E : tee_on_initialize t = match s_era t with None => emit (Ev_FailedToGetActiveEra (s_now t)) t
    | Some n => when (history_depth <=? n) (clear_old_era (n - history_depth)) t end).
  { unfold tee_on_initialize. unfold bind at 1, gets at 1. unfold bind at 1, gets at 1. by destruct (s_era t). }
  rewrite E. destruct (s_era t) as [n|] eqn:Ee.
  - exists []. split_and!; [|constructor|by intros e ?%elem_of_nil|cbn; congruence]. by destruct (history_depth <=? n).
  - exists [Ev_FailedToGetActiveEra (s_now t)]. split_and!; [done|apply NoDup_singleton| |intros _; by left].
    intros e ->%elem_of_list_singleton. split; [done|]. done.
Qed.

(** The auction hook. *)
Lemma auction_settled s s' i a : inv1 s -> auctions (s_auc s) !! i = Some a -> auctions (s_auc s') = delete i (auctions (s_auc s)) ->
  s_rent s' = s_rent s -> s_trans s' = s_trans s -> settled s' i.
Proof.
  intros HI Ha E2 E3 E4. destruct (auction_nft s i a HI Ha) as (d&Hd&Hl&Ho).
  split; [by rewrite E2, lookup_delete|]. rewrite E3, E4. split.
  - destruct (transs (s_trans s) !! i) eqn:Et; [|done]. exfalso.
    destruct (trans_nft s i _ HI Et) as (y&Hy&Hf). assert (y = d) as -> by congruence. rewrite (listed_alone s i d HI Hd Hl) in Hf. done.
  - intros j k Hk Hs. eapply (engaged_unsecured s i d j k); eauto.
Qed.

Definition alog (s t : state) : Prop :=
  (inv1 t /\ hrel s t) /\ commissions (s_auc t) = commissions (s_auc s) /\
  exists l, s_events t = l ++ s_events s /\ NoDup l /\ (forall e, e ∈ l -> mine HookAuction e /\ told s t e) /\ full HookAuction s t l.

Lemma told_later s t u e : inv1 t -> hrel t u -> s_now u = s_now t -> (mine HookRent e -> s_rent u = s_rent t) -> told s t e -> told s u e.
Proof.
  intros HI HR Hnow Hrent [A S].
  assert (Hown : forall i, settled t i -> owner_of u i = owner_of t i).
  { intros i Hset. unfold owner_of. pose proof (h_nft _ _ HR i) as Hn. destruct (nfts (s_nft t) !! i) as [d|]; [|by rewrite Hn].
    destruct Hn as (d'&->&_&Ho). cbn. f_equal. destruct Ho as [?|[Hm _]]; [done|]. exfalso. destruct Hset as (F1&F2&F3).
    destruct Hm as [(a&amt&Ha&_)|[(x&Hx&_)|(id&k&Hk&Hr&_)]]; [congruence..|]. by eapply F3. }
  pose proof HR as [H1 H2 H3 _ _]. split.
  - destruct e; try done; cbn [announced] in *.
    + destruct A as (a&Ha&Hn&Hc). exists a. split_and!; [done|by eapply sub_None|]. by rewrite Hown.
    + destruct A as (c&Hc&Hn&Hr). exists c. split_and!; [done|by eapply sub_None|apply Hr..].
    + unfold renewed in *. by rewrite Hrent, Hnow.
    + destruct A as (c&Hc&Hn&Hr). exists c. split_and!; [done|by eapply sub_None|exact Hr].
    + destruct A as (x&Hx&Hn&Ho). exists x. split_and!; [done|by eapply sub_None|]. by rewrite Hown.
    + by rewrite Hnow.
  - destruct e; try done; by eapply settled_sub.
Qed.

Lemma settle_log i s : let s' := snd (settle_one i s) in
  (s_events s' = s_events s /\ s_auc s' = s_auc s /\ s_nft s' = s_nft s) \/
  exists d a, nfts (s_nft s) !! i = Some d /\ auctions (s_auc s) !! i = Some a /\
    auctions (s_auc s') = delete i (auctions (s_auc s)) /\ commissions (s_auc s') = commissions (s_auc s) /\
    s_rent s' = s_rent s /\ s_trans s' = s_trans s /\
    ((a_bidders a = [] /\ s_events s' = Ev_AuctionCompleted i None None None None None :: s_events s /\ owner_of s' i = Some (owner d)) \/
     exists l w x f, a_bidders a = l ++ [(w, x)] /\ commissions (s_auc s) !! i = Some f /\
       s_events s' = Ev_AuctionCompleted i (Some w) (Some x) (Some (auc_com f x)) (Some (auc_roy f d x)) (Some (auc_rest f d x)) :: s_events s /\
       owner_of s' i = Some w).
Proof.
  cbv zeta. destruct (settle_one i s) as [r s'] eqn:E. cbn [snd]. revert E. unfold settle_one, get_auction, get_nft. unfold bind at 1, gets at 1.
  destruct (auctions (s_auc s) !! i) as [a|] eqn:Ha; [|intros [= _ <-]; left; done].
  unfold bind at 1, gets at 1.
  destruct (nfts (s_nft s) !! i) as [d|] eqn:Hd; [|intros [= _ <-]; left; done].
  destruct (pop_highest (a_bidders a)) as [[[w x] rest]|] eqn:Hp.
  - apply pop_highest_some in Hp. unfold bind at 1, catch.
    destruct (pay_for_nft i auction_pot x d (a <| a_bidders := rest |>) s) as [[cut|e] s1] eqn:HP.
    + apply pay_ok in HP as (m&f&b'&Hm&Hf&->&HP&->). rewrite claim_all_bind. intros [= _ <-].
      right. exists d, a. split_and!; try done. right. exists rest, w, x, f. split_and!; [done|done|done|].
      unfold owner_of. cbn. by rewrite lookup_insert.
    + intros [= _ <-].
      left. cut (pres (fun t => s_events t = s_events s /\ s_auc t = s_auc s /\ s_nft t = s_nft s) (pay_for_nft i auction_pot x d (a <| a_bidders := rest |>))).
      { intros H. unfold pres in H. specialize (H s (conj eq_refl (conj eq_refl eq_refl))). cbv beta in H. rewrite HP in H. exact H. }
      pres_go; st_cbn; assumption.
  - apply pop_highest_none in Hp. intros [= _ <-]. right. exists d, a. split_and!; try done. left. split_and!; [done|done|].
    unfold owner_of. cbn. rewrite lookup_insert. done.
Qed.

Lemma alog_settle s i : sreach s -> pres (alog s) (settle_one i).
Proof.
  intros Hs t ([HI HR]&Ec&l&El&Hnd&Htrue&Hfull). pose proof (hq_settle_one t i t) as Hq. unfold hq in Hq.
  destruct Hq as [HI' HR1]; [split; [done|by apply hrel_same]|].
  assert (Hnow : s_now (snd (settle_one i t)) = s_now t).
  { assert (H : pres (fun u => s_now u = s_now t) (settle_one i)) by (pres_go; st_cbn; assumption). by apply H. }
  pose proof (settle_log i t) as HL. cbv zeta in HL. set (t' := snd (settle_one i t)) in *. clearbody t'.
  split; [split; [done|by eapply hrel_trans]|].
  assert (Hlater : forall e, e ∈ l -> mine HookAuction e /\ told s t' e).
  { intros e He. destruct (Htrue e He) as [M T]. split; [done|]. apply (told_later s t); try done. intros M'. destruct e; discriminate M || discriminate M'. }
  destruct HL as [(Ev&Ea&En)|(d&a&Hd&Ha&Ea&Eco&Er&Et&Hc)].
  { rewrite Ea. split; [done|]. exists l. rewrite Ev. split_and!; try done. unfold full in *. by rewrite Ea. }
  split; [congruence|].
  assert (Hset : settled t' i) by (exact (auction_settled t t' i a HI Ha Ea Er Et)).
  assert (Ha0 : auctions (s_auc s) !! i = Some a) by (eapply lookup_weaken; [exact Ha|apply HR]).
  assert (Hgone : auctions (s_auc t') !! i = None) by (by rewrite Ea, lookup_delete).
  pose proof (h_nft _ _ HR i) as Hn. destruct (nfts (s_nft s) !! i) as [d0|] eqn:Hd0; [|congruence].
  destruct Hn as (d'&Hd'&Htr&Ho). assert (d' = d) as -> by congruence.
  assert (exists e w p mc rc ac, e = Ev_AuctionCompleted i w p mc rc ac /\ s_events t' = e :: s_events t /\ told s t' e) as (e&w&p&mc&rc&ac&->&Ev&Ht).
  { destruct Hc as [(Hb&Ev&Hown)|(r&w&x&f&Hb&Hf&Ev&Hown)]; eexists _, _, _, _, _, _; (split; [reflexivity|]); (split; [exact Ev|]); (split; [|exact Hset]);
      exists a; (split; [done|]); (split; [done|]); [left|right].
    - split_and!; try done. rewrite Hown. unfold owner_of. rewrite Hd0. cbn. f_equal. destruct Ho as [?|[_ Hs']]; [done|].
      destruct Hs' as [Hs' _]. congruence.
    - rewrite Ec in Hf. exists r, w, x, d0, f, (auc_com f x), (auc_roy f d0 x), (auc_rest f d0 x).
      assert (Er' : auc_roy f d x = auc_roy f d0 x). { unfold auc_roy. unfold same_traits in Htr. destruct_and! Htr. congruence. }
      split_and!; try done; [|unfold auc_rest; by rewrite Er'].
      pose proof (sreach_ainv s Hs) as HA. pose proof (a_books _ _ HA i a Ha0) as B.
      assert (Hx : a_start_price a < x). { apply (b_each _ B w x). rewrite Hb. apply elem_of_app. right. by left. }
      unfold division. split; [apply auc_com_share|]. split; [apply permill_mul_share|].
      destruct (shares_sum s i a d0 f x (sreach_pinv s Hs) (or_introl HA) Hd0 Ha0 Hf ltac:(lia)) as (_&_&?). done. }
  exists (Ev_AuctionCompleted i w p mc rc ac :: l). split_and!.
  - rewrite Ev, El. done.
  - apply NoDup_cons. split; [|done]. intros Hin. destruct (Htrue _ Hin) as [_ [(a'&_&Hn&_) _]]. congruence.
  - intros e [->|He]%elem_of_cons; [done|by apply Hlater].
  - intros j a' Ha' Hj. destruct (decide (j = i)) as [->|Hne]; [exists w, p, mc, rc, ac; by left|].
    rewrite Ea, lookup_delete_ne in Hj by done. destruct (Hfull j a' Ha' Hj) as (w'&p'&m'&r'&c'&Hin). exists w', p', m', r', c'. by right.
Qed.
Lemma auction_reports t : sreach t -> reports_on HookAuction t.
Proof.
  intros Ht. cut (pres (alog t) (run_hook HookAuction)).
  { intros H. destruct (H t) as (_&_&l&Hl); [|exists l; exact Hl].
    split; [split; [by apply sreach_inv1|by apply hrel_same]|]. split; [done|]. exists []. split_and!; [done|constructor|by intros e ?%elem_of_nil|].
    intros i a Ha Hn. congruence. }
  cbn [run_hook]. apply pres_auction_hook; [intros id; by apply alog_settle|].
  intros u dl ([HI HR]&Ec&l&El&Hnd&Htrue&Hfull). assert (Hq : hq t (u <| s_auc ::= fun x => x <| deadlines := dl |> |>)) by (by eapply (hq_frame t u)).
  split; [exact Hq|]. split; [done|]. exists l. split_and!; try done.
Qed.
Lemma hook_reports h t : config_ok -> sreach t -> reports_on h t.
Proof. intros HC Ht. destruct h; [by apply auction_reports|by apply rent_reports|by apply trans_reports|apply tee_reports]. Qed.

(** ** The whole block *)
(** What hook [h] works on is as in [s]. *)
Definition untouched (h : hook) (s t : state) : Prop :=
  match h with
  | HookAuction => s_auc t = s_auc s
  | HookRent => s_rent t = s_rent s
  | HookTrans => s_trans t = s_trans s
  | HookTee => s_era t = s_era s
  end.
Lemma hook_era h t : s_era (snd (run_hook h t)) = s_era t.
Proof. pose proof (hook_kept h t) as Hk. unfold kept in Hk. by destruct Hk as (_&->&_). Qed.
Lemma untouched_hook h h' t : h' <> h -> untouched h t (snd (run_hook h' t)).
Proof.
  intros Hne. destruct h; cbn [untouched]; [by apply hook_auc_kept|by apply hook_rent_kept|by apply hook_trans_kept|apply hook_era].
Qed.
Lemma told_base h s t t' e : hrel s t -> untouched h s t -> mine h e -> told t t' e -> told s t' e.
Proof.
  intros HR HU M [A S]. split; [|done]. destruct e; try done; cbn [mine] in M; subst h; cbn [untouched] in HU; cbn [announced] in *; unfold renewed in *.
  - rewrite HU in A. destruct A as (a&Ha&Hn&Hc). exists a. split; [done|]. split; [done|].
    pose proof (h_nft _ _ HR id) as Hx. destruct Hc as [(Hb&H1&H2&Ho)|(l&v&x&d&f&com&roy&rest&Hb&Hd&Hf&Hdiv&H1&H2&Ho)]; [left|right].
    + split_and!; try done. rewrite Ho. unfold owner_of. destruct (nfts (s_nft s) !! id) as [d|]; [|by rewrite Hx].
      destruct Hx as (d'&->&_&Hx). cbn. f_equal. destruct Hx as [?|[_ Hset]]; [done|]. destruct Hset as [Hset _]. congruence.
    + destruct (nfts (s_nft s) !! id) as [d0|]; [|congruence]. destruct Hx as (d'&Hd'&Htr&_). assert (d' = d) as -> by congruence.
      exists l, v, x, d0, f, com, roy, rest. split_and!; try done. unfold division in *. unfold same_traits in Htr. destruct_and! Htr.
      by replace (royalty d0) with (royalty d).
  - by rewrite HU in A.
  - by rewrite HU in A.
  - by rewrite HU in A.
  - by rewrite HU in A.
  - by rewrite HU in A.
Qed.
Lemma full_base h s t t' l : untouched h s t -> full h t t' l -> full h s t' l.
Proof. destruct h; cbn [untouched full]; unfold renewed; intros E; by rewrite E. Qed.
Lemma full_later h s t u l : untouched h t u -> s_now u = s_now t -> full h s t l -> full h s u l.
Proof. destruct h; cbn [untouched full]; unfold renewed; intros E En; try rewrite E; by rewrite ?En. Qed.
Lemma full_more h s t l l' : (forall e, e ∈ l -> e ∈ l') -> full h s t l -> full h s t l'.
Proof.
  intros Hl. destruct h; cbn [full].
  - intros H i a H1 H2. destruct (H i a H1 H2) as (w&p&m&r&c&Hin). eauto 10.
  - intros (H1&H2&H3). split_and!; eauto.
  - eauto.
  - eauto.
Qed.

Lemma hooks_report hs : config_ok -> forall s t, sreach t -> hrel s t -> NoDup hs -> (forall h, h ∈ hs -> untouched h s t) ->
  let u := fold_left (fun s h => snd (run_hook h s)) hs t in
  exists l, s_events u = l ++ s_events t /\ NoDup l /\ (forall e, e ∈ l -> (exists h, h ∈ hs /\ mine h e) /\ told s u e) /\
    (forall h, h ∈ hs -> full h s u l) /\ sreach u /\ hrel t u /\ s_now u = s_now t /\
    (forall h, h ∉ hs -> untouched h t u).
Proof.
  intros HC. induction hs as [|h hs IH]; intros s t Ht HR Hnd HU; cbn [fold_left].
  - exists []. split_and!; [done|constructor|by intros e ?%elem_of_nil|by intros h ?%elem_of_nil|done|by apply hrel_same|done|by intros []].
  - apply NoDup_cons in Hnd as [Hh Hnd]. pose proof (hook_reports h t HC Ht) as (l1&V1&D1&T1&F1).
    set (t1 := snd (run_hook h t)) in *. assert (Ht1 : sreach t1) by (by apply sr_hook).
    pose proof (hook_hrel t h (sreach_inv1 t Ht)) as HR1. pose proof (hook_now h t) as En1. fold t1 in HR1, En1.
    assert (HU1 : forall h', h' <> h -> untouched h' t t1) by (intros h' Hne; apply untouched_hook; congruence).
    clearbody t1. destruct (IH s t1 Ht1) as (l2&V2&D2&T2&F2&Hu&HR2&En2&HU2); [by eapply hrel_trans|done| |].
    { intros h' Hh'. assert (h' <> h) as Hne by (intros ->; done). specialize (HU h' ltac:(by right)). specialize (HU1 h' Hne).
      destruct h'; cbn [untouched] in *; congruence. }
    set (u := fold_left (fun s h => snd (run_hook h s)) hs t1) in *. clearbody u.
    assert (Hmine : forall e h1 h2, mine h1 e -> mine h2 e -> h1 = h2) by (intros [] ? ?; cbn; congruence).
    exists (l2 ++ l1). split_and!; [by rewrite V2, V1, app_assoc| | | |done|by eapply hrel_trans|congruence|].
    + apply NoDup_app. split_and!; [done| |done]. intros e H2 H1. destruct (T2 e H2) as [(h'&Hh'&M') _]. destruct (T1 e H1) as [M _].
      by rewrite (Hmine e h h' M M') in Hh.
    + intros e [H2|H1]%elem_of_app.
      * destruct (T2 e H2) as [(h'&Hh'&M') ?]. split; [exists h'; split; [by right|done]|done].
      * destruct (T1 e H1) as [M Htold]. split; [exists h; split; [by left|done]|].
        apply (told_later s t1); [by apply sreach_inv1|done|done| |].
        -- intros M'. rewrite (Hmine e h HookRent M M') in Hh. apply (HU2 HookRent Hh).
        -- eapply told_base; [exact HR|apply HU; by left|exact M|exact Htold].
    + intros h' [->|Hh']%elem_of_cons.
      * eapply full_more; [|eapply full_later; [by apply HU2|exact En2|eapply full_base; [apply HU; by left|exact F1]]].
        intros e He. apply elem_of_app. by right.
      * eapply full_more; [|by apply F2]. intros e He. apply elem_of_app. by left.
    + intros h' Hh'. rewrite not_elem_of_cons in Hh'. destruct Hh' as [Hne Hh']. specialize (HU1 h' Hne). specialize (HU2 h' Hh').
      destruct h'; cbn [untouched] in *; congruence.
Qed.

Lemma block_log s : config_ok -> reachable s -> exists l, s_events (step s NextBlock) = l ++ s_events s /\ true_log s (step s NextBlock) l.
Proof.
  intros HC Hs. cbn [step]. unfold next_block, run_hooks.
  assert (Hnd : NoDup hook_order).
  { rewrite (ok_hooks HC). repeat (apply NoDup_cons; split; [set_solver|]). apply NoDup_nil_2. }
  assert (Hall : forall h, h ∈ hook_order) by (intros h; rewrite (ok_hooks HC); destruct h; set_solver).
  destruct (hooks_report hook_order HC s (s <| s_now ::= fun n => n + 1 |>)) as (l&V&D&T&F&_); [by apply sr_tick, reachable_sreach|by apply hrel_same|done|by intros []|].
  exists l. split; [exact V|]. split.
  - intros e He. apply (T e He).
  - done.
  - apply (F HookAuction (Hall _)).
  - apply (F HookRent (Hall _)).
  - apply (F HookRent (Hall _)).
  - apply (F HookRent (Hall _)).
  - apply (F HookTrans (Hall _)).
  - apply (F HookTee (Hall _)).
Qed.
End log.
