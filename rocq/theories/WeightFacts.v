(** The lemmas behind the weights of the block hooks. *)
From Verif Require Export SpecWeight BlockLog.
Local Open Scope N_scope.

Section weight.
Context {C : Config}.

Lemma nlen_app {A} (l k : list A) : nlen (l ++ k) = nlen l + nlen k.
Proof. unfold nlen. rewrite app_length. lia. Qed.
Lemma sum_const {A} (f : A -> N) c (l : list A) : (forall x, x ∈ l -> f x = c) -> sum_of (map f l) = c * nlen l.
Proof.
  induction l as [|x l IH]; intros H; [unfold nlen; cbn; lia|]. cbn [map sum_of fold_right]. rewrite H by (by left).
  unfold sum_of in IH. rewrite IH by (intros y Hy; apply H; by right). unfold nlen. cbn [length]. lia.
Qed.
Lemma sum_app (l k : list N) : sum_of (l ++ k) = sum_of l + sum_of k.
Proof. unfold sum_of. induction l as [|x l IH]; [done|]. cbn. rewrite IH. lia. Qed.
Lemma sum_most {A} (f : A -> N) c (l : list A) : (forall x, x ∈ l -> f x <= c) -> sum_of (map f l) <= nlen l * c.
Proof.
  induction l as [|x l IH]; intros H; [unfold nlen; cbn; lia|]. cbn [map sum_of fold_right]. specialize (H x) as Hx.
  unfold sum_of in IH. assert (f x <= c) by (apply Hx; by left). assert (fold_right N.add 0 (map f l) <= nlen l * c) by (apply IH; intros y Hy; apply H; by right).
  unfold nlen in *. cbn [length]. lia.
Qed.
Lemma sum_least {A} (f : A -> N) c (l : list A) : (forall x, x ∈ l -> c <= f x) -> nlen l * c <= sum_of (map f l).
Proof.
  induction l as [|x l IH]; intros H; [unfold nlen; cbn; lia|]. cbn [map sum_of fold_right]. specialize (H x) as Hx.
  unfold sum_of in IH. assert (c <= f x) by (apply Hx; by left). assert (nlen l * c <= fold_right N.add 0 (map f l)) by (apply IH; intros y Hy; apply H; by right).
  unfold nlen in *. cbn [length]. lia.
Qed.

Lemma one_more a c n k : k + 1 <= n -> a + c + c * (n - (k + 1)) = a + c * (n - k).
Proof. intros H. replace (n - k) with (n - (k + 1) + 1) by lia. lia. Qed.

(** ** The loops with counters are the loops *)
Lemma finish_w ev w fuel now : forall q acts rw s,
  exists r s', finish_loop ev fuel now q acts s = (r, s') /\
    match r with
    | Ok (q', n) => acts <= n /\ nlen (s_events s') = nlen (s_events s) + (n - acts) /\
        finish_loop_w ev w fuel now q acts rw s = (Ok (q', n, (fst rw + 3 * (n - acts), snd rw + w * (n - acts))), s')
    | Err e => finish_loop_w ev w fuel now q acts rw s = (Err e, s')
    end.
Proof.
  induction fuel as [|f IH]; intros q acts rw s; cbn [finish_loop finish_loop_w].
  { eexists _, _. split; [reflexivity|]. unfold ret. cbv beta iota. rewrite N.sub_diag, !N.mul_0_r, !N.add_0_r. split_and!; [lia|lia|]. by destruct rw. }
  destruct (q_pop now q) as [[i q']|].
  2: { eexists _, _. split; [reflexivity|]. unfold ret. cbv beta iota. rewrite N.sub_diag, !N.mul_0_r, !N.add_0_r. split_and!; [lia|lia|]. by destruct rw. }
  pose proof (finished_events i s) as Ev. set (s2 := (snd (handle_finished i s)) <| s_events ::= cons (ev i) |>).
  assert (Ek : forall A (k : M A), (attempt (handle_finished i) ;;; emit (ev i) ;;; k) s = k s2) by done.
  repeat rewrite Ek. clear Ek.
  assert (Ev2 : nlen (s_events s2) = nlen (s_events s) + 1). { subst s2. st_cbn. rewrite Ev. unfold nlen. cbn [length]. lia. }
  clearbody s2. destruct (rent_actions <=? acts + 1).
  - eexists _, _. split; [reflexivity|]. unfold ret. cbv beta iota. replace (acts + 1 - acts) with 1 by lia. rewrite !N.mul_1_r. split_and!; [lia|lia|done].
  - destruct (IH q' (acts + 1) (fst rw + 3, snd rw + w) s2) as (r&s'&->&H). exists r, s'. split; [done|].
    destruct r as [[q2 n]|e]; [|exact H]. destruct H as (H1&H2&->). split_and!; [lia|lia|]. cbn [fst snd]. by rewrite !one_more by lia.
Qed.

Lemma subscription_events i now s : s_events (snd (handle_subscription i now s)) = s_events s.
Proof.
  assert (H : pres (fun t => s_events t = s_events s) (handle_subscription i now)) by (pres_go; st_cbn; assumption). by apply H.
Qed.

Lemma sub_w fuel now : forall q acts rw s,
  exists r s', subscription_loop fuel now q acts s = (r, s') /\
    match r with
    | Ok (q', n) => acts <= n /\ nlen (s_events s') = nlen (s_events s) + (n - acts) /\
        subscription_loop_w fuel now q acts rw s = (Ok (q', n, (fst rw + 3 * (n - acts), snd rw + 2 * (n - acts))), s')
    | Err e => subscription_loop_w fuel now q acts rw s = (Err e, s')
    end.
Proof.
  induction fuel as [|f IH]; intros q acts rw s; cbn [subscription_loop subscription_loop_w].
  { eexists _, _. split; [reflexivity|]. unfold ret. cbv beta iota. rewrite N.sub_diag, !N.mul_0_r, !N.add_0_r. split_and!; [lia|lia|]. by destruct rw. }
  destruct (q_pop now q) as [[i q']|].
  2: { eexists _, _. split; [reflexivity|]. unfold ret. cbv beta iota. rewrite N.sub_diag, !N.mul_0_r, !N.add_0_r. split_and!; [lia|lia|]. by destruct rw. }
  pose proof (subscription_events i now s) as Ev0. set (m := fun r => match r with
       | Some b => emit (Ev_ContractSubscriptionPeriodStarted i) ;;; ret (default q' (q_insert rent_limit i b q'))
       | None => attempt (handle_finished i) ;;; emit (Ev_ContractEnded i None) ;;; ret q' end).
  destruct (handle_subscription i now s) as [[r|e] s1] eqn:Eh; cbn [snd] in Ev0.
  2: { assert (Ek : forall A (k : _ -> M A), (let! r := handle_subscription i now in k r) s = (Err e, s1)) by (intros A k; unfold bind; by rewrite Eh).
       repeat rewrite Ek. eexists _, _. split; [reflexivity|]. done. }
  assert (exists q2 s2, m r s1 = (Ok q2, s2) /\ nlen (s_events s2) = nlen (s_events s) + 1) as (q2&s2&E&Ev2).
  { subst m. destruct r as [b|].
    - eexists _, _. split; [reflexivity|]. st_cbn. rewrite Ev0. unfold nlen. cbn [length]. lia.
    - pose proof (finished_events i s1) as Ev. eexists _, _. split; [reflexivity|]. st_cbn. rewrite Ev, Ev0. unfold nlen. cbn [length]. lia. }
  assert (Ek : forall A (k : _ -> M A), (let! r := handle_subscription i now in let! q'' := m r in k q'') s = k q2 s2).
  { intros A k. unfold bind at 1. rewrite Eh. unfold bind. by rewrite E. }
  subst m. cbv beta in Ek. repeat rewrite Ek. clear Ek E.
  destruct (rent_actions <=? acts + 1).
  - eexists _, _. split; [reflexivity|]. unfold ret. cbv beta iota. replace (acts + 1 - acts) with 1 by lia. rewrite ?N.mul_1_r. split_and!; [lia|lia|done].
  - destruct (IH q2 (acts + 1) (fst rw + 3, snd rw + 2) s2) as (r'&s'&->&H). exists r', s'. split; [done|].
    destruct r' as [[q3 n]|e]; [|exact H]. destruct H as (H1&H2&->). split_and!; [lia|lia|]. cbn [fst snd]. by rewrite !one_more by lia.
Qed.

Lemma trans_w fuel now : forall q acts rw s,
  exists r s', trans_loop fuel now q acts s = (r, s') /\
    match r with
    | Ok (q', n) => acts <= n /\
        trans_loop_w fuel now q acts rw s = (Ok (q', n, (fst rw + 2 * (n - acts), snd rw + 2 * (n - acts))), s')
    | Err e => trans_loop_w fuel now q acts rw s = (Err e, s')
    end.
Proof.
  induction fuel as [|f IH]; intros q acts rw s; cbn [trans_loop trans_loop_w].
  { eexists _, _. split; [reflexivity|]. unfold ret. cbv beta iota. rewrite N.sub_diag, !N.mul_0_r, !N.add_0_r. split_and!; [lia|]. by destruct rw. }
  destruct (q_pop now q) as [[i q']|].
  2: { eexists _, _. split; [reflexivity|]. unfold ret. cbv beta iota. rewrite N.sub_diag, !N.mul_0_r, !N.add_0_r. split_and!; [lia|]. by destruct rw. }
  destruct (transmit_nft i s) as [r1 s1] eqn:Et. destruct r1 as [[]|e].
  - set (s2 := s1 <| s_events ::= cons (Ev_Transmitted i) |>).
    assert (Ek : forall A (k : res unit -> N -> M A), (let! r := catch (transmit_nft i) in let! a := (match r with Ok _ => emit (Ev_Transmitted i) ;;; ret (acts + 1)
      | Err _ => emit (Ev_TransmissionError i) ;;; ret acts end) in k r a) s = k (Ok tt) (acts + 1) s2).
    { intros A k. unfold bind at 1, catch. by rewrite Et. }
    pose proof (Ek _ (fun r a => if trans_actions <=? a then ret (q', a) else trans_loop f now q' a)) as E1. cbv beta in E1. rewrite !E1.
    pose proof (Ek _ (fun r a => 
      if trans_actions <=? a then ret (q', a, match r with Ok _ => (fst rw + 2, snd rw + 2) | Err _ => rw end) else trans_loop_w f now q' a (match r with Ok _ => (fst rw + 2, snd rw + 2) | Err _ => rw end))) as E2. cbv beta in E2. rewrite !E2. clear Ek E1 E2. clearbody s2. cbv zeta iota. destruct (trans_actions <=? acts + 1).
    + eexists _, _. split; [reflexivity|]. unfold ret. cbv beta iota. replace (acts + 1 - acts) with 1 by lia. rewrite ?N.mul_1_r. split_and!; [lia|done].
    + destruct (IH q' (acts + 1) (fst rw + 2, snd rw + 2) s2) as (r'&s'&->&H). exists r', s'. split; [done|].
      destruct r' as [[q3 n]|e]; [|exact H]. destruct H as (H1&->). split_and!; [lia|]. cbn [fst snd]. by rewrite !one_more by lia.
  - assert (exists s2, forall A (k : res unit -> N -> M A), (let! r := catch (transmit_nft i) in let! a := (match r with Ok _ => emit (Ev_Transmitted i) ;;; ret (acts + 1)
      | Err _ => emit (Ev_TransmissionError i) ;;; ret acts end) in k r a) s = k (Err e) acts s2) as [s2 Ek].
    { eexists. intros A k. unfold bind at 1, catch. rewrite Et. reflexivity. }
    pose proof (Ek _ (fun r a => if trans_actions <=? a then ret (q', a) else trans_loop f now q' a)) as E1. cbv beta in E1. rewrite !E1.
    pose proof (Ek _ (fun r a => 
      if trans_actions <=? a then ret (q', a, match r with Ok _ => (fst rw + 2, snd rw + 2) | Err _ => rw end) else trans_loop_w f now q' a (match r with Ok _ => (fst rw + 2, snd rw + 2) | Err _ => rw end))) as E2. cbv beta in E2. rewrite !E2. clear Ek E1 E2. cbv zeta iota.
    destruct (trans_actions <=? acts).
    + eexists _, _. split; [reflexivity|]. unfold ret. cbv beta iota. rewrite N.sub_diag, !N.mul_0_r, !N.add_0_r. split_and!; [lia|]. by destruct rw.
    + apply IH.
Qed.

(** ** What one hook declares *)
Definition weighed (h : hook) (t : state) : Prop :=
  let t' := snd (run_hook h t) in
  exists l r w, s_events t' = l ++ s_events t /\ hook_weight h t = (Ok (r, w), t') /\
    r = first_reads h t + sum_of (map (reads_for t) l) /\
    w = sum_of (map (writes_for t) l) + queue_write h l /\
    r <= most_reads h /\ w <= most_writes h /\ (h = HookRent -> l = [] -> t' = t).

Lemma tee_weighed t : weighed HookTee t.
Proof.
  unfold weighed. cbn [run_hook hook_weight].
  assert (E : tee_on_initialize t = match s_era t with None => emit (Ev_FailedToGetActiveEra (s_now t)) t
    | Some n => when (history_depth <=? n) (clear_old_era (n - history_depth)) t end).
  { unfold tee_on_initialize. unfold bind at 1, gets at 1. unfold bind at 1, gets at 1. by destruct (s_era t). }
  assert (E2 : tee_weight t = match s_era t with None => (Ok (0, 0), snd (emit (Ev_FailedToGetActiveEra (s_now t)) t))
    | Some n => (Ok (1, 0), snd (when (history_depth <=? n) (clear_old_era (n - history_depth)) t)) end).
  { unfold tee_weight. unfold bind at 1, gets at 1. unfold bind at 1, gets at 1. destruct (s_era t) as [n|]; [|done]. by destruct (history_depth <=? n). }
  rewrite E, E2. unfold first_reads, most_reads, most_writes. destruct (s_era t) as [n|].
  - exists [], 1, 0. destruct (history_depth <=? n); split_and!; done.
  - exists [Ev_FailedToGetActiveEra (s_now t)], 0, 0. split_and!; done.
Qed.

Lemma trans_weighed t : sreach t -> weighed HookTrans t.
Proof.
  intros Ht. pose proof (sreach_inv1 t Ht) as HI. pose proof (sreach_tinv t Ht) as HT. unfold weighed. cbn [run_hook hook_weight].
  destruct (trans_loop_run (length (t_queue (s_trans t))) (s_now t) _ 0 t (inv1_tback t HI) HT) as (l&rest&s1&E&Eq&_&_&Hmax&[D1 D2 (m1&m2&q&D3)]&_).
  destruct (trans_w (length (t_queue (s_trans t))) (s_now t) (t_queue (s_trans t)) 0 (2, 0) t) as (r&s1'&E'&H). rewrite E in E'.
  injection E' as <- <-. destruct H as [_ Ew]. rewrite N.sub_0_r, N.add_0_l in *. cbn [fst snd] in Ew.
  assert (Hlen : nlen (l.*1) = nlen l) by (unfold nlen; by rewrite fmap_length).
  assert (Ev : s_events s1 = map Ev_Transmitted (rev (l.*1)) ++ s_events t) by (rewrite D3; done). clear D1 D2 D3.
  exists (map Ev_Transmitted (rev (l.*1))), (2 + 2 * nlen l), (2 * nlen l + (if 0 <? nlen l then 1 else 0)).
  assert (Hrl : nlen (map Ev_Transmitted (rev (l.*1))) = nlen l). { unfold nlen. rewrite map_length, rev_length, fmap_length. done. }
  split_and!.
  - unfold trans_on_initialize. unfold bind at 1, gets at 1. unfold bind at 1, gets at 1. unfold bind at 1. rewrite E. cbn [snd fst].
    destruct (0 <? nlen l); exact Ev.
  - unfold trans_weight, trans_on_initialize. unfold bind at 1, gets at 1. unfold bind at 1, gets at 1. unfold bind at 1. rewrite Ew. cbn [snd fst].
    unfold bind at 2, gets at 1. unfold bind at 2, gets at 1. unfold bind at 2. rewrite E. cbn [snd fst].
    destruct (0 <? nlen l); cbn [when]; [done|]. by rewrite N.add_0_r.
  - cbn [first_reads]. rewrite (sum_const _ 2); [by rewrite Hrl|]. by intros e (i&->&_)%elem_of_list_fmap.
  - rewrite (sum_const _ 2); [|by intros e (i&->&_)%elem_of_list_fmap]. rewrite Hrl. f_equal.
    unfold queue_write. unfold nlen in *. destruct (map Ev_Transmitted (rev (l.*1))); cbn [length] in Hrl; [by rewrite <- Hrl|].
    destruct (0 <? N.of_nat (length l)) eqn:E0; [done|]. apply N.ltb_ge in E0. lia.
  - unfold most_reads. lia.
  - unfold most_writes. destruct (0 <? nlen l); lia.
  - done.
Qed.

Lemma rent_weighed t : config_ok -> sreach t -> weighed HookRent t.
Proof.
  intros HC Ht. destruct (sreach_rent t HC Ht) as [HR HS]. pose proof (sreach_rlinv t Ht HR HS) as HL0.
  unfold weighed. cbn [run_hook hook_weight].
  destruct (queues (s_rent t)) as [qf qs qa] eqn:Eq.
  destruct (finish_loop_ok (fun l => mkQueues l qs qa) (fun i => Ev_ContractEnded i None) (length qf) HC ltac:(left; eauto) (s_now t) qf 0 t HL0 ltac:(done))
    as (l1&qf'&s1&R1&N1&HL1&O1&Z1&B1&_).
  destruct (finish_log (fun l => mkQueues l qs qa) (fun i => Ev_ContractEnded i None) (length qf) HC ltac:(left; eauto) ltac:(by intros i j [=]) (s_now t) qf 0 t HL0)
    as (m1&V1&D1&I1&U1). rewrite R1 in V1, I1, U1. cbn [snd] in V1, I1, U1.
  destruct (finish_w (fun i => Ev_ContractEnded i None) 4 (length qf) (s_now t) qf 0 (1, 0) t) as (r&s1'&E'&H). rewrite R1 in E'. injection E' as <- <-.
  destruct H as (_&C1&W1). cbn [fst snd] in W1. rewrite N.add_0_l, N.sub_0_r in *.
  destruct (subscription_loop_ok qf' qa (S (N.to_nat rent_actions)) HC (s_now t) qs (nlen l1) s1 ltac:(done) HL1 ltac:(lia) ltac:(done))
    as (l2&qs'&s2&R2&N2&HL2&O2&Z2&B2&_).
  destruct (sub_log qf' qa (S (N.to_nat rent_actions)) HC qs (nlen l1) s1 HL1 ltac:(lia) ltac:(done))
    as (es&q2&n2&s2'&R2'&V2&D2&I2&U2&_). rewrite N1 in *. rewrite R2' in R2. injection R2 as -> -> ->.
  destruct (sub_w (S (N.to_nat rent_actions)) (s_now t) qs (nlen l1) (1 + 3 * nlen l1, 0 + 4 * nlen l1) s1) as (r&s2''&E'&H). rewrite R2' in E'. injection E' as <- <-.
  destruct H as (_&C2&W2). cbn [fst snd] in W2. replace (nlen l1 + nlen l2 - nlen l1) with (nlen l2) in * by lia.
  destruct (finish_loop_ok (fun l => mkQueues qf' qs' l) Ev_ContractExpired (length qa) HC ltac:(right; eauto) (s_now t) qa (nlen l1 + nlen l2) s2 HL2 ltac:(done))
    as (l3&qa'&s3&R3&N3&HL3&O3&Z3&B3&_).
  destruct (finish_log (fun l => mkQueues qf' qs' l) Ev_ContractExpired (length qa) HC ltac:(right; eauto) ltac:(by intros i j [=]) (s_now t) qa (nlen l1 + nlen l2) s2 HL2)
    as (m3&V3&D3&I3&U3). rewrite R3 in V3, I3, U3. cbn [snd] in V3, I3, U3.
  destruct (finish_w Ev_ContractExpired 5 (length qa) (s_now t) qa (nlen l1 + nlen l2) (1 + 3 * nlen l1 + 3 * nlen l2, 0 + 4 * nlen l1 + 2 * nlen l2) s2) as (r&s3'&E'&H).
  rewrite R3 in E'. injection E' as <- <-.
  destruct H as (_&C3&W3). cbn [fst snd] in W3. replace (nlen l1 + nlen l2 + nlen l3 - (nlen l1 + nlen l2)) with (nlen l3) in * by lia.
  rewrite V1, nlen_app in C1. rewrite V2, nlen_app in C2. rewrite V3, nlen_app in C3.
  assert (A1 : nlen m1 = nlen l1) by (unfold nlen in *; rewrite map_length in C1; lia).
  assert (A2 : nlen es = nlen l2) by lia.
  assert (A3 : nlen m3 = nlen l3) by (unfold nlen in *; rewrite map_length in C3; lia).
  assert (Hrun : exists s', rent_on_initialize t = (Ok tt, s') /\ s_events s' = s_events s3 /\ (0 = nlen l1 + nlen l2 + nlen l3 -> s' = t) /\
    rent_weight t = (Ok (1 + 3 * nlen l1 + 3 * nlen l2 + 3 * nlen l3, 0 + 4 * nlen l1 + 2 * nlen l2 + 5 * nlen l3 + (if 0 <? nlen l1 + nlen l2 + nlen l3 then 1 else 0)), s')).
  { unfold rent_on_initialize, rent_weight. eexists. split; [|split; [|split]].
    - unfold bind at 1, gets at 1. unfold bind at 1, gets at 1. rewrite Eq. cbn [q_fixed q_sub q_avail].
      unfold bind at 1. rewrite R1. unfold bind at 1. cbn [snd fst]. rewrite R2'. unfold bind at 1. cbn [snd fst]. rewrite R3. cbn [snd fst].
      instantiate (1 := if 0 <? nlen l1 + nlen l2 + nlen l3 then s3 <| s_rent ::= fun r => r <| queues := mkQueues qf' qs' qa' |> |> else s3).
      by destruct (0 <? nlen l1 + nlen l2 + nlen l3).
    - by destruct (0 <? nlen l1 + nlen l2 + nlen l3).
    - intros E0. rewrite <- E0. cbn. assert (l1 = [] /\ l2 = [] /\ l3 = []) as (El1&El2&El3).
      { clear - E0. destruct l1, l2, l3; try done; unfold nlen in E0; cbn [length] in E0; lia. }
      destruct (Z1 El1) as [_ Es1], (Z2 El2) as [_ Es2], (Z3 El3) as [_ Es3]. congruence.
    - unfold bind at 1, gets at 1. unfold bind at 1, gets at 1. rewrite Eq. cbn [q_fixed q_sub q_avail].
      unfold bind at 1. rewrite W1. unfold bind at 1. cbn [snd fst]. rewrite W2. unfold bind at 1. cbn [snd fst]. rewrite W3. cbn [snd fst].
      destruct (0 <? nlen l1 + nlen l2 + nlen l3); cbn [when]; [done|]. by rewrite N.add_0_r. }
  destruct Hrun as (s'&->&Evs&Hnone&->). cbn [snd].
  pose proof (rl_rok _ _ HL0) as K0. destruct (r_fix _ _ _ K0) as (_&F0&_). destruct (r_subs _ _ _ K0) as (_&S0&_).
  cbn [q_fixed q_sub q_avail] in *.
  assert (Bd1 : forall i c, contracts (s_rent s1) !! i = Some c -> contracts (s_rent t) !! i = Some c).
  { intros i c Hc. destruct (decide (i ∈ m1)) as [Hi|Hi]; [destruct (I1 i Hi) as (_&_&_&_&?); congruence|]. by rewrite <- U1. }
  set (l := map Ev_ContractExpired m3 ++ es ++ map (fun i => Ev_ContractEnded i None) m1).
  assert (Hl : nlen l = nlen l1 + nlen l2 + nlen l3). { unfold l. rewrite !nlen_app. unfold nlen in *. rewrite !map_length. lia. }
  eexists l, _, _. split; [rewrite Evs, V3, V2, V1; unfold l; by rewrite !app_assoc|]. split; [reflexivity|].
  assert (Hr : sum_of (map (reads_for t) l) = 3 * nlen l).
  { apply sum_const. unfold l. intros e He. rewrite !elem_of_app, !elem_of_list_fmap in He. destruct He as [(i&->&_)|[He|(i&->&_)]]; [done| |done].
    by destruct (I2 e He) as (i&c&b&_&_&_&[[-> _]|[-> _]]). }
  assert (Hw : sum_of (map (writes_for t) l) = 5 * nlen l3 + 2 * nlen l2 + 4 * nlen l1).
  { unfold l. rewrite !map_app, !sum_app. rewrite (sum_const _ 5), (sum_const _ 2), (sum_const _ 4).
    - unfold nlen in *. rewrite !map_length. lia.
    - intros e (i&->&Hi)%elem_of_list_fmap. cbn [writes_for]. destruct (I1 i Hi) as (c&b&Hc&Hb&_). destruct (F0 _ _ Hb) as (c'&Hc'&[_ Ha]&_).
      rewrite Hc. assert (c' = c) as -> by congruence. by destruct (r_duration c).
    - intros e He. destruct (I2 e He) as (i&c&b&Hc&Hb&_&[[-> _]|[-> _]]); [|done]. cbn [writes_for]. apply Bd1 in Hc. rewrite Hc.
      destruct (S0 _ _ Hb) as (c'&Hc'&[_ Ha]&_). assert (c' = c) as -> by congruence. by destruct (r_duration c).
    - by intros e (i&->&_)%elem_of_list_fmap. }
  rewrite Hr, Hw, Hl. clear Hr Hw. split_and!.
  - cbn [first_reads]. lia.
  - unfold queue_write. destruct l as [|e l].
    + change (nlen (@nil event)) with 0 in Hl. replace (0 <? nlen l1 + nlen l2 + nlen l3) with false; [lia|]. symmetry. apply N.ltb_ge. lia.
    + replace (0 <? nlen l1 + nlen l2 + nlen l3) with true; [lia|]. symmetry. apply N.ltb_lt. rewrite <- Hl. unfold nlen. cbn [length]. lia.
  - unfold most_reads. clear - B1 B2 B3. lia.
  - unfold most_writes. clear - B1 B2 B3. destruct (0 <? _); lia.
  - intros _ E. rewrite E in Hl. by apply Hnone.
Qed.

Lemma settle_w i u : exists b u', settle_one i u = (Ok b, u') /\ auctions (s_auc u') ⊆ auctions (s_auc u) /\
  if b : bool then exists e w p mc rc ac a, e = Ev_AuctionCompleted i w p mc rc ac /\ s_events u' = e :: s_events u /\ auctions (s_auc u) !! i = Some a
  else s_events u' = s_events u.
Proof.
  destruct (settle_one i u) as [r s'] eqn:E. revert E. unfold settle_one, get_auction, get_nft. unfold bind at 1, gets at 1.
  destruct (auctions (s_auc u) !! i) as [a|] eqn:Ha; [|intros [= <- <-]; by exists false, u].
  unfold bind at 1, gets at 1.
  destruct (nfts (s_nft u) !! i) as [d|] eqn:Hd; [|intros [= <- <-]; by exists false, u].
  destruct (pop_highest (a_bidders a)) as [[[w x] rest]|] eqn:Hp.
  - unfold bind at 1, catch.
    destruct (pay_for_nft i auction_pot x d (a <| a_bidders := rest |>) u) as [[cut|e] s1] eqn:HP.
    + apply pay_ok in HP as (m&f&b'&Hm&Hf&->&HP&->). rewrite claim_all_bind. intros [= <- <-].
      eexists true, _. split; [reflexivity|]. split; [apply delete_subseteq|]. eexists _, _, _, _, _, _, a. split; [reflexivity|]. done.
    + intros [= <- <-]. exists false, s1. split; [done|].
      cut (pres (fun t => s_events t = s_events u /\ s_auc t = s_auc u) (pay_for_nft i auction_pot x d (a <| a_bidders := rest |>))).
      { intros H. unfold pres in H. specialize (H u (conj eq_refl eq_refl)). cbv beta in H. rewrite HP in H. cbn [snd] in H. destruct H as [? ->]. done. }
      pres_go; st_cbn; assumption.
  - intros [= <- <-]. eexists true, _. split; [reflexivity|]. split; [apply delete_subseteq|]. eexists _, _, _, _, _, _, a. split; [reflexivity|]. done.
Qed.

Lemma auction_w t fuel now : forall dl acts rw u, auctions (s_auc u) ⊆ auctions (s_auc t) ->
  exists dl' l u', auction_loop fuel now dl acts u = (Ok dl', u') /\ s_events u' = l ++ s_events u /\
    (forall e, e ∈ l -> exists i w p mc rc ac a, e = Ev_AuctionCompleted i w p mc rc ac /\ auctions (s_auc t) !! i = Some a) /\
    auction_loop_w fuel now dl acts rw u = (Ok (dl', (fst rw + sum_of (map (reads_for t) l), snd rw + sum_of (map (writes_for t) l))), u') /\
    acts + nlen l <= N.max (acts + 1) auction_actions.
Proof.
  induction fuel as [|f IH]; intros dl acts rw u Hu; cbn [auction_loop auction_loop_w].
  { exists dl, [], u. cbn. rewrite !N.add_0_r. split_and!; try done; [by intros e ?%elem_of_nil|by destruct rw|lia]. }
  destruct (q_pop now dl) as [[i q']|].
  2: { exists dl, [], u. cbn. rewrite !N.add_0_r. split_and!; try done; [by intros e ?%elem_of_nil|by destruct rw|lia]. }
  destruct (settle_w i u) as (b&u1&E&Hsub&Hb).
  unfold bind at 1. rewrite E. unfold get_auction. unfold bind at 1, gets at 1. unfold bind at 1. rewrite E. clear E.
  assert (Hu1 : auctions (s_auc u1) ⊆ auctions (s_auc t)) by (by etrans).
  destruct b; cbn [andb].
  - destruct Hb as (e&w&p&mc&rc&ac&a&He&Hev&Ha). rewrite Ha. assert (Ha' : auctions (s_auc t) !! i = Some a) by (by eapply lookup_weaken).
    assert (Er : reads_for t e = 3 + (nlen (a_bidders a) - 1)) by (subst e; cbn [reads_for]; by rewrite Ha').
    assert (Ew : writes_for t e = 2) by (by subst e).
    destruct (auction_actions <=? acts + 1) eqn:El.
    + exists q', [e], u1. cbn [map sum_of fold_right]. rewrite Er, Ew, !N.add_0_r. split_and!; [done|done| | |].
      * intros e' ->%elem_of_list_singleton. eauto 10.
      * unfold ret. do 4 f_equal. lia.
      * unfold nlen. cbn [length]. lia.
    + apply N.leb_gt in El. destruct (IH q' (acts + 1) (fst rw + (nlen (a_bidders a) - 1) + 3, snd rw + 2) u1 Hu1) as (dl'&l&u'&->&L1&L2&->&L3).
      exists dl', (l ++ [e]), u'. rewrite !map_app, !sum_app. cbn [map sum_of fold_right fst snd]. rewrite Er, Ew, nlen_app. split_and!; [done| | | |].
      * by rewrite L1, Hev, <- app_assoc.
      * intros e' [He'| ->%elem_of_list_singleton]%elem_of_app; [by apply L2|eauto 10].
      * unfold ret. do 4 f_equal; lia.
      * change (nlen [e]) with 1. lia.
  - rewrite <- Hb. destruct (IH q' acts rw u1 Hu1) as (dl'&l&u'&E1&L1&L2&E2&L3). exists dl', l, u'. done.
Qed.

Lemma auction_weighed t : sreach t -> weighed HookAuction t.
Proof.
  intros Ht. pose proof (sreach_ainv t Ht) as HA. unfold weighed. cbn [run_hook hook_weight].
  destruct (auction_w t (length (deadlines (s_auc t))) (s_now t) (deadlines (s_auc t)) 0 (1, 0) t ltac:(done)) as (dl'&l&u'&E1&L1&L2&E2&L3).
  cbn [fst snd] in E2. exists l, (1 + sum_of (map (reads_for t) l)), (sum_of (map (writes_for t) l) + 0).
  assert (Hr : sum_of (map (reads_for t) l) <= nlen l * (3 + bidder_limit)).
  { apply sum_most. intros e He. destruct (L2 e He) as (i&w&p&mc&rc&ac&a&->&Ha). cbn [reads_for]. rewrite Ha.
    pose proof (b_len _ (a_books _ _ HA i a Ha)). lia. }
  assert (Hw : sum_of (map (writes_for t) l) <= nlen l * 2).
  { apply sum_most. intros e He. by destruct (L2 e He) as (i&w&p&mc&rc&ac&a&->&Ha). }
  split_and!.
  - unfold auction_on_initialize. unfold bind at 1, gets at 1. unfold bind at 1, gets at 1. unfold bind at 1. rewrite E1. exact L1.
  - unfold auction_weight, auction_on_initialize. unfold bind at 1, gets at 1. unfold bind at 1, gets at 1. unfold bind at 1. rewrite E2. cbn [snd fst].
    unfold bind at 2, gets at 1. unfold bind at 2, gets at 1. unfold bind at 2. rewrite E1. rewrite N.add_0_r. done.
  - done.
  - cbn [queue_write]. done.
  - unfold most_reads. rewrite N.add_0_l in *. clear - Hr L3. nia.
  - unfold most_writes. rewrite N.add_0_l in *. clear - Hw L3. lia.
  - done.
Qed.

Lemma hook_weighed h t : config_ok -> sreach t -> weighed h t.
Proof. intros HC Ht. destruct h; [by apply auction_weighed|by apply rent_weighed|by apply trans_weighed|by apply tee_weighed]. Qed.

(** ** The entries that change *)
Lemma at_most_list (P : entry -> Prop) s s' n L : (forall k, P k -> changed s s' k -> k ∈ L) -> nlen L <= n -> at_most P s s' n.
Proof.
  intros H Hn ks Hnd Hks. etrans; [|exact Hn]. unfold nlen.
  assert (Hs : ks ⊆+ L). { apply NoDup_submseteq; [done|]. intros k Hk. destruct (Hks k Hk). by apply H. }
  apply submseteq_length in Hs. lia.
Qed.

Lemma turn_weighed h s t t' r w : config_ok -> reachable s -> turn h s t t' -> declares h t r w ->
  sreach t /\ t' = snd (run_hook h t) /\ exists l, s_events t' = l ++ s_events t /\ w = sum_of (map (writes_for t) l) + queue_write h l /\
    (h = HookRent -> l = [] -> t' = t).
Proof.
  intros HC Hs Ht Hd.
  destruct (turn_state (fun _ => tt) h s t t' HC (reachable_sreach s Hs)) as (Hst&_); [done|done|done|].
  assert (E : t' = snd (run_hook h t)) by (destruct Ht as (?&?&_&_&?); done). split; [done|]. split; [done|].
  destruct (hook_weighed h t HC Hst) as (l&r'&w'&El&Eh&_&Ew&_&_&Hz). unfold declares in Hd. rewrite Eh in Hd. cbn [fst] in Hd. injection Hd as -> ->.
  exists l. rewrite E. done.
Qed.

Lemma fact_trans_writes s t t' r w : config_ok -> reachable s -> turn HookTrans s t t' -> declares HookTrans t r w ->
  at_most (fun _ => True) t t' w.
Proof.
  intros HC Hs Ht Hd. destruct (turn_weighed _ s t t' r w HC Hs Ht Hd) as (Hst&E&l&El&->&Hz).
  pose proof (sreach_inv1 t Hst) as HI. pose proof (sreach_tinv t Hst) as HT.
  destruct (trans_hook_run t (inv1_tback t HI) HT) as (k&t2&Eh&Eq&_&_&_&[D1 D2 (m1&m2&q&D3)]&_). cbn [run_hook] in E. rewrite Eh in E. cbn [snd] in E. subst t2.
  assert (El' : l = map Ev_Transmitted (rev (k.*1))). { rewrite D3 in El. cbn in El. by apply app_inv_tail in El. }
  apply (at_most_list _ _ _ _ (map E_nft (k.*1) ++ map E_transmission (k.*1) ++ match k with [] => [] | _ => [E_trans_queue] end)).
  - intros e _ Hch. rewrite !elem_of_app, !elem_of_list_fmap. destruct e as [i|i| |v|i| |i| |i|e v|e v|v]; cbn [changed] in Hch.
    + left. exists i. split; [done|]. destruct (decide (i ∈ k.*1)) as [|Hi]; [done|]. destruct (D2 i Hi). congruence.
    + destruct Hch. by rewrite D3.
    + destruct Hch. by rewrite D3.
    + destruct Hch. by rewrite D3.
    + destruct Hch. by rewrite D3.
    + destruct Hch. by rewrite D3.
    + right; left. exists i. split; [done|]. destruct (decide (i ∈ k.*1)) as [|Hi]; [done|]. destruct (D2 i Hi). congruence.
    + right; right. destruct k; [|by left]. destruct Hch. by rewrite Eq.
    + destruct Hch. by rewrite D3.
    + destruct Hch. by rewrite D3.
    + destruct Hch. by rewrite D3.
    + destruct Hch. by rewrite D3.
  - rewrite El', (sum_const _ 2); [|by intros e (i&->&_)%elem_of_list_fmap]. unfold nlen. rewrite !app_length, !map_length, rev_length.
    rewrite fmap_length. destruct k as [|x k]; [cbn; lia|]. unfold queue_write.
    destruct (map Ev_Transmitted (rev ((x :: k).*1))) eqn:Em; [|cbn [length]; lia].
    apply (f_equal length) in Em. rewrite map_length, rev_length, fmap_length in Em. done.
Qed.

Definition ids_of (l : list event) : list N :=
  omap (fun e => match e with
    | Ev_AuctionCompleted i _ _ _ _ _ | Ev_ContractEnded i _ | Ev_ContractExpired i => Some i
    | _ => None end) l.
Lemma ids_len l : nlen (ids_of l) <= nlen l.
Proof. unfold nlen, ids_of. induction l as [|e l IH]; [done|]. cbn. destruct e; cbn [length] in *; lia. Qed.

Definition nft_kept (t t' : state) : Prop :=
  auctions (s_auc t') ⊆ auctions (s_auc t) /\
  forall j, nfts (s_nft t') !! j = nfts (s_nft t) !! j \/ auctions (s_auc t) !! j <> None /\ auctions (s_auc t') !! j = None.
Lemma settle_kept t i : pres (nft_kept t) (settle_one i).
Proof.
  intros u [H1 H2]. destruct (settle_one i u) as [r s'] eqn:E. cbn [snd]. revert E. unfold settle_one, get_auction, get_nft. unfold bind at 1, gets at 1.
  destruct (auctions (s_auc u) !! i) as [a|] eqn:Ha; [|intros [= <- <-]; done].
  unfold bind at 1, gets at 1.
  destruct (nfts (s_nft u) !! i) as [d|] eqn:Hd; [|intros [= <- <-]; done].
  assert (Hfin : forall v, auctions (s_auc v) = delete i (auctions (s_auc u)) -> (forall j, j <> i -> nfts (s_nft v) !! j = nfts (s_nft u) !! j) -> nft_kept t v).
  { intros v E1 E2. split; [rewrite E1; etrans; [apply delete_subseteq|done]|]. intros j. destruct (decide (j = i)) as [->|Hj].
    - right. rewrite E1, lookup_delete. split; [|done]. rewrite (lookup_weaken _ _ _ _ Ha H1). done.
    - rewrite E1, E2, lookup_delete_ne by done. apply H2. }
  destruct (pop_highest (a_bidders a)) as [[[w x] rest]|] eqn:Hp.
  - unfold bind at 1, catch.
    destruct (pay_for_nft i auction_pot x d (a <| a_bidders := rest |>) u) as [[cut|e] s1] eqn:HP.
    + apply pay_ok in HP as (m&f&b'&Hm&Hf&->&HP&->). rewrite claim_all_bind. intros [= <- <-].
      apply Hfin; [done|]. intros j Hj. cbn. by rewrite lookup_insert_ne.
    + intros [= <- <-].
      cut (pres (fun t => s_nft t = s_nft u /\ s_auc t = s_auc u) (pay_for_nft i auction_pot x d (a <| a_bidders := rest |>))).
      { intros H. unfold pres in H. specialize (H u (conj eq_refl eq_refl)). cbv beta in H. rewrite HP in H. cbn [snd] in H. destruct H as [E1 E2].
        unfold nft_kept. rewrite E1, E2. done. }
      pres_go; st_cbn; assumption.
  - intros [= <- <-]. apply Hfin; [done|]. intros j Hj. cbn. by rewrite lookup_insert_ne.
Qed.

Lemma fact_auction_writes s t t' r w : config_ok -> reachable s -> turn HookAuction s t t' -> declares HookAuction t r w ->
  at_most (fun k => exists i, k = E_nft i \/ k = E_auction i) t t' w.
Proof.
  intros HC Hs Ht Hd. destruct (turn_weighed _ s t t' r w HC Hs Ht Hd) as (Hst&E&l&El&->&Hz).
  destruct (auction_reports t Hst) as (l'&El'&_&Htrue&Hfull). cbn [run_hook] in E, El', Htrue, Hfull. rewrite <- E in *.
  rewrite El' in El. apply app_inv_tail in El as <-.
  assert (Hk : nft_kept t t').
  { subst t'. cut (pres (nft_kept t) auction_on_initialize); [|apply pres_auction_hook; [apply settle_kept|done]].
    intros H. apply H. split; [done|]. by left. }
  destruct Hk as [K1 K2].
  assert (Hgone : forall i, auctions (s_auc t) !! i <> None -> auctions (s_auc t') !! i = None -> i ∈ ids_of l').
  { intros i Ha Hn. destruct (auctions (s_auc t) !! i) as [a|] eqn:Ea; [|done]. destruct (Hfull i a Ea Hn) as (v&p&mc&rc&ac&Hin).
    apply elem_of_list_omap. eexists. split; [exact Hin|done]. }
  apply (at_most_list _ _ _ _ (map E_nft (ids_of l') ++ map E_auction (ids_of l'))).
  - intros k (i&[-> | ->]) Hch; rewrite elem_of_app, !elem_of_list_fmap; [left|right]; exists i; (split; [done|]); cbn [changed] in Hch.
    + destruct (K2 i) as [?|[? ?]]; [done|by apply Hgone].
    + destruct (auctions (s_auc t') !! i) as [a|] eqn:Ea; [|by apply Hgone]. by rewrite (lookup_weaken _ _ _ _ Ea K1) in Hch.
  - pose proof (ids_len l') as Hl. rewrite (sum_const _ 2).
    + unfold nlen in *. rewrite app_length, !map_length. unfold queue_write. lia.
    + intros e He. destruct (Htrue e He) as [M T]. destruct e; try done; by destruct T.
Qed.

Lemma rented_secures s i d id k : inv1 s -> nfts (s_nft s) !! i = Some d -> is_rented (nstate d) = true ->
  contracts (s_rent s) !! id = Some k -> secures k i -> i = id.
Proof.
  intros HI Hd Hf Hk Hs. apply secures_role in Hs as [role Hr].
  destruct (deposit_place s id k role i d HI Hk Hr Hd) as [Ho|(->&_&_)]; [|done].
  assert (He : engagements d = 0) by (eapply pot_unengaged; eauto; rewrite Ho; apply rent_pot_in).
  apply unengaged_flags in He as (?&?&?&?&?&?). congruence.
Qed.

Lemma fact_rent_writes s t t' r w : config_ok -> reachable s -> turn HookRent s t t' -> declares HookRent t r w ->
  at_most (fun k => k = E_rent_queues \/ exists i, k = E_contract i \/ k = E_nft i /\ is_Some (contracts (s_rent t) !! i)) t t' w.
Proof.
  intros HC Hs Ht Hd. destruct (turn_weighed _ s t t' r w HC Hs Ht Hd) as (Hst&E&l&El&->&Hz).
  pose proof (sreach_inv1 t Hst) as HI.
  destruct (fact_rent_turn s t t' HC Hs Ht) as (_&_&_&k&[Ro Ri _ _ Re Rr]&_&Hkeep&Hout&_).
  destruct (rent_reports t HC Hst) as (l'&El'&_&Htrue&Hfull&Hfull2&Hfull3). rewrite <- E in *.
  rewrite El' in El. apply app_inv_tail in El as <-.
  assert (Hgone : forall i c, contracts (s_rent t) !! i = Some c -> contracts (s_rent t') !! i = None -> i ∈ ids_of l').
  { intros i c Hc Hn. apply elem_of_list_omap. destruct (r_rentee c) as [v|] eqn:Er.
    - exists (Ev_ContractEnded i None). split; [|done]. apply (Hfull i c Hc Hn). congruence.
    - exists (Ev_ContractExpired i). split; [|done]. apply (Hfull2 i c Hc Hn Er). }
  assert (Hq : l' = [] -> queues (s_rent t') = queues (s_rent t)).
  { intros El0. by rewrite (Hz eq_refl El0). }
  apply (at_most_list _ _ _ _ (map E_nft (ids_of l') ++ map E_contract (ids_of l') ++ match l' with [] => [] | _ => [E_rent_queues] end)).
  - intros e Hp Hch. rewrite !elem_of_app, !elem_of_list_fmap. destruct Hp as [->|(i&[->|[-> [c Hc]]])]; cbn [changed] in Hch.
    + right; right. destruct l'; [|by left]. by destruct Hch; apply Hq.
    + right; left. exists i. split; [done|]. destruct (decide (i ∈ k)) as [Hi|Hi]; [|by destruct Hch; apply Ro].
      destruct (Ri i Hi) as (c&Hc&[Hn|Hn]); [by eapply Hgone|congruence].
    + left. exists i. split; [done|]. destruct (contracts (s_rent t') !! i) as [c'|] eqn:Hc'; [|by eapply Hgone].
      destruct Hch. apply Rr. intros j c2 Hj [Hj1 Hj2]. split; [congruence|]. intros Hsec.
      destruct (contract_nft t i c HI Hc) as (d&Hd'&Hr&_). pose proof (rented_secures t i d j c2 HI Hd' Hr Hj1 Hsec). congruence.
  - pose proof (ids_len l') as Hl.
    assert (nlen l' * 2 <= sum_of (map (writes_for t) l')).
    { apply sum_least. intros e He. destruct (Htrue e He) as [M [T _]]. destruct e; try done; cbn [writes_for].
      destruct T as (c&Hc&_). rewrite Hc. by destruct (r_duration c). }
    unfold nlen in *. rewrite !app_length, !map_length. unfold queue_write. destruct l' as [|x l']; cbn [length] in *; lia.
Qed.

Lemma fact_weight h s t t' : config_ok -> reachable s -> turn h s t t' ->
  exists l r w, s_events t' = l ++ s_events t /\ declares h t r w /\ snd (hook_weight h t) = t' /\
    r = first_reads h t + sum_of (map (reads_for t) l) /\
    w = sum_of (map (writes_for t) l) + queue_write h l /\
    r <= most_reads h /\ w <= most_writes h.
Proof.
  intros HC Hs Ht. destruct (turn_state (fun _ => tt) h s t t' HC (reachable_sreach s Hs)) as (Hst&_); [done|done|done|].
  assert (E : t' = snd (run_hook h t)) by (destruct Ht as (?&?&_&_&?); done).
  destruct (hook_weighed h t HC Hst) as (l&r&w&El&Eh&Er&Ew&Mr&Mw&_). exists l, r, w. unfold declares. rewrite Eh, <- E in *. done.
Qed.
End weight.
