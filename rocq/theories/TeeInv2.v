(** The TEE pallet's storages under hooks and the environment, and the staking lock. *)
From Verif Require Export TeeInv SpecTee Later TransFacts2.
Local Open Scope N_scope.

Section teeinv2.
Context {C : Config}.

(** ** Hooks *)
(** Everything but the claims and reports is the same; these only shrink, by the era that
    leaves the history. *)
Definition pruned (s t : state) : Prop :=
  exists m1 m2, s_tee t = s_tee s <| claimed := m1 |> <| reports := m2 |> /\
  (forall k x, m1 !! k = Some x -> claimed (s_tee s) !! k = Some x) /\
  (forall k x, m2 !! k = Some x -> reports (s_tee s) !! k = Some x) /\
  (forall k x, claimed (s_tee s) !! k = Some x -> m1 !! k = Some x \/ exists active, s_era s = Some active /\ fst k + history_depth = active).

Lemma pruned_same s t : s_tee t = s_tee s -> pruned s t.
Proof. intros E. exists (claimed (s_tee s)), (reports (s_tee s)). rewrite E. destruct (s_tee s). cbn. eauto. Qed.
Lemma pruned_trans s t u : s_era t = s_era s -> pruned s t -> pruned t u -> pruned s u.
Proof.
  intros Hera (m1&m2&E1&A1&B1&D1) (n1&n2&E2&A2&B2&D2). exists n1, n2. rewrite E1 in *. cbn in *. split; [by rewrite E2|].
  split; [eauto|]. split; [eauto|]. intros k x Hk. destruct (D1 k x Hk) as [Hk1|?]; [|by right]. rewrite <- Hera. by apply D2 in Hk1.
Qed.
Lemma pruned_hook h s : pruned s (snd (run_hook h s)).
Proof.
  assert (h = HookTee \/ h <> HookTee) as [->|Hne] by (destruct h; auto).
  - cbn [run_hook]. unfold tee_on_initialize. cbn. unfold bind, gets. cbn. destruct (s_era s) as [act|] eqn:Ee; [|by apply pruned_same].
    unfold when. destruct (history_depth <=? act) eqn:El; [|by apply pruned_same]. apply N.leb_le in El.
    eexists _, _. split; [reflexivity|]. split; [|split].
    + intros k x [? _]%map_filter_lookup_Some. done.
    + intros k x [? _]%map_filter_lookup_Some. done.
    + intros k x Hk. destruct (decide (fst k = act - history_depth)) as [Ek|Ek].
      * right. exists act. split; [done|]. lia.
      * left. apply map_filter_lookup_Some. done.
  - apply pruned_same. pose proof (hook_kept h s) as Hk. unfold kept in Hk. destruct h; try done; cbn [hook_pallet] in Hk; by destruct_and! Hk.
Qed.
Lemma hook_era h s : s_era (snd (run_hook h s)) = s_era s.
Proof. pose proof (hook_kept h s) as Hk. unfold kept in Hk. by destruct_and! Hk. Qed.
Lemma pruned_block s : pruned s (next_block s) /\ s_era (next_block s) = s_era s.
Proof.
  unfold next_block. assert (H : forall l t, pruned s t /\ s_era t = s_era s -> let u := fold_left (fun s h => snd (run_hook h s)) l t in pruned s u /\ s_era u = s_era s).
  { induction l as [|h l IH]; intros t [H1 H2]; [done|]. cbn [fold_left]. apply IH. rewrite hook_era. split; [|done].
    eapply pruned_trans; [done|exact H1|apply pruned_hook]. }
  refine (H _ _ _). split; [by apply pruned_same|done].
Qed.

Lemma teeok_pruned s t : pruned s t -> teeok (s_tee s) -> teeok (s_tee t).
Proof. intros (m1&m2&->&_) [H1 H2 H3 H4 H5 H6 H7 H8 H9 H10]. by split. Qed.

Lemma sreach_teeok s : sreach s -> teeok (s_tee s).
Proof.
  induction 1 as [s Hs|s o c s' Hs IH Ha Hw Hm He|s ev Hs IH|s Hs IH|s h Hs IH|s e s' Hs IH Ha He].
  - destruct Hs as (now&era&bal&lk&->&_). cbn. split; cbn; try done.
    + intros op. rewrite !lookup_empty. split; by intros [].
    + intros op. rewrite !lookup_empty. split; by intros [].
    + intros op c. rewrite lookup_empty. split; [done|]. intros (cl&Hcl&_). by rewrite lookup_empty in Hcl.
    + split; [constructor|lia].
    + intros op Ho. by apply elem_of_nil in Ho.
    + intros op [? Ho]. by rewrite lookup_empty in Ho.
  - by eapply teeok_call.
  - done.
  - done.
  - eapply teeok_pruned; [apply pruned_hook|done].
  - apply env_kept in He. unfold env_kept_from in He. destruct_and! He. congruence.
Qed.
Lemma reachable_teeok s : reachable s -> teeok (s_tee s).
Proof. intros Hs. by apply sreach_teeok, reachable_sreach. Qed.

(** ** The lock *)
Definition tl (m : gmap N N) (s : state) : Prop := tee_lock (s_bal s) = m.
Lemma tl_same m s s' : same_locks (s_bal s) (s_bal s') -> tl m s -> tl m s'.
Proof. intros [E _] H. unfold tl. by rewrite E. Qed.
Lemma tl_lift m f : (forall b b', f b = Ok b' -> same_locks b b') -> pres (tl m) (lift_bal f).
Proof. intros Hf. apply pres_lift_bal. intros s b Hb H. eapply tl_same; [|exact Hb]. by eapply Hf. Qed.
Lemma tl_transfer m from to amt keep : pres (tl m) (transfer from to amt keep).
Proof. apply tl_lift. intros b b'. apply transfer_locks. Qed.
Lemma tl_pay_fee m who amt : pres (tl m) (pay_fee who amt).
Proof.
  apply tl_lift. intros b b'. destruct (withdraw_b _ _ _ _) eqn:E; [|done]. intros [= <-]. eapply same_locks_trans; [by eapply withdraw_locks|apply collect_locks].
Qed.
Lemma tl_wburn m who amt keep : pres (tl m) (lift_bal (fun b => match withdraw_b who amt keep b with
   | Ok b1 => Ok (burn_b amt b1) | Err e => Err e end)).
Proof.
  apply tl_lift. intros b b'. destruct (withdraw_b _ _ _ _) eqn:E; [|done]. intros [= <-]. eapply same_locks_trans; [by eapply withdraw_locks|done].
Qed.
Lemma tl_mod_bal m f : (forall b, same_locks b (f b)) -> pres (tl m) (mod_bal f).
Proof. intros H. apply pres_modify. intros s Hs. eapply tl_same; [|exact Hs]. apply H. Qed.
End teeinv2.

Ltac tl_step :=
  lazymatch goal with
  | |- pres (tl _) (transfer _ _ _ _) => apply tl_transfer
  | |- pres (tl _) (pay_fee _ _) => apply tl_pay_fee
  | |- pres (tl _) (mod_bal (burn_b _)) => apply tl_mod_bal; intros ?; done
  | |- pres (tl _) (mod_bal (resolve_creating_b _ _)) => apply tl_mod_bal; intros ?; apply resolve_locks
  | |- pres (tl _) (mod_bal (fun b => let (_, _) := issue_b _ _ in _)) => apply tl_mod_bal; intros ?; apply mint_locks
  | |- pres (tl _) (lift_bal (fun x => match withdraw_b _ _ _ _ with Ok _ => Ok (burn_b _ _) | Err _ => _ end)) => apply tl_wburn
  | |- pres (tl _) (modify _) => apply pres_modify; intros ? ?; unfold tl in *; st_cbn; assumption
  | |- _ => pres_step
  end.

Section teeinv3.
Context {C : Config}.
Lemma tl_call m o c : is_mandate c = false -> pallet_of c <> PTee -> pres (tl m) (exec_call o c).
Proof.
  intros Hm Hp. destruct c; try discriminate Hm; try (by destruct Hp); clear Hm Hp; cbn [exec_call]; unfold signed, root, external.
  all: repeat tl_step.
Qed.
Lemma tl_hook m h : pres (tl m) (run_hook h).
Proof.
  destruct h; cbn [run_hook].
  - apply pres_auction_hook; [intros id; repeat tl_step|done].
  - apply pres_rent_hook; [intros id; repeat tl_step|intros e; repeat tl_step|intros id now; repeat tl_step|done].
  - apply pres_trans_hook; [intros id; repeat tl_step|intros e; repeat tl_step|done].
  - repeat tl_step.
Qed.
Lemma tl_env m e : pres (tl m) (run_env e).
Proof.
  destruct e; cbn [run_env]; unfold burn_from, charge_fee.
  all: repeat tl_step.
  - apply pres_modify. intros t Ht. by destruct (_ !! _).
  - apply pres_modify. intros t Ht. destruct (s_era t); [destruct (_ <? _)|]; exact Ht.
  - eapply tl_same; [|eassumption]. by eapply withdraw_locks.
Qed.
Lemma lock_block s : tee_lock (s_bal (next_block s)) = tee_lock (s_bal s).
Proof.
  unfold next_block. assert (H : forall l t, tl (tee_lock (s_bal s)) t -> tl (tee_lock (s_bal s)) (fold_left (fun s h => snd (run_hook h s)) l t)).
  { induction l as [|h l IH]; intros t Ht; [done|]. cbn [fold_left]. apply IH. by apply tl_hook. }
  apply H. done.
Qed.

(** *** Stakes and locks agree *)
Definition lock_ok (t : tee_st) (lk : gmap N N) (op : N) : Prop :=
  match ledgers t !! op with
  | None => lk !! op = None
  | Some l => if l_staked l =? 0 then zero_lock_clears = true -> lk !! op = None else lk !! op = Some (l_staked l)
  end.
Definition locks_ok (t : tee_st) (lk : gmap N N) : Prop := forall op, lock_ok t lk op.

Lemma lock_ok_put t t' lk lk' who l amt :
  locks_ok t lk -> ledgers t' = <[who := l]> (ledgers t) -> l_staked l = amt ->
  lk' = tee_lock (set_lock_b who amt (mkBal ∅ lk ∅ 0)) -> (amt = 0 -> zero_lock_clears = true -> True) -> locks_ok t' lk'.
Proof.
  intros H El Ea -> _ op. specialize (H op). unfold lock_ok in *. rewrite El. unfold set_lock_b.
  destruct (decide (op = who)) as [->|Hne].
  - rewrite lookup_insert, Ea. destruct (amt =? 0) eqn:E0; cbn; [|by rewrite lookup_insert].
    destruct zero_lock_clears; [|done]. intros _. cbn. by rewrite lookup_delete.
  - rewrite lookup_insert_ne by done. destruct (amt =? 0); [destruct zero_lock_clears|]; cbn; rewrite ?lookup_delete_ne, ?lookup_insert_ne by done; done.
Qed.
Lemma lock_ok_drop t t' lk who : locks_ok t lk -> ledgers t' = delete who (ledgers t) -> locks_ok t' (delete who lk).
Proof.
  intros H El op. specialize (H op). unfold lock_ok in *. rewrite El. destruct (decide (op = who)) as [->|Hne]; [by rewrite !lookup_delete|].
  by rewrite !lookup_delete_ne.
Qed.
Lemma lock_ok_mark t t' lk who l l' : locks_ok t lk -> ledgers t !! who = Some l -> ledgers t' = <[who := l']> (ledgers t) -> l_staked l' = l_staked l -> locks_ok t' lk.
Proof.
  intros H Hl El Es op. specialize (H op). unfold lock_ok in *. rewrite El. destruct (decide (op = who)) as [->|Hne]; [|by rewrite lookup_insert_ne].
  rewrite lookup_insert, Es. by rewrite Hl in H.
Qed.
Lemma lock_ok_same t t' lk : locks_ok t lk -> ledgers t' = ledgers t -> locks_ok t' lk.
Proof. intros H El op. unfold lock_ok. rewrite El. apply H. Qed.

Lemma set_lock_tee who amt b : tee_lock (set_lock_b who amt b) = tee_lock (set_lock_b who amt (mkBal ∅ (tee_lock b) ∅ 0)).
Proof. unfold set_lock_b. by destruct (_ =? _); [destruct zero_lock_clears|]. Qed.

Lemma locks_call o c s s' : teeok (s_tee s) -> locks_ok (s_tee s) (tee_lock (s_bal s)) -> is_mandate c = false -> exec_call o c s = (Ok tt, s') ->
  locks_ok (s_tee s') (tee_lock (s_bal s')).
Proof.
  intros HK HL Hm He. assert (pallet_of c = PTee \/ pallet_of c <> PTee) as [Hpal|Hpal] by (destruct (pallet_of c); auto).
  2: { assert (s_tee s' = s_tee s) as ->. { pose proof (call_kept _ _ _ _ Hm He) as Hk. unfold kept in Hk. destruct (pallet_of c); try done; destruct_and! Hk; done. }
       pose proof (tl_call (tee_lock (s_bal s)) o c Hm Hpal s eq_refl) as Hl. rewrite He in Hl. cbn in Hl. unfold tl in Hl. by rewrite Hl. }
  destruct c; try discriminate Hpal; clear Hpal Hm; cbn [exec_call] in He; unfold signed, root, external in He;
    try (destruct o as [|who|]; try done; []).
  - unfold register_enclave in He. minv He. subst s'. st_cbn. rewrite set_lock_tee. eapply lock_ok_put; [exact HL|done..].
  - unfold unregister_enclave in He. do 2 mstep He. destruct (encs (s_tee s) !! who) as [e|] eqn:Een.
    + minv He. subst s'. st_cbn. eapply (lock_ok_mark (s_tee s)); [exact HL|eassumption|reflexivity|reflexivity].
    + minv He. subst s'. st_cbn. eapply (lock_ok_drop (s_tee s)); [exact HL|reflexivity].
  - unfold update_enclave in He. minv He. by subst s'.
  - unfold cancel_update in He. minv He. by subst s'.
  - unfold assign_enclave in He. minv He. by subst s'.
  - unfold remove_registration in He. minv He. subst s'. st_cbn. eapply (lock_ok_drop (s_tee s)); [exact HL|reflexivity].
  - unfold reject_update in He. minv He. by subst s'.
  - unfold approve_enclave_unregistration, detach_enclave in He. minv He. by subst s'.
  - unfold force_remove_enclave, detach_enclave in He. minv He. subst s'. st_cbn. eapply (lock_ok_mark (s_tee s)); [exact HL|eassumption|reflexivity|reflexivity].
  - unfold approve_update_enclave in He. do 5 mstep He. apply bind_ok in He as ([]&s0&HW&He). minv He. subst s'.
    apply when_ok in HW as [[Hb HW]|[Hb <-]]; [minv HW; by subst s0|done].
  - unfold force_update_enclave in He. do 3 mstep He. apply bind_ok in He as ([]&s0&HW&He). apply bind_ok in He as ([]&s1&HW1&He).
    assert (s1 = s0) as -> by (apply on_some_ok in HW1 as [(z&_&HW1)|[_ ->]]; [by minv HW1|done]). clear HW1. minv He. subst s'.
    apply on_some_ok in HW as [(a&->&HW)|[-> <-]]; [|done]. mstep HW. apply when_ok in HW as [[Hb HW]|[Hb <-]]; [minv HW; by subst s0|done].
  - unfold create_cluster in He. minv He. by subst s'.
  - unfold update_cluster in He. minv He. by subst s'.
  - unfold remove_cluster in He. minv He. by subst s'.
  - unfold withdraw_unbonded in He. minv He. subst s'. st_cbn. eapply (lock_ok_drop (s_tee s)); [exact HL|reflexivity].
  - unfold register_metrics_server in He. minv He. by subst s'.
  - unfold unregister_metrics_server in He. minv He. by subst s'.
  - unfold force_update_metrics_server_type in He. minv He. by subst s'.
  - unfold submit_metrics_server_report in He. minv He. by subst s'.
  - unfold set_report_params_weightage in He. minv He. by subst s'.
  - unfold set_staking_amount in He. minv He. by subst s'.
  - unfold set_daily_reward_pool in He. minv He. by subst s'.
  - unfold claim_rewards in He. minv He. subst s'. st_cbn. destruct (transfer_locks _ _ _ _ _ _ ltac:(eassumption)) as [-> _]. done.
  - unfold update_operator_assigned_era in He. minv He. by subst s'.
  - unfold bond_extra in He. minv He. subst s'. st_cbn. rewrite set_lock_tee. eapply lock_ok_put; [exact HL|done..].
  - unfold refund_excess in He. minv He. subst s'. st_cbn. rewrite set_lock_tee. eapply lock_ok_put; [exact HL|done..].
Qed.
Lemma sreach_locks s : sreach s -> locks_ok (s_tee s) (tee_lock (s_bal s)).
Proof.
  induction 1 as [s Hs|s o c s' Hs IH Ha Hw Hm He|s ev Hs IH|s Hs IH|s h Hs IH|s e s' Hs IH Ha He].
  - destruct Hs as (now&era&bal&lk&->&_). intros op. unfold lock_ok. cbn. by rewrite !lookup_empty.
  - eapply locks_call; [by apply sreach_teeok|done..].
  - done.
  - done.
  - destruct (pruned_hook h s) as (m1&m2&Ht&_). pose proof (tl_hook (tee_lock (s_bal s)) h s eq_refl) as Hl. unfold tl in Hl. rewrite Hl, Ht. exact IH.
  - pose proof (tl_env (tee_lock (s_bal s)) e s eq_refl) as Hl. rewrite He in Hl. unfold tl in Hl. cbn in Hl. rewrite Hl.
    apply env_kept in He. unfold env_kept_from in He. assert (s_tee s' = s_tee s) as -> by (by destruct_and! He). done.
Qed.

(** ** What a step runs *)
Definition but_events (s t : state) : Prop := exists l, t = s <| s_events := l |>.
Lemma but_events_refl s : but_events s s.
Proof. exists (s_events s). by destruct s. Qed.
Lemma but_events_cons s t ev : but_events s t -> but_events s (t <| s_events ::= cons ev |>).
Proof. intros [l ->]. by exists (ev :: l). Qed.

Lemma exec_runs c : forall o s s', exec_call o c s = (Ok tt, s') ->
  (exists o' c' s1, runs (Extrinsic o c) o' c' /\ is_mandate c' = false /\ exec_call o' c' s = (Ok tt, s1) /\ but_events s1 s') \/ but_events s s'.
Proof.
  induction c; intros oo s s' He; try (left; exists oo; eexists _, s'; split; [constructor|]; split; [done|]; split; [exact He|apply but_events_refl]).
  cbn [exec_call] in He. unfold external in He. destruct (external_ok oo); [|done].
  apply bind_catch in He as (r & s1 & He1 & He2).
  destruct (transactional_cases (exec_call Root c) s) as [(s2&Hok&Ht)|(e&s2&_&Ht)];
    rewrite Ht in He1; injection He1 as <- <-; apply modify_ok in He2; subst s'; [|right; by apply but_events_cons, but_events_refl].
  destruct (IHc _ _ _ Hok) as [(o'&c'&s3&Hr&Hm&He3&Hb)|Hb]; [left|right; by apply but_events_cons].
  exists o', c', s3. split; [by constructor|]. split; [done|]. split; [done|]. by apply but_events_cons.
Qed.
Lemma step_runs s a :
  (exists o c s1, runs a o c /\ is_mandate c = false /\ exec_call o c s = (Ok tt, s1) /\ but_events s1 (step s a)) \/
  but_events s (step s a) \/ a = NextBlock \/ exists e s', a = Env e /\ run_env e s = (Ok tt, s') /\ step s a = s'.
Proof.
  destruct a as [o c| |e]; cbn [step].
  - destruct (dispatch_cases o c s) as [(s'&Hw&He&Hd)|[e Hd]]; rewrite Hd; cbn [snd]; [|right; left; apply but_events_refl].
    destruct (exec_runs c o s s' He) as [H|H]; [by left|by right; left].
  - by right; right; left.
  - destruct (transactional_cases (run_env e) s) as [(s2&Hok&Ht)|(x&s2&_&Ht)]; rewrite Ht; [|right; left; apply but_events_refl].
    right. right. right. by exists e, s2.
Qed.

(** What a step does to the storages of the TEE pallet and to the lock. *)
Inductive tee_step (s : state) (a : action) : Prop :=
| ts_call o c s1 : runs a o c -> pallet_of c = PTee -> is_mandate c = false -> exec_call o c s = (Ok tt, s1) ->
    s_tee (step s a) = s_tee s1 -> s_bal (step s a) = s_bal s1 -> s_now (step s a) = s_now s -> tee_step s a
| ts_none : s_tee (step s a) = s_tee s -> tee_lock (s_bal (step s a)) = tee_lock (s_bal s) -> tee_step s a
| ts_block : a = NextBlock -> pruned s (step s a) -> tee_lock (s_bal (step s a)) = tee_lock (s_bal s) -> tee_step s a.

Lemma tee_steps s a : tee_step s a.
Proof.
  destruct (step_runs s a) as [(o&c&s1&Hr&Hm&He&l&Hl)|[[l Hl]|[->|(e&s'&->&He&Hs)]]].
  - assert (pallet_of c = PTee \/ pallet_of c <> PTee) as [Hp|Hp] by (destruct (pallet_of c); auto).
    + eapply ts_call; [done..| | |]; rewrite Hl; try done. cbn. pose proof (call_kept _ _ _ _ Hm He) as Hk. unfold kept in Hk. by destruct_and! Hk.
    + apply ts_none; rewrite Hl; cbn.
      * pose proof (call_kept _ _ _ _ Hm He) as Hk. unfold kept in Hk. destruct (pallet_of c); try done; destruct_and! Hk; done.
      * pose proof (tl_call (tee_lock (s_bal s)) o c Hm Hp s eq_refl) as Ht. by rewrite He in Ht.
  - apply ts_none; by rewrite Hl.
  - apply ts_block; [done|apply pruned_block|apply lock_block].
  - apply ts_none; rewrite Hs.
    + apply env_kept in He. unfold env_kept_from in He. by destruct_and! He.
    + pose proof (tl_env (tee_lock (s_bal s)) e s eq_refl) as Hl. by rewrite He in Hl.
Qed.
Lemma runs_signed a w c : runs a (Signed w) c -> a = Extrinsic (Signed w) c.
Proof.
  intros H. remember (Signed w) as o eqn:Eo. assert (Hroot : forall a0 o0 c0, runs a0 o0 c0 -> forall c1, a0 = Extrinsic Root c1 -> o0 = Root).
  { clear. induction 1 as [o c|o c o' c' H IH]; intros c1 E; [congruence|]. by eapply IH. }
  destruct H as [o c|o c o' c' H]; [by subst|]. subst o'. by specialize (Hroot _ _ _ H _ eq_refl).
Qed.
End teeinv3.
