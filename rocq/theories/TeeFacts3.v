(** The TEE properties, third part: reward amounts, reports, slots, clusters, registration. *)
From Verif Require Export TeeFacts2.
Local Open Scope N_scope.

Section facts.
Context {C : Config}.

(** *** C57 *)
Lemma per_mul_bounds acc p x : 0 < acc -> N.even acc = true ->
  2 * acc * per_mul acc p x <= 2 * x * p + acc /\ 2 * x * p <= 2 * acc * per_mul acc p x + acc.
Proof.
  intros Ha He. unfold per_mul. pose proof (N.div_mod (x * p) acc ltac:(lia)) as Hd. pose proof (N.mod_lt (x * p) acc ltac:(lia)) as Hm.
  apply N.even_spec in He as [h ->]. assert (Hh : 2 * h / 2 = h) by (rewrite N.mul_comm; apply N.div_mul; lia). rewrite Hh.
  set (q := x * p / (2 * h)) in *. set (r := (x * p) mod (2 * h)) in *. clearbody q r. destruct (h <? r) eqn:E; [apply N.ltb_lt in E|apply N.ltb_ge in E]; nia.
Qed.
Lemma perbill_mul_bounds p x : 2000000000 * perbill_mul p x <= 2 * x * p + 1000000000 /\ 2 * x * p <= 2000000000 * perbill_mul p x + 1000000000.
Proof. exact (per_mul_bounds 1000000000 p x eq_refl eq_refl). Qed.
Lemma perbill_mul_le p x : p <= 1000000000 -> perbill_mul p x <= x.
Proof. intros Hp. destruct (perbill_mul_bounds p x) as [H _]. set (v := perbill_mul p x) in *. clearbody v. nia. Qed.

Lemma share_bounds n pool : 0 < n ->
  let share := perbill_mul (perbill_from_rational 1 n) pool in
  share <= pool /\ 2 * n * share <= 2 * pool + n /\ 2000000000 * pool <= 2000000000 * n * share + 1000000000 * n + 2 * n * pool.
Proof.
  intros Hn. cbv zeta. unfold perbill_from_rational. destruct (n =? 0) eqn:E0; [apply N.eqb_eq in E0; lia|].
  destruct (n <? 1) eqn:E1; [apply N.ltb_lt in E1; lia|]. rewrite N.mul_1_l. set (k := 1000000000 / n) in *.
  pose proof (N.div_mod 1000000000 n ltac:(lia)) as Hd. pose proof (N.mod_lt 1000000000 n ltac:(lia)) as Hm. fold k in Hd.
  assert (Hk : k <= 1000000000) by nia. destruct (perbill_mul_bounds k pool) as [B1 B2]. split; [by apply perbill_mul_le|].
  set (v := perbill_mul k pool) in *. clearbody v k. set (r := 1000000000 mod n) in *. clearbody r. split; nia.
Qed.

Lemma highest_best f l : best l f (highest f l).
Proof.
  unfold best, highest. induction l as [|x l [IH1 IH2]]; cbn [map fold_right].
  - split; [|by left]. intros r Hr. by apply elem_of_nil in Hr.
  - split.
    + intros r [->|Hr]%elem_of_cons; [lia|]. specialize (IH1 r Hr). lia.
    + destruct (N.max_spec (f x) (fold_right N.max 0 (map f l))) as [[_ ->]|[_ ->]].
      * destruct IH2 as [->|(r&Hr&<-)]; [by left|right]. exists r. split; [by right|done].
      * right. exists x. split; [left|done].
Qed.
Lemma score_exists w l : score w l (N.min 10000 (weighted_sum w l)).
Proof. unfold score. exists (highest rp1 l), (highest rp2 l), (highest rp3 l), (highest rp4 l), (highest rp5 l). split_and!; try apply highest_best. done. Qed.
Lemma perbill_score x : perbill_from_rational x 10000 = N.min 10000 x * 100000.
Proof.
  unfold perbill_from_rational. cbn [N.eqb]. destruct (10000 <? x) eqn:E; [apply N.ltb_lt in E; lia|apply N.ltb_ge in E].
  replace (x * 1000000000) with (x * 100000 * 10000) by lia. rewrite N.div_mul by lia. lia.
Qed.

Lemma pot_left from to amt b b' rest : transfer_b from to amt false b = Ok b' -> from <> to -> free b from = rest + amt -> ed <= rest -> free b' from = rest.
Proof.
  intros H Hne Hr He. unfold transfer_b in H. destruct ((amt =? 0) || (from =? to)) eqn:E0.
  { injection H as <-. apply orb_true_iff in E0 as [->%N.eqb_eq|?%N.eqb_eq]; [lia|done]. }
  destruct (free b from <? amt); [done|]. destruct (free b from <? amt + frozen b from); [done|].
  destruct (free b from <? amt + untouchable b from false); [done|].
  destruct (free b to + amt <? ed); [done|]. destruct (u128_max <? free b to + amt); [done|].
  injection H as <-. rewrite !free_set_free. rewrite (decide_False (P := from = to)) by done. rewrite decide_True by done. destruct (_ <? ed) eqn:E; [apply N.ltb_lt in E|]; lia.
Qed.

Lemma claim_exec s w e s' : reachable s -> w ∉ pots -> exec_call (Signed w) (C_claim_rewards e) s = (Ok tt, s') ->
  (exists active since, s_era s = Some active /\ assigned_era (s_tee s) !! w = Some since /\ since <= e /\ e + 2 < active /\ active < e + history_depth) /\
  assigned s w /\
  exists share amt, paid_share s share /\
    match reports (s_tee s) !! (e, w) with
    | None => amt = share
    | Some l => exists p, score (weights (s_tee s)) l p /\ amt <= share /\ 20000 * amt <= 2 * p * share + 10000 /\ 2 * p * share <= 20000 * amt + 10000
    end /\
    free (s_bal s') w = free (s_bal s) w + amt /\ free (s_bal s') tee_pot + amt <= free (s_bal s) tee_pot /\
    (forall rest, free (s_bal s) tee_pot = rest + amt -> ed <= rest -> free (s_bal s') tee_pot = rest) /\
    (forall a, a <> w -> a <> tee_pot -> free (s_bal s') a = free (s_bal s) a) /\
    s_tee s' = s_tee s <| claimed ::= <[(e, w) := amt]> |>.
Proof.
  intros Hs Hw He. cbn [exec_call] in He. unfold signed, claim_rewards in He. minv He. subst s'. st_cbn.
  assert (Hne : w <> tee_pot). { intros ->. apply Hw. unfold pots. set_solver. }
  assert (Hop : 0 < operators s).
  { unfold operators. destruct (decide (size (encs (s_tee s)) = 0)%nat) as [E'|]; [|lia]. apply map_size_empty_inv in E'. rewrite E' in *. by rewrite lookup_empty in *. }
  split; [eexists _, _; split_and!; [eassumption|eassumption|lia..]|]. split; [apply assigned_iff; eauto|].
  pose proof (share_bounds (operators s) (reward_pool (s_tee s)) Hop) as Hsh. cbv zeta in Hsh.
  exists (perbill_mul (perbill_from_rational 1 (operators s)) (reward_pool (s_tee s))), (reward_amount (s_tee s) e w).
  split; [exact Hsh|]. split.
  { unfold reward_amount. fold (operators s). destruct (reports (s_tee s) !! (e, w)) as [l|]; [|done].
    exists (N.min 10000 (weighted_sum (weights (s_tee s)) l)). split; [apply score_exists|]. rewrite perbill_score.
    set (p := N.min 10000 (weighted_sum (weights (s_tee s)) l)). assert (Hp : p <= 10000) by lia. clearbody p.
    set (sh := perbill_mul (perbill_from_rational 1 (operators s)) (reward_pool (s_tee s))). clearbody sh.
    destruct (perbill_mul_bounds (p * 100000) sh) as [B1 B2]. split; [apply perbill_mul_le; lia|].
    set (v := perbill_mul (p * 100000) sh) in *. clearbody v. clear -B1 B2. split; nia. }
  match goal with H : transfer_b _ _ _ _ _ = Ok _ |- _ => rename H into T end.
  split. { pose proof (transfer_exact _ _ _ _ _ _ w (or_introl Hne) T) as Hx. unfold at_acc in Hx. rewrite decide_False, decide_True in Hx by done. lia. }
  split. { pose proof (transfer_le _ _ _ _ _ _ T) as Hx. unfold at_acc in Hx. rewrite decide_False in Hx by done. lia. }
  split; [intros rest; eapply pot_left; [exact T|congruence]|].
  split; [|done]. intros a H1 H2. pose proof (transfer_exact _ _ _ _ _ _ a (or_introl H2) T) as Hx. unfold at_acc in Hx. rewrite !decide_False in Hx by done. lia.
Qed.

Lemma fact_claim s w e s' : reachable s -> w ∉ pots -> dispatch (Signed w) (C_claim_rewards e) s = (Ok tt, s') ->
  (exists active since, s_era s = Some active /\ assigned_era (s_tee s) !! w = Some since /\ since <= e /\ e + 2 < active /\ active < e + history_depth) /\
  assigned s w /\
  exists share amt, paid_share s share /\
    match reports (s_tee s) !! (e, w) with
    | None => amt = share
    | Some l => exists p, score (weights (s_tee s)) l p /\ amt <= share /\ 20000 * amt <= 2 * p * share + 10000 /\ 2 * p * share <= 20000 * amt + 10000
    end /\
    free (s_bal s') w = free (s_bal s) w + amt /\ free (s_bal s') tee_pot + amt <= free (s_bal s) tee_pot /\
    (forall rest, free (s_bal s) tee_pot = rest + amt -> ed <= rest -> free (s_bal s') tee_pot = rest) /\
    (forall a, a <> w -> a <> tee_pot -> free (s_bal s') a = free (s_bal s) a) /\
    s_tee s' = s_tee s <| claimed ::= <[(e, w) := amt]> |>.
Proof. intros Hs Hw [_ He]%dispatch_ok. by apply claim_exec. Qed.

(** The rewards of one era, while nobody joins or leaves and the pool is the same. *)
Lemma claim_bound_step s a e n P (D : N -> Prop) : reachable s -> action_ok a -> operators s = n -> reward_pool (s_tee s) = P -> (forall w, assigned s w -> D w) ->
  (forall w amt, claimed (s_tee s) !! (e, w) = Some amt -> D w /\ 2 * n * amt <= 2 * P + n) ->
  forall w amt, claimed (s_tee (step s a)) !! (e, w) = Some amt -> D w /\ 2 * n * amt <= 2 * P + n.
Proof.
  intros Hs Ha Hn HP HD H w amt Hc.
  destruct (tee_steps s a) as [o c s1 Hr Hpal Hm He Et _ _|Et _|_ (m1&m2&Et&Hm1&_) _]; rewrite Et in Hc; [|by apply H|st_cbn_in Hc; apply H; by apply Hm1].
  clear Et Hm. destruct (claimed (s_tee s) !! (e, w)) as [amt0|] eqn:E0.
  { assert (amt0 = amt); [|subst; by apply H]. tee_cases He Hpal; st_cbn_in Hc; try congruence.
    apply lookup_insert_Some in Hc as [[[= <- <-] _]|[_ Hc]]; congruence. }
  assert (o = Signed w /\ c = C_claim_rewards e) as [-> ->].
  { clear H. tee_cases He Hpal; st_cbn_in Hc; try congruence. apply lookup_insert_Some in Hc as [[[= <- <-] _]|[_ Hc]]; [done|congruence]. }
  apply runs_signed in Hr as ->.
  destruct (claim_exec s w e s1 Hs Ha He) as (_&Has&share&amt'&(_&S2&_)&Hrep&_&_&_&_&Et'). rewrite Et' in Hc. cbn in Hc. rewrite lookup_insert in Hc. injection Hc as <-.
  split; [by apply HD|]. rewrite Hn, HP in S2. assert (amt' <= share); [|nia]. destruct (reports _ !! _); [by destruct Hrep as (?&?&?&?)|lia].
Qed.
Lemma sum_bound (f : N -> N) (D : list N) B : forall ws, NoDup ws -> (forall w, w ∈ ws -> f w = 0 \/ (w ∈ D /\ f w <= B)) ->
  fold_right N.add 0 (map f ws) <= nlen D * B.
Proof.
  revert D. assert (H : forall ws D, NoDup ws -> (forall w, w ∈ ws -> f w = 0 \/ (w ∈ D /\ f w <= B)) -> fold_right N.add 0 (map f ws) <= nlen D * B); [|intros D ws; apply H].
  induction ws as [|w ws IH]; intros D Hn Hf; cbn [map fold_right]; [lia|]. apply NoDup_cons in Hn as [H1 H2].
  destruct (Hf w ltac:(left)) as [E|[Hw Hb]].
  - rewrite E. apply IH; [done|]. intros x Hx. apply Hf. by right.
  - apply elem_of_Permutation in Hw as [D' HD]. rewrite (nlen_perm _ _ HD), nlen_cons. transitivity (B + nlen D' * B); [|lia].
    apply N.add_le_mono; [done|]. apply IH; [done|]. intros x Hx. destruct (Hf x ltac:(by right)) as [?|[Hx2 ?]]; [by left|right]. split; [|done].
    rewrite HD in Hx2. apply elem_of_cons in Hx2 as [->|?]; [done|done].
Qed.
Lemma operators_same s t : (forall w, assigned t w <-> assigned s w) -> operators t = operators s.
Proof.
  intros H. unfold operators. rewrite <- !size_dom. f_equal. apply set_size_proper. intros w. rewrite !elem_of_dom, <- !assigned_iff. apply H.
Qed.
Lemma fact_era_total s acts e ws P : reachable s -> Forall action_ok acts -> (forall w, claimed (s_tee s) !! (e, w) = None) ->
  (forall acts1 acts2, acts = acts1 ++ acts2 -> reward_pool (s_tee (after s acts1)) = P /\ forall w, assigned (after s acts1) w <-> assigned s w) ->
  NoDup ws -> 2 * era_total (after s acts) e ws <= 2 * P + operators s.
Proof.
  intros Hs Hacts H0 Hsame Hn.
  assert (H : forall w amt, claimed (s_tee (after s acts)) !! (e, w) = Some amt -> assigned s w /\ 2 * operators s * amt <= 2 * P + operators s).
  { induction acts as [|a acts IH] using rev_ind.
    - intros w amt Hc. unfold after in Hc. cbn in Hc. by rewrite H0 in Hc.
    - apply acts_snoc in Hacts as [H1 H2]. destruct (Hsame acts [a] eq_refl) as [HP HA]. rewrite after_snoc.
      eapply claim_bound_step; [by apply after_reachable|done|by apply operators_same|done|by intros w ?%HA|].
      apply IH; [done|]. intros acts1 acts2 ->. apply (Hsame acts1 (acts2 ++ [a])). by rewrite app_assoc. }
  set (n := operators s) in *. set (f := fun w => default 0 (claimed (s_tee (after s acts)) !! (e, w))).
  pose proof (sum_bound (fun w => 2 * n * f w) (elements (dom (encs (s_tee s)))) (2 * P + n) ws Hn) as Hb.
  assert (Hsum : fold_right N.add 0 (map (fun w => 2 * n * f w) ws) = 2 * n * era_total (after s acts) e ws).
  { unfold era_total. fold f. clear. induction ws as [|w ws IH]; cbn [map fold_right]; [lia|]. rewrite IH. lia. }
  rewrite Hsum in Hb. assert (Hlen : nlen (elements (dom (encs (s_tee s)))) = n).
  { unfold n, operators, nlen. by rewrite <- size_dom. }
  rewrite Hlen in Hb. destruct (decide (n = 0)) as [En|En].
  - assert (Hz : era_total (after s acts) e ws = 0); [|lia]. unfold era_total. fold f. assert (Hf : forall w, f w = 0).
    { intros w. unfold f. destruct (claimed _ !! _) as [amt|] eqn:E; [|done]. apply H in E as [Ha _]. exfalso. apply assigned_iff in Ha. unfold n, operators in En.
      assert (size (encs (s_tee s)) = 0%nat) as Hz by lia. apply map_size_empty_inv in Hz. rewrite Hz, lookup_empty in Ha. by destruct Ha. }
    clear -Hf. induction ws as [|w ws IH]; cbn [map fold_right]; [done|]. rewrite IH, Hf. done.
  - assert (Hb' : 2 * n * era_total (after s acts) e ws <= n * (2 * P + n)).
    { apply Hb. intros w _. unfold f. destruct (claimed _ !! _) as [amt|] eqn:E; [|left; cbn; lia]. right. apply H in E as [Ha Hle]. cbn. split; [|done].
      apply elem_of_elements, elem_of_dom, assigned_iff, Ha. }
    clear -Hb' En. nia.
Qed.

(** *** C58 *)
Lemma find_elem {A} (f : A -> bool) l x : find f l = Some x -> x ∈ l /\ f x = true.
Proof. intros [H1 H2]%find_some. split; [by apply elem_of_list_In|done]. Qed.
Lemma put_report_cases r o l x : put_report r o = Some l -> x ∈ l -> x = r \/ x ∈ default [] o.
Proof.
  unfold put_report. set (l0 := default [] o). clearbody l0. destruct (position _ l0) as [i|] eqn:Ep.
  - intros [= <-] Hx. apply elem_of_list_lookup in Hx as [j Hj]. destruct (decide (i = j)) as [<-|Hne].
    + destruct (decide (i < length l0)%nat) as [Hi|Hi].
      * rewrite list_lookup_insert in Hj by done. left. congruence.
      * rewrite list_insert_ge in Hj by lia. right. by eapply elem_of_list_lookup_2.
    + rewrite list_lookup_insert_ne in Hj by done. right. by eapply elem_of_list_lookup_2.
  - destruct (_ <? _); [|done]. intros [= <-] [Hx|Hx%elem_of_list_singleton]%elem_of_app; auto.
Qed.
Lemma fact_report_step s a era op r : r ∈ reports_of (step s a) era op ->
  r ∈ reports_of s era op \/
  exists w active, a = Extrinsic (Signed w) (C_submit_metrics_server_report op r) /\ public_server s w /\ assigned s op /\
    s_era s = Some active /\ era = active - 1.
Proof.
  unfold reports_of, public_server. intros Hr0.
  destruct (tee_steps s a) as [o c s1 Hr Hpal Hm He Et _ _|Et _|_ (m1&m2&Et&_&Hm2&_) _]; rewrite Et in Hr0; [|by left|].
  2: { st_cbn_in Hr0. left. destruct (m2 !! (era, op)) as [l|] eqn:E; [|by apply elem_of_nil in Hr0]. by rewrite (Hm2 _ _ E). }
  clear Et Hm. tee_cases He Hpal; st_cbn_in Hr0; try (by left).
  destruct (decide ((x1 - 1, op0) = (era, op))) as [Heq|Hne].
  - injection Heq as <- <-. rewrite lookup_insert in Hr0. cbn in Hr0. eapply put_report_cases in Hr0 as [->|Hr0]; [right|by left|eassumption].
    exists who, x1. split; [by apply runs_signed|]. split; [|split; [apply assigned_iff; eauto|done]].
    match goal with H : find _ _ = Some _ |- _ => apply find_elem in H as [Hin Hf] end. destruct x as [y ty]. cbn in *. apply N.eqb_eq in Hf as ->. by destruct ty.
  - rewrite lookup_insert_ne in Hr0 by done. by left.
Qed.
Lemma put_report_keys r o l : NoDup (map rp_submitted_by (default [] o)) -> put_report r o = Some l -> NoDup (map rp_submitted_by l).
Proof.
  unfold put_report. set (l0 := default [] o). clearbody l0. intros Hn. destruct (position _ l0) as [i|] eqn:Ep.
  - intros [= <-]. destruct (position_lookup _ _ _ Ep) as (y&Hy&Ey). apply N.eqb_eq in Ey. assert (Em : map rp_submitted_by (<[i:=r]> l0) = map rp_submitted_by l0); [|by rewrite Em].
    etrans; [apply (list_fmap_insert rp_submitted_by)|]. apply list_insert_id. rewrite <- Ey. etrans; [apply (list_lookup_fmap rp_submitted_by)|]. by rewrite Hy.
  - destruct (_ <? _); [|done]. intros [= <-]. rewrite map_app. apply NoDup_app. split; [done|]. split; [|apply NoDup_singleton].
    intros x Hx ->%elem_of_list_singleton. apply elem_of_list_fmap in Hx as (y&E1&Hy). pose proof (position_None _ _ _ Ep Hy) as E2. cbn in E2. rewrite <- E1, N.eqb_refl in E2. done.
Qed.
Lemma reports_unique_step s s' : sstep s s' -> (forall k l, reports (s_tee s) !! k = Some l -> NoDup (map rp_submitted_by l)) ->
  forall k l, reports (s_tee s') !! k = Some l -> NoDup (map rp_submitted_by l).
Proof.
  intros Hst H. destruct Hst as [o c s' Ha Hw Hm He|ev| |h|x s' Ha He]; try done.
  - assert (pallet_of c = PTee \/ pallet_of c <> PTee) as [Hpal|Hpal] by (destruct (pallet_of c); auto).
    2: { assert (s_tee s' = s_tee s) as ->; [|done]. pose proof (call_kept _ _ _ _ Hm He) as Hk. unfold kept in Hk. destruct (pallet_of c); try done; destruct_and! Hk; done. }
    clear Hm Ha Hw. tee_cases He Hpal; st_cbn; try exact H. intros k l Hl. apply lookup_insert_Some in Hl as [[<- <-]|[_ Hl]]; [|by eapply H].
    eapply put_report_keys; [|eassumption]. destruct (reports (s_tee s) !! _) eqn:E'; cbn; [by eapply H|constructor].
  - destruct (pruned_hook h s) as (m1&m2&Et&_&Hm2&_). rewrite Et. st_cbn. intros k l Hl. eapply H, Hm2, Hl.
  - assert (s_tee s' = s_tee s) as ->; [|done]. apply env_kept in He. unfold env_kept_from in He. by destruct_and! He.
Qed.
Lemma fact_reports_unique s era op : reachable s -> NoDup (map rp_submitted_by (reports_of s era op)).
Proof.
  intros Hs. assert (H : forall k l, reports (s_tee s) !! k = Some l -> NoDup (map rp_submitted_by l)).
  { destruct (reachable_later s Hs) as (s0&H0&Hl). eapply (later_stable (fun s => forall k l, reports (s_tee s) !! k = Some l -> NoDup (map rp_submitted_by l))); [|by apply reach_init|exact Hl|].
    - intros s1 s2 _. apply reports_unique_step.
    - rewrite (genesis_tee _ H0). cbn. intros k l Hk. by rewrite lookup_empty in Hk. }
  unfold reports_of. destruct (reports (s_tee s) !! (era, op)) eqn:E; cbn; [by eapply H|constructor].
Qed.

(** *** C59 *)
Lemma remove_cluster_slots op (l : list (N * N)) : exists k, l.*2 ≡ₚ k ++ (remove_from_cluster op l).*2.
Proof.
  unfold remove_from_cluster. destruct (position _ l) as [p|] eqn:Ep; [|by exists []].
  destruct (position_lookup _ _ _ Ep) as (y&Hy&_). exists [snd y]. by rewrite <- (fmap_Permutation snd _ _ (swap_remove_perm _ _ _ Hy)).
Qed.
Lemma fact_slots_step s a c l' : (forall l, cluster_slots s c = Some l -> NoDup l) -> cluster_slots (step s a) c = Some l' ->
  (forall op slot l, runs a Root (C_assign_enclave op c slot) -> cluster_slots s c = Some l -> slot ∉ l) -> NoDup l'.
Proof.
  unfold cluster_slots. intros Hn Hl Hno.
  destruct (tee_steps s a) as [o k s1 Hr Hpal Hm He Et _ _|Et _|_ (m1&m2&Et&_&Hm2&_) _]; rewrite Et in Hl; [|by apply Hn..].
  clear Et Hm. tee_cases He Hpal; st_cbn_in Hl; try (by apply Hn).
  - destruct (decide (cluster = c)) as [->|Hne]; [rewrite lookup_insert in Hl|rewrite lookup_insert_ne in Hl by done; by apply Hn]. cbn in Hl. injection Hl as <-.
    match goal with H : clusters _ !! _ = Some _ |- _ => rewrite H in Hn, Hno end. cbn in Hn, Hno. rewrite map_app. apply NoDup_app. split; [by apply Hn|].
    split; [|apply NoDup_singleton]. intros z Hz ->%elem_of_list_singleton. by eapply Hno.
  - destruct (decide (x0 = c)) as [->|Hne]; [rewrite lookup_insert in Hl|rewrite lookup_insert_ne in Hl by done; by apply Hn]. cbn in Hl. injection Hl as <-.
    match goal with H : clusters _ !! _ = Some ?y |- _ => rewrite H in Hn; cbn in Hn; destruct (remove_cluster_slots op (cl_enclaves y)) as [z Hz] end.
    specialize (Hn _ eq_refl). change (map snd) with (fmap (M := list) (snd : N * N -> N)) in *. rewrite Hz in Hn. by apply NoDup_app in Hn as (_&_&?).
  - destruct (decide (x0 = c)) as [->|Hne]; [rewrite lookup_insert in Hl|rewrite lookup_insert_ne in Hl by done; by apply Hn]. cbn in Hl. injection Hl as <-.
    match goal with H : clusters _ !! _ = Some ?y |- _ => rewrite H in Hn; cbn in Hn; destruct (remove_cluster_slots op (cl_enclaves y)) as [z Hz] end.
    specialize (Hn _ eq_refl). change (map snd) with (fmap (M := list) (snd : N * N -> N)) in *. rewrite Hz in Hn. by apply NoDup_app in Hn as (_&_&?).
  - destruct (decide (next_cluster (s_tee s) = c)) as [<-|Hne]; [rewrite lookup_insert in Hl|rewrite lookup_insert_ne in Hl by done; by apply Hn]. cbn in Hl. injection Hl as <-. constructor.
  - destruct (decide (cluster = c)) as [->|Hne]; [rewrite lookup_insert in Hl|rewrite lookup_insert_ne in Hl by done; by apply Hn]. cbn in Hl.
    match goal with H : clusters _ !! _ = Some ?y |- _ => rewrite H in Hn; cbn in Hn end. by apply Hn.
  - destruct (decide (cluster = c)) as [->|Hne]; [by rewrite lookup_delete in Hl|rewrite lookup_delete_ne in Hl by done; by apply Hn].
Qed.
Lemma fact_slots s0 acts c l : genesis s0 -> Forall action_ok acts ->
  (forall acts1 a acts2 op slot l0, acts = acts1 ++ a :: acts2 -> runs a Root (C_assign_enclave op c slot) -> cluster_slots (after s0 acts1) c = Some l0 -> slot ∉ l0) ->
  cluster_slots (after s0 acts) c = Some l -> NoDup l.
Proof.
  intros H0. revert l. induction acts as [|a acts IH] using rev_ind; intros l Hacts Hno Hl.
  - unfold cluster_slots, after in Hl. cbn in Hl. rewrite (genesis_tee _ H0) in Hl. cbn in Hl. by rewrite lookup_empty in Hl.
  - apply acts_snoc in Hacts as [H1 H2]. rewrite after_snoc in Hl. eapply fact_slots_step; [|exact Hl|].
    + intros l1 Hl1. apply IH; [done| |done]. intros acts1 b acts2 op slot l0 ->. apply (Hno acts1 b (acts2 ++ [a])). by rewrite <- app_assoc.
    + intros op slot l0. by apply (Hno acts a []).
Qed.

(** *** C60 *)
Definition id_used (c : N) (s : state) : Prop := c < next_cluster (s_tee s).
Lemma fact_cluster_used s c : reachable s -> exists_cluster s c -> id_used c s.
Proof. intros Hs [cl Hcl]. by apply (k_list _ (reachable_teeok s Hs)) in Hcl as (_&_&?). Qed.
Definition gone_for_good (c : N) (s : state) : Prop := c < next_cluster (s_tee s) /\ clusters (s_tee s) !! c = None.
Lemma gone_step c s s' : sstep s s' -> gone_for_good c s -> gone_for_good c s'.
Proof.
  unfold gone_for_good. intros Hst H. destruct Hst as [o k s' Ha Hw Hm He|ev| |h|x s' Ha He]; try done.
  - assert (pallet_of k = PTee \/ pallet_of k <> PTee) as [Hpal|Hpal] by (destruct (pallet_of k); auto).
    2: { assert (s_tee s' = s_tee s) as ->; [|done]. pose proof (call_kept _ _ _ _ Hm He) as Hk. unfold kept in Hk. destruct (pallet_of k); try done; destruct_and! Hk; done. }
    clear Hm Ha Hw. destruct H as [H1 H2]. tee_cases He Hpal; st_cbn; try done.
    + split; [done|]. rewrite lookup_insert_ne; [done|congruence].
    + split; [done|]. rewrite lookup_insert_ne; [done|congruence].
    + split; [done|]. rewrite lookup_insert_ne; [done|congruence].
    + split; [lia|]. rewrite lookup_insert_ne; [done|lia].
    + split; [done|]. rewrite lookup_insert_ne; [done|congruence].
    + split; [done|]. by apply lookup_delete_None; right.
  - destruct (pruned_hook h s) as (m1&m2&Et&_). rewrite Et. done.
  - assert (s_tee s' = s_tee s) as ->; [|done]. apply env_kept in He. unfold env_kept_from in He. by destruct_and! He.
Qed.
Lemma fact_cluster_removed s a c l : cluster_ops s c = Some l -> cluster_ops (step s a) c = None -> l = [] /\ runs a Root (C_remove_cluster c).
Proof.
  unfold cluster_ops. intros Hl Hn.
  destruct (tee_steps s a) as [o k s1 Hr Hpal Hm He Et _ _|Et _|_ (m1&m2&Et&_&Hm2&_) _]; rewrite Et in Hn; [|st_cbn_in Hn; by rewrite Hl in Hn..].
  clear Et Hm. tee_cases He Hpal; st_cbn_in Hn; try (by rewrite Hl in Hn).
  1-5: lazymatch type of Hn with context [<[?i := _]> _] => destruct (decide (i = c)) as [Hec|Hne]; [by rewrite Hec, lookup_insert in Hn|rewrite lookup_insert_ne in Hn by done; by rewrite Hl in Hn] end.
  destruct (decide (cluster = c)) as [->|Hne]; [|rewrite lookup_delete_ne in Hn by done; by rewrite Hl in Hn].
  split; [|done]. match goal with H : clusters _ !! _ = Some ?y |- _ => rewrite H in Hl; cbn in Hl; injection Hl as <-; destruct (cl_enclaves y); [done|] end.
  exfalso. match goal with H : nlen _ = 0 |- _ => rewrite nlen_cons in H; lia end.
Qed.
Lemma fact_cluster_fresh s s1 s2 c : reachable s -> exists_cluster s c -> later s s1 -> ~ exists_cluster s1 c -> later s1 s2 -> ~ exists_cluster s2 c.
Proof.
  intros Hs Hc H1 Hn H2. pose proof (later_reachable _ _ Hs H1) as Hs1.
  assert (Hg : gone_for_good c s1).
  { split; [|unfold exists_cluster in Hn; destruct (_ !! _); [destruct Hn; eauto|done]]. pose proof (fact_cluster_used s c Hs Hc) as Hu. unfold id_used in Hu.
    eapply (later_stable (fun t => c < next_cluster (s_tee t))); [|exact Hs|exact H1|exact Hu]. clear. intros s s' _ Hst H.
    destruct Hst as [o k s' Ha Hw Hm He|ev| |h|x s' Ha He]; try done.
    - assert (pallet_of k = PTee \/ pallet_of k <> PTee) as [Hpal|Hpal] by (destruct (pallet_of k); auto).
      2: { assert (s_tee s' = s_tee s) as ->; [|done]. pose proof (call_kept _ _ _ _ Hm He) as Hk. unfold kept in Hk. destruct (pallet_of k); try done; destruct_and! Hk; done. }
      clear Hm Ha Hw. tee_cases He Hpal; st_cbn; try done. lia.
    - destruct (pruned_hook h s) as (m1&m2&Et&_). rewrite Et. done.
    - assert (s_tee s' = s_tee s) as ->; [|done]. apply env_kept in He. unfold env_kept_from in He. by destruct_and! He. }
  pose proof (later_stable (gone_for_good c) (fun s s' _ => gone_step c s s') _ _ Hs1 H2 Hg) as [_ Hx]. unfold exists_cluster. rewrite Hx. by intros [].
Qed.
(** The id of a new cluster, and the state it is created in. *)
Lemma fact_cluster_created s a c : ~ exists_cluster s c -> exists_cluster (step s a) c -> c = next_cluster (s_tee s) /\ (exists ty, runs a Root (C_create_cluster ty)) /\ cluster_ops (step s a) c = Some [].
Proof.
  unfold exists_cluster, cluster_ops. intros Hn Hc. assert (Hn' : clusters (s_tee s) !! c = None) by (destruct (_ !! _); [destruct Hn; eauto|done]).
  destruct (tee_steps s a) as [o k s1 Hr Hpal Hm He Et _ _|Et _|_ (m1&m2&Et&_&Hm2&_) _]; rewrite Et in *; [|done..].
  clear Et Hm. tee_cases He Hpal; st_cbn_in Hc; st_cbn; try done.
  1-3, 5: exfalso; apply Hn; apply lookup_insert_is_Some' in Hc as [<-|Hc]; [eauto|done].
  - apply lookup_insert_is_Some' in Hc as [<-|Hc]; [|done]. split; [done|]. split; [eauto|]. by rewrite lookup_insert.
  - exfalso. apply Hn. by apply lookup_delete_is_Some in Hc as [_ ?].
Qed.

(** *** C61 *)
Lemma fact_life_cycle s op : reachable s ->
  (waiting s op -> ~ assigned s op /\ bonded s op) /\ (updating s op -> assigned s op) /\ (leaving s op -> assigned s op).
Proof.
  intros Hs. pose proof (reachable_teeok s Hs) as HK. rewrite assigned_iff. split; [|split].
  - intros [r Hr]. destruct (k_regs _ HK op r Hr) as (H1&_&H2). rewrite H1. split; [by intros []|done].
  - apply (k_upd _ HK).
  - apply (k_unreg_enc _ HK).
Qed.
Lemma fact_leaving_shape s : reachable s -> NoDup (unregs (s_tee s)) /\ nlen (unregs (s_tee s)) <= list_limit.
Proof. intros Hs. apply (k_unreg _ (reachable_teeok s Hs)). Qed.
End facts.
