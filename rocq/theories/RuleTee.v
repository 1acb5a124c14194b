(** When the calls of pallet tee succeed. *)
From Verif Require Export RuleNft TeeFacts3 TeeFacts4.
Local Open Scope N_scope.

Section rules.
Context {C : Config}.
Implicit Types (s : state).

(** *** No metrics server is registered twice *)
Lemma servers_step s s' : sstep s s' -> NoDup ((servers (s_tee s)).*1) -> NoDup ((servers (s_tee s')).*1).
Proof.
  intros Hst H. destruct Hst as [o c s' Ha Hw Hm He|ev| |h|x s' Ha He]; try done.
  - assert (pallet_of c = PTee \/ pallet_of c <> PTee) as [Hpal|Hpal] by (destruct (pallet_of c); auto).
    2: { assert (s_tee s' = s_tee s) as ->; [|done]. pose proof (call_kept _ _ _ _ Hm He) as Hk. unfold kept in Hk. destruct (pallet_of c); try done; destruct_and! Hk; done. }
    clear Hm Ha Hw. tee_cases He Hpal; st_cbn; try exact H.
    + rewrite fmap_app. apply NoDup_app. split; [done|]. split; [|apply NoDup_singleton].
      intros x Hx ->%elem_of_list_singleton. apply elem_of_list_fmap in Hx as ([y ty']&E1&Hy).
      match goal with H : existsb _ _ = false |- _ => rename H into Hex end.
      rewrite <- not_true_iff_false, existsb_exists in Hex. apply Hex. exists (y, ty'). split; [by apply elem_of_list_In|]. cbn in *. by apply N.eqb_eq.
    + match goal with H : position _ _ = Some _ |- _ => destruct (position_lookup _ _ _ H) as (y&Hy&Ey) end.
      pose proof (swap_remove_perm _ _ _ Hy) as Hp. apply (fmap_Permutation fst) in Hp. rewrite <- Hp in H. cbn in H. by apply NoDup_cons in H as [_ H].
    + match goal with H : position _ _ = Some _ |- _ => destruct (position_lookup _ _ _ H) as (y&Hy&Ey) end.
      apply N.eqb_eq in Ey. rewrite list_fmap_insert. cbn. rewrite list_insert_id; [done|]. rewrite list_lookup_fmap, Hy. cbn. by rewrite Ey.
  - destruct (pruned_hook h s) as (m1&m2&Et&_). rewrite Et. st_cbn. done.
  - assert (s_tee s' = s_tee s) as ->; [|done]. apply env_kept in He. unfold env_kept_from in He. by destruct_and! He.
Qed.
Lemma servers_unique s : reachable s -> NoDup ((servers (s_tee s)).*1).
Proof.
  intros Hs. destruct (reachable_later s Hs) as (s0&H0&Hl). eapply (later_stable (fun s => NoDup ((servers (s_tee s)).*1))); [|by apply reach_init|exact Hl|].
  - intros s1 s2 _. apply servers_step.
  - rewrite (genesis_tee _ H0). cbn. constructor.
Qed.
Lemma public_iff s w : reachable s ->
  public_server s w <-> exists x, find (fun x => fst x =? w) (servers (s_tee s)) = Some x /\ is_public (snd x) = true.
Proof.
  intros Hs. pose proof (servers_unique s Hs) as Hn. unfold public_server. split.
  - intros Hin. induction (servers (s_tee s)) as [|[y ty] l IH]; [by apply elem_of_nil in Hin|]. cbn in *. apply NoDup_cons in Hn as [Hy Hn].
    apply elem_of_cons in Hin as [[= <- <-]|Hin].
    + rewrite N.eqb_refl. by eexists.
    + destruct (y =? w) eqn:E; [|by apply IH]. apply N.eqb_eq in E as ->. destruct Hy. by apply (elem_of_list_fmap_1 fst) in Hin.
  - intros ([y ty]&Hf&Hp). apply find_elem in Hf as [Hin Hf]. cbn in *. apply N.eqb_eq in Hf as ->. by destruct ty.
Qed.

(** *** Rewards *)
Lemma billion_mul p x : billion_share p x (perbill_mul p x).
Proof.
  unfold billion_share, perbill_mul, per_mul. change (1000000000 / 2) with 500000000.
  pose proof (N.div_mod (x * p) 1000000000 ltac:(done)) as Hdm. pose proof (N.mod_lt (x * p) 1000000000 ltac:(done)) as Hlt.
  destruct (_ <? _) eqn:E; [apply N.ltb_lt in E|apply N.ltb_ge in E]; lia.
Qed.
Lemma billion_det p x y z : billion_share p x y -> billion_share p x z -> y = z.
Proof. unfold billion_share. lia. Qed.
Lemma best_det l f m m' : best l f m -> best l f m' -> m = m'.
Proof.
  intros [A1 A2] [B1 B2]. assert (m <= m').
  { destruct A2 as [->|(r&Hr&<-)]; [lia|by apply B1]. }
  assert (m' <= m). { destruct B2 as [->|(r&Hr&<-)]; [lia|by apply A1]. } lia.
Qed.
Lemma score_det w l p q : score w l p -> score w l q -> p = q.
Proof.
  intros (a1&a2&a3&a4&a5&A1&A2&A3&A4&A5&->) (b1&b2&b3&b4&b5&B1&B2&B3&B4&B5&->).
  rewrite (best_det _ _ _ _ A1 B1), (best_det _ _ _ _ A2 B2), (best_det _ _ _ _ A3 B3), (best_det _ _ _ _ A4 B4), (best_det _ _ _ _ A5 B5). done.
Qed.
Lemma assigned_count s w : assigned s w -> 0 < operators s.
Proof.
  rewrite assigned_iff. intros [e He]. unfold operators. destruct (decide (size (encs (s_tee s)) = 0)%nat) as [E'|]; [|lia].
  apply map_size_empty_inv in E'. rewrite E' in *. by rewrite lookup_empty in *.
Qed.
Lemma reward_is s w e : 0 < operators s -> reward s w e (reward_amount (s_tee s) e w).
Proof.
  intros Hop. unfold reward, reward_amount. fold (operators s).
  assert (perbill_from_rational 1 (operators s) = 1000000000 / operators s) as ->.
  { unfold perbill_from_rational. rewrite (proj2 (N.eqb_neq (operators s) 0)), (proj2 (N.ltb_ge (operators s) 1)) by lia. done. }
  eexists. split; [apply billion_mul|]. destruct (reports (s_tee s) !! (e, w)) as [l|]; [|done].
  eexists. split; [apply score_exists|]. rewrite perbill_score, N.mul_comm. apply billion_mul.
Qed.
Lemma reward_det s w e x y : reward s w e x -> reward s w e y -> x = y.
Proof.
  intros (sh&H1&H2) (sh'&G1&G2). rewrite (billion_det _ _ _ _ H1 G1) in H2.
  destruct (reports (s_tee s) !! (e, w)) as [l|]; [|congruence].
  destruct H2 as (p&P1&P2), G2 as (q&Q1&Q2). rewrite (score_det _ _ _ _ P1 Q1) in P2. by eapply billion_det.
Qed.

(** *** Locks *)
Lemma lock_iff s w x : (x <=? free (s_bal s) w) = true /\ can_withdraw (s_bal s) w x (free (s_bal s) w - x) = true <-> has_unlocked s w x.
Proof.
  unfold can_withdraw, has_unlocked. rewrite orb_true_iff, N.leb_le, N.eqb_eq, N.leb_le. lia.
Qed.
Lemma put_report_iff r o : is_Some (put_report r o) <-> rp_submitted_by r ∈ map rp_submitted_by (default [] o) \/ nlen (default [] o) < list_limit.
Proof.
  unfold put_report. set (l := default [] o). clearbody l. destruct (position _ l) as [i|] eqn:Ep.
  - split; [intros _|eauto]. destruct (position_lookup _ _ _ Ep) as (y&Hy&Ey). apply N.eqb_eq in Ey. left. rewrite <- Ey.
    apply elem_of_list_fmap. exists y. split; [done|]. by eapply elem_of_list_lookup_2.
  - destruct (nlen l <? list_limit) eqn:E; [apply N.ltb_lt in E; split; eauto|]. apply N.ltb_ge in E. split; [by intros [? ?]|]. intros [H|]; [|lia].
    apply elem_of_list_fmap in H as (y&E1&Hy). pose proof (position_None _ _ _ Ep Hy) as E2. cbn in E2. by rewrite <- E1, N.eqb_refl in E2.
Qed.
Lemma uri_iff (u : bytes) : negb (nlen u =? 0) = true <-> u <> [].
Proof. by destruct u. Qed.
Lemma none_iff {A} (o : option A) : none o = true <-> ~ is_Some o.
Proof. destruct o; cbn; split; try done. intros H. destruct H. eauto. Qed.

Lemma fact_tee_rule s w c : config_ok -> reachable s -> w ∉ pots -> wf_call c = true -> is_tee_call c ->
  (exists s', dispatch (Signed w) c s = (Ok tt, s')) <-> tee_rule s w c.
Proof.
  intros HC Hs Hpw Hw Hc. pose proof (reachable_binv s Hs) as Hb. pose proof (reachable_teeok s Hs) as Ht.
  pose proof (ok_ed HC) as Hed.
  apply rule_intro; [done| |].
  - intros s' H. destruct c; try done; cbn [exec_call signed root] in H; try done; cbn [tee_rule].
    + unfold register_enclave, ensure_can_withdraw in H. minv H. split_and!; try done.
      * intros ->. done.
      * unfold waiting. rewrite O. by intros [? ?].
      * rewrite assigned_iff, O0. by intros [? ?].
      * apply lock_iff. by rewrite N.leb_le.
    + unfold unregister_enclave in H. do 2 mstep H. destruct (encs (s_tee s) !! w) as [e|] eqn:Ee.
      * right. minv H. split_and!; [by apply assigned_iff, mk_is_Some with e| |done].
        unfold leaving. rewrite <- memN_iff. congruence.
      * left. minv H. by eexists.
    + unfold update_enclave in H. minv H. split_and!; [by intros ->|done|by apply assigned_iff; eexists|unfold updating; rewrite O; by intros [? ?]|].
      destruct E1 as [E1|E1]; [left|right; by apply none_true]. by exists x.
    + unfold cancel_update in H. minv H. by eexists.
    + unfold withdraw_unbonded in H. minv H. exists (l_unbonded_at x). split; [by exists x|done].
    + unfold submit_metrics_server_report in H. minv H. split_and!; [apply public_iff; [done|by eexists]|by apply assigned_iff; eexists|].
      eexists. split; [eassumption|]. unfold reports_of. by apply put_report_iff with (r := r), mk_is_Some with x2.
    + unfold claim_rewards in H. minv H. split_and!; [by apply assigned_iff; eexists|by apply none_true|].
      eexists _, _, _. split_and!; [eassumption|eassumption|lia..|apply reward_is; eapply assigned_count, assigned_iff; eauto|].
      apply pchain_can_pay; [done|done|by apply pot_unfrozen; [apply reachable_sreach|unfold pots; set_solver]|]. cbn. eauto.
    + unfold bond_extra, ensure_can_withdraw in H. minv H. exists (l_staked x). unfold staked. rewrite U. split_and!; [done|done|].
      apply lock_iff. by rewrite N.leb_le.
    + unfold refund_excess in H. minv H. exists (l_staked x). unfold staked. rewrite U. done.
  - intros H. destruct c; try done; cbn [tee_rule] in H; cbn [exec_call signed].
    + destruct H as (Hu%uri_iff&Ha&Hw1%none_iff&Hw2&Hfr%none_true&Hl%none_true&[H1 H2]%lock_iff). rewrite assigned_iff in Hw2. apply none_iff in Hw2.
      unfold register_enclave, ensure_can_withdraw. okgo.
    + unfold unregister_enclave. destruct H as [[r Hr]|(Ha%assigned_iff&Hl&Hn)].
      * destruct (k_regs _ Ht _ _ Hr) as [He _]. okgo. rewrite He. okgo.
      * destruct (k_stake _ Ht w Ha Hl) as (l&Hl'&_). destruct Ha as [e He]. okgo. rewrite He. okgo.
        okstep. { rewrite negb_true_iff. apply not_true_is_false. by rewrite memN_iff. } okgo.
    + destruct H as (Hu%uri_iff&Ha&[e He]%assigned_iff&Hup%none_iff&Hor). unfold update_enclave. okgo.
      okstep. { rewrite orb_true_iff, N.eqb_eq, none_true. destruct Hor as [(e'&He'&?)|Hor]; [left; congruence|by right]. } okgo.
    + destruct H as [u Hu]. unfold cancel_update. okgo.
    + destruct H as (b&(l&Hl&Hul&<-)&Hd). unfold withdraw_unbonded. okgo.
    + destruct H as ((x&Hf&Hp)%public_iff&[e He]%assigned_iff&active&Hact&Hlim); [|done]. unfold reports_of in Hlim. apply put_report_iff in Hlim as [l Hl].
      unfold submit_metrics_server_report. okgo.
    + destruct H as (Has&Hcl%none_true&active&since&x&Hact&Hsi&?&?&?&?&Hrw&Hpay). pose proof (assigned_count s w Has) as Hop.
      apply assigned_iff in Has as [e He].
      apply pchain_can_pay in Hpay; [|done|done|by apply pot_unfrozen; [apply reachable_sreach|unfold pots; set_solver]].
      cbn in Hpay. destruct Hpay as (b&Hpay&_). rewrite (reward_det _ _ _ _ _ Hrw (reward_is s w _ Hop)) in Hpay.
      unfold claim_rewards. okgo.
    + destruct H as (n&Hn&Hlt&[H1 H2]%lock_iff). unfold staked in Hn. apply fmap_Some in Hn as (l&Hl&->). unfold bond_extra, ensure_can_withdraw. okgo.
    + destruct H as (n&Hn&Hlt). unfold staked in Hn. apply fmap_Some in Hn as (l&Hl&->). unfold refund_excess. okgo.
Qed.
End rules.
