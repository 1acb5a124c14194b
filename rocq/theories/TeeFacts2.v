(** The TEE properties, second part: unbonding, rewards, reports, clusters, registration. *)
From Verif Require Export TeeFacts AucFacts TransFacts3.
Local Open Scope N_scope.

Section facts.
Context {C : Config}.

(** *** C55 *)
Lemma ledger_step s a w since : reachable s -> unbonding (step s a) w since ->
  unbonding s w since \/ (s_now s = since /\ starts_unbonding s a w).
Proof.
  intros Hs (l&Hl&Hu&Hw). unfold starts_unbonding. rewrite assigned_iff. unfold unbonding.
  destruct (tee_steps s a) as [o c s1 Hr Hpal Hm He Et _ _|Et _|_ (m1&m2&Et&_) _]; rewrite Et in Hl; [|left; eauto..]. clear Et Hm.
  tee_cases He Hpal; st_cbn_in Hl; try (by left; eauto).
  all: try (apply lookup_delete_Some in Hl as [_ Hl]; left; by eauto).
  all: apply lookup_insert_Some in Hl as [[<- <-]|[_ Hl]]; [|left; by eauto].
  - done.
  - cbn in Hw. right. split; [done|]. split; [eauto|]. left. by apply runs_signed.
  - cbn in Hw. right. split; [done|]. split; [eauto|]. by right.
  - cbn in Hu, Hw. left. eauto.
  - cbn in Hu, Hw. left. eauto.
Qed.
Lemma fact_unbonding_since s0 acts w b : genesis s0 -> Forall action_ok acts -> unbonding (after s0 acts) w b ->
  exists acts1 a acts2, acts = acts1 ++ a :: acts2 /\ s_now (after s0 acts1) = b /\ starts_unbonding (after s0 acts1) a w /\
    forall p q, acts2 = p ++ q -> unbonding (after s0 (acts1 ++ a :: p)) w b.
Proof.
  intros H0. induction acts as [|a acts IH] using rev_ind; intros Hacts Hu.
  - destruct Hu as (l&Hl&_). unfold after in Hl. cbn in Hl. rewrite (genesis_tee _ H0) in Hl. cbn in Hl. by rewrite lookup_empty in Hl.
  - apply acts_snoc in Hacts as [H1 H2]. pose proof Hu as Hu'. rewrite after_snoc in Hu.
    apply ledger_step in Hu as [Hu|[Hb Hst]]; [|exists acts, a, []; split; [done|]; split; [done|]; split; [done|]; intros p q Hpq;
      symmetry in Hpq; apply app_eq_nil in Hpq as [-> ->]; done|apply after_reachable; [by apply reach_init|done]].
    destruct (IH H1 Hu) as (acts1&a1&acts2&->&Hn&Hst&Hall). exists acts1, a1, (acts2 ++ [a]). split; [by rewrite <- app_assoc|]. split; [done|]. split; [done|].
    intros p q Hpq. destruct q as [|x q _] using rev_ind.
    + rewrite app_nil_r in Hpq. subst p. by rewrite <- app_assoc in Hu'.
    + rewrite app_assoc in Hpq. apply app_inj_tail in Hpq as [Hpq _]. by eapply Hall.
Qed.
Lemma withdraw_inv s w s' : dispatch (Signed w) C_withdraw_unbonded s = (Ok tt, s') ->
  exists b, unbonding s w b /\ b + bonding_duration <= s_now s \/ bonding_duration = 0 /\ unbonding s w b.
Proof.
  intros [_ He]%dispatch_ok. cbn [exec_call] in He. unfold signed, withdraw_unbonded in He. minv He.
  exists (l_unbonded_at x). assert (unbonding s w (l_unbonded_at x)) by (exists x; done).
  destruct (decide (bonding_duration = 0)); [by right|left]. split; [done|].
  match goal with H : bonding_duration <= _ |- _ => revert H end. lia.
Qed.
Lemma fact_withdraw s0 acts w s' : genesis s0 -> Forall action_ok acts -> dispatch (Signed w) C_withdraw_unbonded (after s0 acts) = (Ok tt, s') ->
  exists acts1 a acts2, acts = acts1 ++ a :: acts2 /\ starts_unbonding (after s0 acts1) a w /\
    s_now (after s0 acts1) + bonding_duration <= s_now (after s0 acts) /\
    forall p q, acts2 = p ++ q -> unbonding (after s0 (acts1 ++ a :: p)) w (s_now (after s0 acts1)).
Proof.
  intros H0 Hacts Hd. destruct (withdraw_inv _ _ _ Hd) as [b Hb].
  assert (Hu : unbonding (after s0 acts) w b) by (by destruct Hb as [[? _]|[_ ?]]).
  destruct (fact_unbonding_since s0 acts w b H0 Hacts Hu) as (acts1&a&acts2&E&Hn&Hst&Hall). exists acts1, a, acts2.
  split; [done|]. split; [done|]. rewrite Hn. split; [|done]. destruct Hb as [[_ ?]|[-> _]]; [done|]. rewrite N.add_0_r, <- Hn, E.
  change (acts1 ++ a :: acts2) with (acts1 ++ (a :: acts2)). rewrite after_app. clear.
  generalize (a :: acts2) as l. intros l. generalize (after s0 acts1) as s. induction l as [|x l IH]; intros s; [done|].
  unfold after. cbn [fold_left]. etrans; [|apply IH]. clear. apply (step_cases (fun t => s_now s <= s_now t)); try done.
  - intros c s' Hm He. pose proof (call_kept _ _ _ _ Hm He) as Hk. unfold kept in Hk. destruct_and! Hk. lia.
  - intros o c s' _ Hm _ He. pose proof (call_kept _ _ _ _ Hm He) as Hk. unfold kept in Hk. destruct_and! Hk. lia.
  - intros _. rewrite now_next_block. lia.
  - intros e s' _ He. apply env_kept in He. unfold env_kept_from in He. destruct_and! He. lia.
Qed.
Lemma fact_release s a w n : reachable s -> staked s w = Some n -> ~ waiting s w ->
  match staked (step s a) w with
  | None => a = Extrinsic (Signed w) C_withdraw_unbonded
  | Some m => m = n \/ (a = Extrinsic (Signed w) C_bond_extra /\ m = staking_amount (s_tee s) /\ n < m) \/
              (a = Extrinsic (Signed w) C_refund_excess /\ m = staking_amount (s_tee s) /\ m < n)
  end.
Proof.
  intros Hs Hst Hnw. unfold staked, waiting in *. pose proof (reachable_teeok s Hs) as HK.
  destruct (tee_steps s a) as [o c s1 Hr Hpal Hm He Et _ _|Et _|_ (m1&m2&Et&_) _]; rewrite Et; [|st_cbn; rewrite Hst; by left..]. clear Et Hm.
  destruct (ledgers (s_tee s) !! w) as [l|] eqn:El; [|done]. injection Hst as <-.
  tee_cases He Hpal; st_cbn; rewrite ?El; cbn [fmap option_fmap option_map]; try (by left).
  - rewrite lookup_insert_ne by congruence. rewrite El. by left.
  - destruct (decide (who = w)) as [->|Hne]; [rewrite lookup_insert|rewrite lookup_insert_ne, El by done]; left; [|done]; assert (x = l) as -> by congruence; done.
  - rewrite lookup_delete_ne; [rewrite El; by left|]. intros ->. apply Hnw. eauto.
  - rewrite lookup_delete_ne; [rewrite El; by left|]. intros ->. apply Hnw. eauto.
  - destruct (decide (op = w)) as [->|Hne]; [rewrite lookup_insert|rewrite lookup_insert_ne, El by done]; left; [|done]; assert (x2 = l) as -> by (st_cbn_in U2; congruence); done.
  - destruct (decide (who = w)) as [->|Hne]; [rewrite lookup_delete; cbn; by apply runs_signed|]. rewrite lookup_delete_ne, El by done. by left.
  - destruct (decide (who = w)) as [->|Hne]; [rewrite lookup_insert|rewrite lookup_insert_ne, El by done; by left]. cbn. right. left.
    split; [by apply runs_signed|]. split; [done|]. assert (x = l) as -> by congruence. done.
  - destruct (decide (who = w)) as [->|Hne]; [rewrite lookup_insert|rewrite lookup_insert_ne, El by done; by left]. cbn. right. right.
    split; [by apply runs_signed|]. split; [done|]. assert (x = l) as -> by congruence. done.
Qed.

(** *** C56 *)
Definition claim_over (w e : N) (s : state) : Prop :=
  is_Some (claimed (s_tee s) !! (e, w)) \/ exists active, s_era s = Some active /\ e + history_depth <= active.
Lemma claim_over_step w e s s' : sreach s -> sstep s s' -> claim_over w e s -> claim_over w e s'.
Proof.
  intros Hs Hst Ho. destruct Hst as [o c s' Ha Hw Hm He|ev| |h|x s' Ha He].
  - destruct Ho as [Ho|Ho]; [left|right].
    + assert (pallet_of c = PTee \/ pallet_of c <> PTee) as [Hpal|Hpal] by (destruct (pallet_of c); auto).
      * clear Hm Ha Hw. tee_cases He Hpal; st_cbn; try exact Ho. apply lookup_insert_is_Some'. by right.
      * assert (s_tee s' = s_tee s) as ->; [|done]. pose proof (call_kept _ _ _ _ Hm He) as Hk. unfold kept in Hk. destruct (pallet_of c); try done; destruct_and! Hk; done.
    + pose proof (call_kept _ _ _ _ Hm He) as Hk. unfold kept in Hk. destruct Hk as (_&->&_). done.
  - done.
  - done.
  - destruct (pruned_hook h s) as (m1&m2&Et&_&_&Hc). unfold claim_over. rewrite Et, hook_era. cbn. destruct Ho as [[x Ho]|Ho]; [|by right].
    destruct (Hc _ _ Ho) as [Hm|(act&Hact&Hk)]; [left; eauto|right]. exists act. split; [done|]. cbn in Hk. lia.
  - unfold claim_over in *. assert (s_tee s' = s_tee s) as ->. { apply env_kept in He. unfold env_kept_from in He. by destruct_and! He. }
    destruct Ho as [Ho|(act&Hact&Hle)]; [by left|right].
    assert (Hera : pres (fun t => exists a, s_era t = Some a /\ e + history_depth <= a) (run_env x)).
    { clear. destruct x; cbn [run_env]; pres_go; st_cbn; try assumption.
      - by destruct (free_m _ !! _).
      - destruct H as (a&E&Hl). rewrite E. destruct (a <? e0) eqn:E0; cbn; [|eauto]. apply N.ltb_lt in E0. exists e0. split; [done|]. lia. }
    specialize (Hera s (ex_intro _ act (conj Hact Hle))). rewrite He in Hera. exact Hera.
Qed.
Lemma fact_claim_once s w e s1 s2 : reachable s -> action_ok (Extrinsic (Signed w) (C_claim_rewards e)) ->
  dispatch (Signed w) (C_claim_rewards e) s = (Ok tt, s1) -> later s1 s2 -> fst (dispatch (Signed w) (C_claim_rewards e) s2) <> Ok tt.
Proof.
  intros Hs Ha Hd Hl. assert (H1 : reachable s1).
  { pose proof (reach_step s _ Hs Ha) as H. cbn [step] in H. by rewrite Hd in H. }
  assert (Ho : claim_over w e s1).
  { left. apply dispatch_ok in Hd as [_ He]. cbn [exec_call] in He. unfold signed, claim_rewards in He. minv He. subst s1. st_cbn. rewrite lookup_insert. eauto. }
  apply (later_stable (claim_over w e) (claim_over_step w e) s1 s2 H1 Hl) in Ho. clear Hl Hd H1. intros Hd2.
  destruct (dispatch (Signed w) (C_claim_rewards e) s2) as [r s3] eqn:Hd. cbn in Hd2. subst r. apply dispatch_ok in Hd as [_ He]. cbn [exec_call] in He.
  unfold signed, claim_rewards in He. minv He. subst s3.
  destruct Ho as [[z Hx]|(act&Hact&Hle)].
  - match goal with H : claimed _ !! _ = None |- _ => rewrite H in Hx end. done.
  - repeat match goal with H : s_era _ = Some _, H' : s_era _ = Some ?b |- _ => lazymatch b with act => fail | _ => rewrite H in H'; injection H' as ? end end. subst. lia.
Qed.
End facts.
