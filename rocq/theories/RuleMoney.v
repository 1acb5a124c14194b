(** When payments go through. *)
From Verif Require Export SpecRules RuleCalc.
Local Open Scope N_scope.

Section money.
Context {C : Config}.
Implicit Types (b : balances) (s : state).

Lemma frozen_set_free a v b x : frozen (set_free a v b) x = frozen b x.
Proof. unfold frozen, set_free. by destruct (v <? ed). Qed.
Lemma transfer_frozen f t x k b b' a : transfer_b f t x k b = Ok b' -> frozen b' a = frozen b a.
Proof.
  unfold transfer_b. destruct (_ || _); [by intros [= <-]|]. repeat (destruct (_ <? _); [done|]).
  intros [= <-]. by rewrite !frozen_set_free.
Qed.

Lemma transfer_rule w t x b : bsum b 0 ->
  (exists b', transfer_b w t x true b = Ok b') <->
  (x = 0 \/ w = t \/ (x + N.max ed (frozen b w) <= free b w /\ ed <= free b t + x)).
Proof.
  intros Hb. unfold transfer_b. destruct (x =? 0) eqn:E0; [apply N.eqb_eq in E0; cbn; split; eauto|].
  apply N.eqb_neq in E0. cbn [orb]. destruct (w =? t) eqn:E1; [apply N.eqb_eq in E1; split; eauto|].
  apply N.eqb_neq in E1. pose proof (bsum_two b 0 w t Hb E1) as H2. destruct Hb as (_&_&H3).
  unfold untouchable. cbn [orb]. split.
  - intros [b' H]. right. right.
    destruct (free b w <? x) eqn:F1; [done|]. destruct (free b w <? x + frozen b w) eqn:F2; [done|].
    destruct (free b w <? x + N.max _ _) eqn:F3; [done|]. destruct (free b t + x <? ed) eqn:F4; [done|].
    apply N.ltb_ge in F3, F4. lia.
  - intros [?|[?|[H4 H5]]]; [done|done|].
    rewrite (proj2 (N.ltb_ge (free b w) x)), (proj2 (N.ltb_ge (free b w) (x + frozen b w))) by lia.
    rewrite (proj2 (N.ltb_ge (free b w) (x + _))), (proj2 (N.ltb_ge (free b t + x) ed)), (proj2 (N.ltb_ge u128_max (free b t + x))) by lia.
    eauto.
Qed.

Lemma transfer_zero w a k b : transfer_b w a 0 k b = Ok b.
Proof. done. Qed.

(** Successive transfers. *)
Fixpoint chain (w : N) (l : list (N * N)) b : Prop :=
  match l with
  | [] => True
  | (a, x) :: l' => exists b', transfer_b w a x true b = Ok b' /\ chain w l' b'
  end.
Definition can_pay_b b (w : N) (l : list (N * N)) : Prop :=
  (cost w l = 0 \/ cost w l + N.max ed (frozen b w) <= free b w) /\
  forall l1 a x l2, l = l1 ++ (a, x) :: l2 -> x <> 0 -> a <> w -> ed <= free b a + received a l1 + x.

Lemma cost_cons w a x l : cost w ((a, x) :: l) = (if decide (a = w) then 0 else x) + cost w l.
Proof. done. Qed.
Lemma received_cons t a x l : received t ((a, x) :: l) = (if decide (a = t) then x else 0) + received t l.
Proof. done. Qed.

Lemma chain_rule w l : forall b, bsum b 0 -> chain w l b <-> can_pay_b b w l.
Proof.
  induction l as [|[a x] l IH]; intros b Hb.
  { split; [|done]. intros _. split; [by left|]. intros [|? ?] ????; done. }
  cbn [chain]. split.
  - intros (b'&H&Hc). pose proof (transfer_bsum _ _ _ _ _ _ _ Hb H) as Hb'. apply IH in Hc as [Hc1 Hc2]; [|done].
    pose proof (transfer_free _ _ _ _ _ _ H (or_introl eq_refl)) as Hf.
    rewrite (transfer_frozen _ _ _ _ _ _ w H) in Hc1.
    assert (exists b', transfer_b w a x true b = Ok b') as Hr by eauto. apply transfer_rule in Hr; [|done].
    split.
    + rewrite cost_cons. pose proof (Hf w) as Hw. unfold at_acc in Hw. rewrite decide_True in Hw by done.
      destruct (decide (a = w)) as [->|Hne]; [rewrite decide_True in Hw by done; lia|]. rewrite decide_False in Hw by done.
      destruct Hr as [->|[?|[Hr1 Hr2]]]; [|done|]; [|lia]. lia.
    + intros [|[a1 x1] l1] t y l2 E Hy Ht.
      * injection E as -> -> ->. cbn. destruct Hr as [?|[?|[Hr1 Hr2]]]; [done|done|]. lia.
      * injection E as <- <- ->. rewrite received_cons. specialize (Hc2 l1 t y l2 eq_refl Hy Ht).
        pose proof (Hf t) as Hft. unfold at_acc in Hft. rewrite (decide_False (P := t = w)) in Hft by done.
        destruct (decide (a = t)) as [->|]; [rewrite decide_True in Hft by done|rewrite decide_False in Hft by done]; lia.
  - intros [H1 H2].
    assert (exists b', transfer_b w a x true b = Ok b') as [b' Hr].
    { apply transfer_rule; [done|]. destruct (N.eq_dec x 0) as [->|Hx]; [by left|]. right.
      destruct (N.eq_dec w a) as [->|Hne]; [by left|]. right. rewrite cost_cons in H1. rewrite decide_False in H1 by done.
      specialize (H2 [] a x l eq_refl Hx (not_eq_sym Hne)). cbn in H2. lia. }
    exists b'. split; [done|]. apply IH; [by eapply transfer_bsum|].
    pose proof (transfer_free _ _ _ _ _ _ Hr (or_introl eq_refl)) as Hf. split.
    + rewrite (transfer_frozen _ _ _ _ _ _ w Hr). rewrite cost_cons in H1. pose proof (Hf w) as Hw. unfold at_acc in Hw.
      rewrite decide_True in Hw by done.
      destruct (decide (a = w)) as [->|Hne]; [rewrite decide_True in Hw by done; lia|]. rewrite decide_False in Hw by done. lia.
    + intros l1 t y l2 E Hy Ht. specialize (H2 ((a, x) :: l1) t y l2). rewrite E in H2. specialize (H2 eq_refl Hy Ht).
      rewrite received_cons in H2. pose proof (Hf t) as Hft. unfold at_acc in Hft. rewrite (decide_False (P := t = w)) in Hft by done.
      destruct (decide (a = t)) as [->|]; [rewrite decide_True in Hft by done|rewrite decide_False in Hft by done]; lia.
Qed.
Lemma chain_can_pay s w l : binv s -> chain w l (s_bal s) <-> can_pay s w l.
Proof. apply chain_rule. Qed.

(** Payments of a pot. *)
Lemma death_rule p t x b : bsum b 0 -> frozen b p = 0 ->
  (exists b', transfer_b p t x false b = Ok b') <-> (x = 0 \/ p = t \/ (x <= free b p /\ ed <= free b t + x)).
Proof.
  intros Hb Hf. unfold transfer_b. destruct (x =? 0) eqn:E0; [apply N.eqb_eq in E0; cbn; split; eauto|].
  apply N.eqb_neq in E0. cbn [orb]. destruct (p =? t) eqn:E1; [apply N.eqb_eq in E1; split; eauto|].
  apply N.eqb_neq in E1. pose proof (bsum_two b 0 p t Hb E1) as H2. destruct Hb as (_&_&H3).
  unfold untouchable, has_lock. rewrite Hf. cbn [orb N.ltb N.compare]. replace (N.max 0 0) with 0 by lia. rewrite N.add_0_r. split.
  - intros [b' H]. right. right.
    destruct (free b p <? x) eqn:F1; [done|]. destruct (free b t + x <? ed) eqn:F4; [done|].
    apply N.ltb_ge in F1, F4. lia.
  - intros [?|[?|[H4 H5]]]; [done|done|].
    rewrite (proj2 (N.ltb_ge (free b p) x)) by lia.
    rewrite (proj2 (N.ltb_ge (free b t + x) ed)), (proj2 (N.ltb_ge u128_max (free b t + x))) by lia.
    eauto.
Qed.
Lemma death_free p t x b b' : transfer_b p t x false b = Ok b' -> x <> 0 -> p <> t ->
  free b' p = (if free b p - x <? ed then 0 else free b p - x) /\ free b' t = free b t + x /\
  forall a, a <> p -> a <> t -> free b' a = free b a.
Proof.
  intros H Hx Ht. unfold transfer_b in H. rewrite (proj2 (N.eqb_neq x 0)), (proj2 (N.eqb_neq p t)) in H by done. cbn [orb] in H.
  destruct (free b p <? x); [done|]. destruct (free b p <? x + frozen b p); [done|].
  destruct (free b p <? x + untouchable _ _ _); [done|]. destruct (free b t + x <? ed) eqn:E; [done|].
  destruct (u128_max <? _); [done|]. injection H as <-. split_and!.
  - rewrite free_set_free, decide_False by done. by rewrite free_set_free, decide_True.
  - rewrite free_set_free, decide_True by done. by rewrite E.
  - intros a Hp Ha. by rewrite !free_set_free, !decide_False.
Qed.
Fixpoint pchain (p : N) (l : list (N * N)) b : Prop :=
  match l with
  | [] => True
  | (a, x) :: l' => exists b', transfer_b p a x false b = Ok b' /\ pchain p l' b'
  end.
Definition pot_can_pay_b b (p : N) (l : list (N * N)) : Prop :=
  cost p l <= free b p /\
  forall l1 a x l2, l = l1 ++ (a, x) :: l2 -> x <> 0 -> a <> p ->
    ed <= free b a + received a l1 + x /\ cost p l1 + ed <= free b p.
Lemma noop_transfer p a x k b b' : x = 0 \/ p = a -> transfer_b p a x k b = Ok b' -> b' = b.
Proof.
  intros H. unfold transfer_b. destruct (_ || _) eqn:E; [by intros [= <-]|].
  apply orb_false_iff in E as [?%N.eqb_neq ?%N.eqb_neq]. by destruct H.
Qed.
Lemma cost_skip p a x l : x = 0 \/ p = a -> cost p ((a, x) :: l) = cost p l.
Proof. intros H. rewrite cost_cons. destruct (decide _); [lia|]. destruct H; [lia|congruence]. Qed.
Lemma cost_zero l1 a x l2 p : cost p (l1 ++ (a, x) :: l2) = 0 -> x <> 0 -> a = p.
Proof.
  induction l1 as [|[t y] l1 IH]; cbn [app]; rewrite cost_cons.
  - intros H Hx. destruct (decide (a = p)); [done|lia].
  - intros H Hx. apply IH; [lia|done].
Qed.
Lemma pchain_rule p l : forall b, 0 < ed -> bsum b 0 -> frozen b p = 0 -> pchain p l b <-> pot_can_pay_b b p l.
Proof.
  induction l as [|[t x] l IH]; intros b Hed Hb Hf.
  { split; [|done]. intros _. split; [cbn; lia|]. intros [|? ?] ????; done. }
  cbn [pchain]. destruct (decide (x = 0 \/ p = t)) as [Hn|Hn].
  - assert (transfer_b p t x false b = Ok b) as Hno.
    { assert (exists b', transfer_b p t x false b = Ok b') as [b' H] by (apply death_rule; [done|done|tauto]).
      by rewrite (noop_transfer _ _ _ _ _ _ Hn H) in H. }
    transitivity (pchain p l b); [split; [intros (b'&H&?); congruence|eauto]|]. rewrite (IH b) by done. unfold pot_can_pay_b. rewrite cost_skip by done. split; intros [H1 H2]; (split; [done|]).
    + intros [|[a1 x1] l1] a y l2 E Hy Ha; [injection E as -> -> ->; destruct Hn; congruence|]. injection E as <- <- ->.
      rewrite cost_skip by done. destruct (H2 l1 a y l2 eq_refl Hy Ha) as [H3 H4]. split; [|done]. rewrite received_cons. destruct (decide _); lia.
    + intros l1 a y l2 -> Hy Ha. destruct (H2 ((t, x) :: l1) a y l2 eq_refl Hy Ha) as [H3 H4]. rewrite cost_skip in H4 by done. split; [|done].
      rewrite received_cons in H3. destruct (decide (t = a)); [|lia]. destruct Hn; [lia|congruence].
  - assert (x <> 0 /\ p <> t) as [Hx Ht] by tauto. clear Hn. split.
    + intros (b'&H&Hc). pose proof (transfer_bsum _ _ _ _ _ _ _ Hb H) as Hb'.
      pose proof (transfer_frozen _ _ _ _ _ _ p H) as Hf'. rewrite Hf in Hf'. apply IH in Hc as [Hc1 Hc2]; [|done..].
      destruct (death_free _ _ _ _ _ H Hx Ht) as (D1&D2&D3).
      assert (exists b', transfer_b p t x false b = Ok b') as [?|[?|[R1 R2]]]%death_rule by eauto; [done|done| |done|done].
      pose proof (bsum_ed b 0 p Hb) as Hp. split.
      * rewrite cost_cons, decide_False by done. destruct (_ <? _); lia.
      * intros [|[a1 x1] l1] a y l2 E Hy Ha; [injection E as -> -> ->; cbn; lia|]. injection E as <- <- ->.
        rewrite cost_cons, decide_False, received_cons by done. destruct (Hc2 l1 a y l2 eq_refl Hy Ha) as [H3 H4]. split.
        -- destruct (decide (t = a)) as [->|]; [rewrite D2 in H3; lia|]. rewrite D3 in H3 by done. lia.
        -- rewrite D1 in H4. destruct (_ <? _); lia.
    + intros [H1 H2]. rewrite cost_cons, decide_False in H1 by done. destruct (H2 [] t x l eq_refl Hx (not_eq_sym Ht)) as [H3 H4]. cbn in H3, H4.
      assert (exists b', transfer_b p t x false b = Ok b') as [b' H] by (apply death_rule; [done|done|right; right; lia]).
      pose proof (transfer_bsum _ _ _ _ _ _ _ Hb H) as Hb'. pose proof (transfer_frozen _ _ _ _ _ _ p H) as Hf'. rewrite Hf in Hf'.
      destruct (death_free _ _ _ _ _ H Hx Ht) as (D1&D2&D3). exists b'. split; [done|]. apply IH; [done..|].
      destruct (free b p - x <? ed) eqn:E.
      * (* the pot is empty now: nothing more is to be paid *)
        apply N.ltb_lt in E. assert (forall l1 a y l2, l = l1 ++ (a, y) :: l2 -> y <> 0 -> a <> p -> False) as Hz.
        { intros l1 a y l2 -> Hy Ha. destruct (H2 ((t, x) :: l1) a y l2 eq_refl Hy Ha) as [_ H5]. rewrite cost_cons, decide_False in H5 by done. lia. }
        split; [|intros l1 a y l2 -> Hy Ha; exfalso; by eapply Hz].
        replace (cost p l) with 0; [lia|]. clear -Hz. symmetry. induction l as [|[a y] l IH]; [done|]. rewrite cost_cons, IH.
        2: { intros l1 c z l2 -> ??. by eapply (Hz ((a, y) :: l1)). }
        destruct (decide (a = p)); [done|]. destruct (N.eq_dec y 0) as [->|]; [done|]. exfalso. by eapply (Hz []).
      * apply N.ltb_ge in E. split; [lia|]. intros l1 a y l2 -> Hy Ha. destruct (H2 ((t, x) :: l1) a y l2 eq_refl Hy Ha) as [H5 H6].
        rewrite cost_cons, decide_False in H6 by done. rewrite received_cons in H5. split.
        -- destruct (decide (t = a)) as [->|]; [rewrite D2; lia|]. rewrite D3 by done. lia.
        -- lia.
Qed.
Lemma pchain_can_pay s p l : 0 < ed -> binv s -> frozen (s_bal s) p = 0 -> pchain p l (s_bal s) <-> pot_can_pay s p l.
Proof. apply pchain_rule. Qed.

(** Fees. *)
Definition affords_b b (w x : N) : Prop := x = 0 \/ x + N.max ed (frozen b w) <= free b w.
Lemma has_lock_max b w : has_lock b w = true <-> frozen b w <> 0.
Proof. unfold has_lock. rewrite N.ltb_lt. lia. Qed.
Lemma withdraw_rule w x b : bsum b 0 -> 0 < ed -> (exists b', withdraw_b w x true b = Ok b') <-> affords_b b w x.
Proof.
  intros Hb Hed. unfold withdraw_b, affords_b. destruct (x =? 0) eqn:E0; [apply N.eqb_eq in E0; split; eauto|].
  apply N.eqb_neq in E0. pose proof (bsum_ed b 0 w Hb) as He. cbv zeta. cbn [andb]. split.
  - intros [b' H]. right. destruct (free b w <? x) eqn:F1; [done|]. apply N.ltb_ge in F1.
    destruct (free b w - x <? ed) eqn:F2; cbn [andb] in H.
    + rewrite (proj2 (N.leb_le ed (free b w))) in H by lia. done.
    + apply N.ltb_ge in F2. destruct (_ <? frozen b w) eqn:F3; [done|]. apply N.ltb_ge in F3. lia.
  - intros [?|H]; [done|]. rewrite (proj2 (N.ltb_ge (free b w) x)) by lia.
    rewrite (proj2 (N.ltb_ge (free b w - x) ed)) by lia. cbn [andb].
    rewrite (proj2 (N.ltb_ge (free b w - x) (frozen b w))) by lia. rewrite andb_false_r. eauto.
Qed.
Lemma pay_fee_rule w x b : bsum b 0 -> 0 < ed -> (exists b', pay_fee_b w x b = Ok b') <-> affords_b b w x.
Proof.
  intros Hb Hed. rewrite <- withdraw_rule by done. unfold pay_fee_b.
  destruct (withdraw_b w x true b) as [b1|e]; split; intros [? H]; eauto; done.
Qed.
Lemma fee_affords s w x b : 0 < ed -> binv s -> pay_fee_b w x (s_bal s) = Ok b -> affords s w x.
Proof. intros Hed Hb H. apply (pay_fee_rule w x (s_bal s) Hb Hed). eauto. Qed.
Lemma affords_fee s w x : 0 < ed -> binv s -> affords s w x -> exists b, pay_fee_b w x (s_bal s) = Ok b.
Proof. intros Hed Hb H. by apply (pay_fee_rule w x (s_bal s) Hb Hed). Qed.

Lemma deposit_frozen a x b w : frozen (snd (deposit_creating_b a x b)) w = frozen b w.
Proof. unfold deposit_creating_b. destruct (x =? 0); [done|]. destruct (_ && _); [done|]. destruct (_ <? _); [done|]. apply frozen_set_free. Qed.
Lemma resolve_frozen a x b w : frozen (resolve_creating_b a x b) w = frozen b w.
Proof.
  unfold resolve_creating_b. pose proof (deposit_frozen a x b w). destruct (deposit_creating_b a x b). done.
Qed.
Lemma collect_frozen x b w : frozen (collect_b x b) w = frozen b w.
Proof. unfold collect_b. destruct fees_collector; [apply resolve_frozen|done]. Qed.
Lemma deposit_free_ne a x b w : w <> a -> free (snd (deposit_creating_b a x b)) w = free b w.
Proof.
  intros Hw. unfold deposit_creating_b. destruct (x =? 0); [done|]. destruct (_ && _); [done|]. destruct (_ <? _); [done|].
  cbn [snd]. by rewrite free_set_free, decide_False.
Qed.
Lemma resolve_free_ne a x b w : w <> a -> free (resolve_creating_b a x b) w = free b w.
Proof.
  intros Hw. unfold resolve_creating_b. pose proof (deposit_free_ne a x b w Hw). destruct (deposit_creating_b a x b). done.
Qed.
Lemma collect_free_ne x b w : fees_collector <> Some w -> free (collect_b x b) w = free b w.
Proof. unfold collect_b. destruct fees_collector; [|done]. intros ?. apply resolve_free_ne. congruence. Qed.
Lemma withdraw_frozen w x k b b' a : withdraw_b w x k b = Ok b' -> frozen b' a = frozen b a.
Proof.
  unfold withdraw_b. destruct (x =? 0); [by intros [= <-]|]. destruct (_ <? _); [done|]. cbv zeta.
  destruct (_ && _ && _); [done|]. destruct (_ <? _); [done|]. destruct (_ && _); [done|]. intros [= <-]. apply frozen_set_free.
Qed.
(** What is left after a fee, for everybody but the collector. *)
Lemma fee_left w x b b' : bsum b 0 -> fees_collector <> Some w -> pay_fee_b w x b = Ok b' ->
  free b' w + x = free b w /\ frozen b' w = frozen b w /\ bsum b' 0.
Proof.
  intros Hb Hc H. unfold pay_fee_b in H. destruct (withdraw_b w x true b) as [b1|] eqn:E; [|done]. injection H as <-.
  rewrite collect_free_ne, collect_frozen by done. split_and!.
  - pose proof (withdraw_free w x true b b1 0 w Hb E (or_introl eq_refl)) as H. unfold at_acc in H. by rewrite decide_True in H.
  - by eapply withdraw_frozen.
  - apply collect_bsum. by eapply withdraw_bsum.
Qed.
Lemma fee_bsum w x b b' : bsum b 0 -> pay_fee_b w x b = Ok b' -> bsum b' 0.
Proof.
  intros Hb H. unfold pay_fee_b in H. destruct (withdraw_b w x true b) as [b1|] eqn:E; [|done]. injection H as <-.
  apply collect_bsum. by eapply withdraw_bsum.
Qed.
(** Two fees in a row. *)
Lemma two_fees w x y b : 0 < ed -> bsum b 0 -> fees_collector <> Some w ->
  (exists b1 b2, pay_fee_b w x b = Ok b1 /\ pay_fee_b w y b1 = Ok b2) <-> affords_b b w (x + y).
Proof.
  intros Hed Hb Hc. split.
  - intros (b1&b2&H1&H2). destruct (fee_left w x b b1 Hb Hc H1) as (L1&L2&L3).
    assert (affords_b b w x) as A1 by (apply pay_fee_rule; eauto). assert (affords_b b1 w y) as A2 by (apply pay_fee_rule; eauto).
    unfold affords_b in *. rewrite L2 in A2. lia.
  - intros A. assert (affords_b b w x) as A1 by (unfold affords_b in *; lia). apply pay_fee_rule in A1 as [b1 H1]; [|done..].
    destruct (fee_left w x b b1 Hb Hc H1) as (L1&L2&L3).
    assert (affords_b b1 w y) as A2 by (unfold affords_b in *; rewrite L2; lia). apply pay_fee_rule in A2 as [b2 H2]; [|done..]. eauto.
Qed.

(** Shares are determined. *)
Lemma permill_share_det p x y z : permill_share p x y -> permill_share p x z -> y = z.
Proof. unfold permill_share. lia. Qed.
Lemma fee_share_det f x y z : fee_share f x y -> fee_share f x z -> y = z.
Proof. destruct f as [[|]|]; cbn; [congruence|apply permill_share_det|congruence]. Qed.
End money.
