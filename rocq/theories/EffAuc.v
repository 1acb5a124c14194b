(** What the calls of pallet auction do. *)
From Verif Require Import SpecEffects EffCalc AucFacts RuleAuc.
Local Open Scope N_scope.

Section rows.
Context {C : Config}.

Lemma without_none i q : i ∉ q.*1 -> without i q = q.
Proof.
  unfold without. induction q as [|[j b] q IH]; [done|]. cbn [fmap list_fmap fst]. intros [Hj Hn]%not_elem_of_cons.
  rewrite filter_cons_True by (cbn; congruence). by rewrite IH.
Qed.
Lemma without_del i q : NoDup (q.*1) -> q_del i q = without i q.
Proof.
  unfold without. induction q as [|[j b] q IH]; [done|]. cbn [fmap list_fmap fst]. intros [Hj Hn]%NoDup_cons. cbn [q_del fst].
  destruct (N.eqb_spec j i) as [->|Hne].
  - rewrite filter_cons_False by (cbn; tauto). symmetry. by apply without_none.
  - rewrite filter_cons_True by done. by rewrite IH.
Qed.
Lemma credited_add l m : NoDup (l.*1) -> credited l m (claims_add l m).
Proof.
  intros Hn. split.
  - intros w x Hx. rewrite claims_add_lookup by done. apply (q_get_elem w x l Hn) in Hx. rewrite Hx. unfold sadd. f_equal. lia.
  - intros w Hw. rewrite claims_add_lookup by done.
    destruct (q_get w l) as [x|] eqn:E; [|done]. apply q_get_elem in E; [|done]. by destruct (Hw x).
Qed.
Lemma moved_map i e (q : list (N * N)) : i ∉ q.*1 -> map (fun x => if decide (fst x = i) then (i, e) else x) q = q.
Proof.
  induction q as [|[j b] q IH]; [done|]. cbn [fmap list_fmap fst]. intros [Hj Hn]%not_elem_of_cons. cbn [map fst].
  rewrite decide_False by congruence. f_equal. by apply IH.
Qed.
Lemma moved_perm i e (q : list (N * N)) : NoDup (q.*1) -> i ∈ q.*1 ->
  (i, e) :: q_del i q ≡ₚ map (fun x => if decide (fst x = i) then (i, e) else x) q.
Proof.
  induction q as [|[j b] q IH]; cbn [fmap list_fmap fst]; [intros _ H; by apply elem_of_nil in H|].
  intros [Hj Hn]%NoDup_cons Hi. cbn [q_del map fst]. destruct (N.eqb_spec j i) as [->|Hne].
  - rewrite decide_True by done. by rewrite moved_map.
  - rewrite decide_False by done. rewrite perm_swap. apply perm_skip. apply IH; [done|]. apply elem_of_cons in Hi as [->|?]; done.
Qed.
Lemma moved_update i e q : qok q -> rescheduled i e q (q_update i e q).
Proof.
  intros Hq. split; [by apply q_update_ok|]. destruct (decide (i ∈ q.*1)) as [Hi|Hi].
  - unfold q_update. destruct (q_get i q) eqn:E; [|by apply q_get_none in E]. rewrite q_ins_perm. by apply moved_perm; [apply Hq|].
  - rewrite q_update_notin, moved_map by done. done.
Qed.

Lemma create_auc_does w i k st e sp bi s s' : reachable s -> exec_call (Signed w) (C_create_auction i k st e sp bi) s = (Ok tt, s') ->
  auc_does s w (C_create_auction i k st e sp bi) s'.
Proof.
  intros R H. pose proof (reachable_ainv s R) as HA. cbn [auc_does]. eff_run H create_auction.
  all: apply q_insert_some in U1 as [_ ->]; exists x, x0, (q_ins (i, e) (deadlines (s_auc s))).
  all: split_and!; [done|done|apply q_ins_sorted, HA|apply q_ins_perm|eff_eq].
Qed.
Lemma cancel_auc_does w i s s' : reachable s -> exec_call (Signed w) (C_cancel_auction i) s = (Ok tt, s') ->
  auc_does s w (C_cancel_auction i) s'.
Proof.
  intros R H. pose proof (reachable_ainv s R) as HA. cbn [auc_does]. eff_run H cancel_auction.
  exists x, x0, (claims_add (a_bidders x0) (claims (s_auc s))). split_and!; [done|done|apply credited_add, (a_books _ _ HA i x0 U0)|].
  eff_eq. apply without_del, HA.
Qed.
Lemma end_auc_does w i s s' : reachable s -> exec_call (Signed w) (C_end_auction i) s = (Ok tt, s') ->
  auc_does s w (C_end_auction i) s'.
Proof.
  intros R H. pose proof (reachable_ainv s R) as HA. cbn [auc_does]. cbn [exec_call signed] in H.
  unfold end_auction in H. do 7 mstep H.
  destruct x1 as [[v y] rest]. apply pop_highest_some in U1. cbn [fst snd] in H.
  apply bind_ok in H as (cut&s2&HP&H). apply pay_ok in HP as (m&f&b'&Hm&Hf&->&Hp&->).
  pose proof (a_books _ _ HA i x0 U0) as B.
  minv H. subst s'. exists x, x0, rest, v, y, f, (auc_com f y), (auc_roy f x y), (auc_rest f x y), (claims_add rest (claims (s_auc s))).
  split_and!; try done.
  - eapply auc_division; try eassumption. apply N.lt_le_incl, (b_each _ B v y). rewrite U1. apply elem_of_app. right. by left.
  - apply credited_add. apply (nodup_prefix _ (v, y)). rewrite <- U1. apply B.
  - eff_eq. apply without_del, HA.
Qed.
Lemma buy_auc_does w i p s s' : reachable s -> exec_call (Signed w) (C_buy_it_now i p) s = (Ok tt, s') ->
  auc_does s w (C_buy_it_now i p) s'.
Proof.
  intros R H. pose proof (reachable_ainv s R) as HA. cbn [auc_does]. cbn [exec_call signed] in H.
  unfold buy_it_now in H. do 9 mstep H. apply bind_ok in H as ([]&s1&H1&H).
  assert (s1 = s) as ->. { destruct (highest_bid (a_bidders x0)); minv H1; by simplify_eq. }
  apply bind_ok in H as (cut&s2&HP&H). apply pay_ok in HP as (m&f&b'&Hm&Hf&->&Hp&->).
  pose proof (a_books _ _ HA i x0 U0) as B.
  minv H. subst. exists x, x0, f, (auc_com f p), (auc_roy f x p), (auc_rest f x p), (claims_add (a_bidders x0) (claims (s_auc s))).
  split_and!; try done.
  - eapply auc_division; try eassumption. apply N.lt_le_incl. by apply (b_buy _ B p).
  - apply credited_add. apply B.
  - eff_eq. apply without_del, HA.
Qed.
Lemma unbid_does w i s s' : reachable s -> exec_call (Signed w) (C_remove_bid i) s = (Ok tt, s') -> auc_does s w (C_remove_bid i) s'.
Proof.
  intros R H. pose proof (reachable_ainv s R) as HA. cbn [auc_does]. eff_run H remove_bid. rewrite find_bid_get in U0.
  pose proof (a_books _ _ HA i x U) as B. apply q_get_elem in U0; [|apply B].
  exists x, x0. split; [done|]. split; [done|]. eff_eq. f_equal. rewrite <- (without_del w _ (b_uniq _ B)), <- del_bid_del. by destruct x.
Qed.
Lemma claim_does w s s' : exec_call (Signed w) C_claim s = (Ok tt, s') -> auc_does s w C_claim s'.
Proof. intros H. cbn [auc_does]. eff_run H claim. exists x. split; [done|]. eff_eq. Qed.
Lemma bid_does w i y s s' : reachable s -> exec_call (Signed w) (C_add_bid i y) s = (Ok tt, s') -> auc_does s w (C_add_bid i y) s'.
Proof.
  intros R H. pose proof (reachable_ainv s R) as HA. cbn [auc_does]. cbn [exec_call signed] in H.
  unfold add_bid in H. do 6 mstep H.
  apply bind_ok in H as ([]&s1&H1&H).
  assert (s1 = s) as -> by (destruct (highest_bid (a_bidders x)); by minv H1).
  clear H1. apply bind_ok in H as ([]&s1&H1&H).
  assert (exists b', s1 = s <| s_bal := b' |>) as (b'&->) by (destruct (find_bid w (a_bidders x)); minv H1; eauto).
  clear H1. pose proof (a_books _ _ HA i x U) as B. rewrite del_bid_del, without_del in H by apply B.
  cbv zeta in H. mstep H. 
  set (q := without w (a_bidders x)) in *.
  pose (late := bool_decide (a_end x - s_now s < grace_period)).
  pose (e := if late then N.min (s_now s) (a_end x) + grace_period else a_end x).
  assert (Ee : forall k, extend_if_necessary (s_now s) (x <| a_bidders := k |>) =
     (x <| a_bidders := k |> <| a_end := e |> <| a_extended := late || a_extended x |>, if late then Some e else None)).
  { intros k. unfold extend_if_necessary, e, late. st_cbn. cbn [a_end]. case_bool_decide as Hl.
    - assert (Hx : (a_end x - s_now s <? grace_period) = true) by (clear - Hl; apply N.ltb_lt; lia). rewrite Hx.
      assert (Hy : a_end x + (grace_period - (a_end x - s_now s)) = N.min (s_now s) (a_end x) + grace_period) by (clear - Hl; lia).
      rewrite Hy. done.
    - assert (Hx : (a_end x - s_now s <? grace_period) = false) by (clear - Hl; apply N.ltb_ge; lia). rewrite Hx. by destruct x. }
  rewrite Ee in H. cbn [fst snd] in H. clear Ee.
  unfold insert_new_bid in H. destruct (bidder_limit <=? nlen q) eqn:Eb; cbn [fst snd] in H.
  - apply N.leb_le in Eb. destruct q as [|[v z] l] eqn:Eq.
    { exfalso. cbn in Eb. lia. }
    cbn [head tail on_some] in H.
    exists x, l, (if late then q_update i e (deadlines (s_auc s)) else deadlines (s_auc s)), (claims_add [(v, z)] (claims (s_auc s))), [Ev_BidDropped i v z].
    split; [done|]. split.
    { right. exists v, z. fold q. rewrite Eq. split_and!; [done|done| |done]. apply credited_add. cbn. apply NoDup_singleton. }
    cbn zeta. fold late. fold e. split; [destruct late; [by apply moved_update, HA|done]|].
    destruct late; cbn [on_some] in H; minv H; subst s'; eff_eq.
  - apply N.leb_gt in Eb. cbn [on_some] in H.
    exists x, q, (if late then q_update i e (deadlines (s_auc s)) else deadlines (s_auc s)), (claims (s_auc s)), [].
    split; [done|]. split; [by left|].
    cbn zeta. fold late. fold e. split; [destruct late; [by apply moved_update, HA|done]|].
    destruct late; cbn [on_some] in H; minv H; subst s'; eff_eq.
Qed.
End rows.
