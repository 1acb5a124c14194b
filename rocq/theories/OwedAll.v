(** The money of a bidder across any step. *)
From Verif Require Export SpecOwed.
From Verif Require Import OwedBids AucFacts AucHook AucSolv AucInv CanEnd Sreach BlockLog SpecLog Queue Frame NftHook CallFacts.
Local Open Scope N_scope.

Section facts.
Context {C : Config}.

Lemma part_app w l1 l2 : part w (l1 ++ l2) = part w l1 + part w l2.
Proof. unfold part, sum_of. induction l1 as [|x l1 IH]; [done|]. cbn [app map fold_right]. rewrite IH. lia. Qed.
Lemma part_one w v x : part w [(v, x)] = if decide (v = w) then x else 0.
Proof. unfold part, sum_of. cbn. case_decide; lia. Qed.
Lemma part_del w v l : v <> w -> part w (q_del v l) = part w l.
Proof.
  intros Hv. induction l as [|[u z] l IH]; [done|]. cbn [q_del fst]. destruct (N.eqb_spec u v) as [->|Hne].
  - unfold part, sum_of. cbn [map fold_right fst snd]. rewrite decide_False by done. done.
  - unfold part, sum_of in *. cbn [map fold_right fst snd]. by rewrite IH.
Qed.
Lemma bid_part w a : bid_of w a = part w (a_bidders a).
Proof. done. Qed.
Lemma part_get w l : NoDup (l.*1) -> part w l = default 0 (q_get w l).
Proof.
  intros Hn. destruct (q_get w l) as [y|] eqn:E; cbn.
  - apply part_in; [done|]. by apply (q_get_elem w y l Hn).
  - apply part_none. intros y Hy%(q_get_elem w y l Hn). congruence.
Qed.

(** Refunds for a part of the bids in a live auction. *)
Lemma refunded_part s s' i a l w : config_ok -> ed <= 1 -> reachable s -> auctions (s_auc s) !! i = Some a -> sublist l (a_bidders a) ->
  claims (s_auc s') = claims_add l (claims (s_auc s)) -> refund s' w = refund s w + part w l.
Proof.
  intros HC He Hs Ha Hl E. pose proof (a_books _ _ (reachable_ainv s Hs) i a Ha) as B.
  assert (NoDup (l.*1)) as Hn by (eapply fst_sub; [done|apply B]).
  destruct (claims_refunded l s s' Hn E) as [R1 R2]. rewrite (part_get w l Hn). destruct (q_get w l) as [y|] eqn:Ey; cbn.
  - apply (q_get_elem w y l Hn) in Ey. rewrite (R1 w y Ey).
    pose proof (fact_no_saturation s i a w y HC He Hs Ha (elem_sub _ _ _ Hl Ey)) as Hm. clear - Hm. lia.
  - rewrite R2; [lia|]. intros y Hy%(q_get_elem w y l Hn). congruence.
Qed.

Definition leading (w : N) (a : auction) : N :=
  match last (a_bidders a) with Some (v, x) => if decide (v = w) then x else 0 | None => 0 end.
Lemma bid_split w a : bid_of w a = losing w a + leading w a.
Proof.
  rewrite bid_part. unfold losing, leading. fold (part w (removelast (a_bidders a))).
  destruct (last (a_bidders a)) as [[v x]|] eqn:E.
  - apply last_Some in E as [l E]. by rewrite E, removelast_last, part_app, part_one.
  - apply last_None in E. by rewrite E.
Qed.
Lemma msum_plus {A} (f g h : A -> N) (m : gmap N A) : (forall a, f a = g a + h a) -> msum (f <$> m) = msum (g <$> m) + msum (h <$> m).
Proof.
  intros H. induction m as [|k v m Hk IH] using map_ind; [by rewrite !fmap_empty, msum_empty|].
  rewrite !fmap_insert, !msum_insert by (by rewrite lookup_fmap, Hk). rewrite IH, H. lia.
Qed.
Lemma gone_list {A} (f : A -> N) (m : gmap N A) : forall m', m' ⊆ m ->
  exists l : list (N * N), NoDup (l.*1) /\ (forall i x, (i, x) ∈ l -> exists a, m !! i = Some a /\ m' !! i = None /\ f a = x /\ x <> 0) /\
    msum (f <$> m) = msum (f <$> m') + sum_of (map snd l).
Proof.
  induction m as [|k v m Hk IH] using map_ind; intros m' Hm.
  - assert (m' = ∅) as ->.
    { apply map_empty. intros i. destruct (m' !! i) eqn:E; [|done]. by apply (lookup_weaken _ ∅) in E. } exists []. split_and!; [constructor|by intros ? ? ?%elem_of_nil|].
    rewrite fmap_empty, msum_empty. done.
  - rewrite fmap_insert, msum_insert by (by rewrite lookup_fmap, Hk).
    assert (delete k m' ⊆ m) as Hd.
    { apply map_subseteq_spec. intros j y [Hj1 Hj2]%lookup_delete_Some. pose proof (lookup_weaken _ _ _ _ Hj2 Hm) as H.
      by rewrite lookup_insert_ne in H. }
    destruct (IH _ Hd) as (l&Hn&Hl&Hs).
    assert (forall i x, (i, x) ∈ l -> k <> i /\ exists a, <[k:=v]> m !! i = Some a /\ m' !! i = None /\ f a = x /\ x <> 0) as Hl'.
    { intros i x Hi. destruct (Hl i x Hi) as (a&H1&H2&H3&H4). assert (k <> i) as Hne by (intros ->; congruence).
      split; [done|]. exists a. rewrite lookup_insert_ne by done. rewrite lookup_delete_ne in H2 by done. done. }
    destruct (m' !! k) as [v'|] eqn:Ek.
    + pose proof (lookup_weaken _ _ _ _ Ek Hm) as H. rewrite lookup_insert in H. injection H as <-.
      exists l. split_and!; [done|intros i x Hi; by apply Hl'|]. rewrite (msumf_delete _ _ _ _ Ek), Hs. lia.
    + rewrite (delete_notin m' k Ek) in Hs. destruct (decide (f v = 0)) as [E0|E0].
      * exists l. split_and!; [done|intros i x Hi; by apply Hl'|]. lia.
      * exists ((k, f v) :: l). split_and!.
        -- cbn. apply NoDup_cons. split; [|done]. intros Hi. apply elem_of_list_fmap in Hi as ([i x]&E&Hi). destruct (Hl' i x Hi) as [Hne _]. done.
        -- intros i x [E|Hi]%elem_of_cons; [injection E as -> ->|by apply Hl']. exists v. by rewrite lookup_insert.
        -- unfold sum_of in *. cbn [map fold_right snd]. lia.
Qed.

(** What a step may do to the money of [w]. *)
Definition only_won (w : N) (s t : state) : Prop :=
  exists l : list (N * N), NoDup (map fst l) /\ (forall i x, (i, x) ∈ l -> won s t w i x) /\ owed t w + sum_of (map snd l) = owed s w.
Lemma owed_same w s t : owed t w = owed s w -> only_won w s t.
Proof. intros E. exists []. split_and!; [constructor|by intros ? ? ?%elem_of_nil|]. cbn. lia. Qed.

Lemma only_won_block w s : config_ok -> ed <= 1 -> reachable s -> only_won w s (next_block s).
Proof.
  intros HC He Hs. pose proof (block_hrel _ (reachable_inv1 _ Hs)) as [Hsub _ _ _ _].
  destruct (gone_list (leading w) _ _ Hsub) as (l&Hn&Hl&Hsum). exists l. split; [done|]. split.
  - intros i x Hi. destruct (Hl i x Hi) as (a&Ha&Hg&Hle&Hx). unfold leading in Hle. exists a. split; [done|].
    destruct (last (a_bidders a)) as [[v y]|] eqn:El; [|by subst x]. case_decide; subst; [|done]. split; [done|]. split; [done|].
    destruct (block_log s HC Hs) as (ev&_&Hlog). destruct (tl_auction _ _ _ Hlog i a Ha Hg) as (p1&p2&p3&p4&p5&Hev).
    destruct (tl_true _ _ _ Hlog _ Hev) as (a1&Ha1&_&[[E1 _]|(l1&v1&x1&d&f&com&roy&rest&E1&_&_&_&_&_&Ho)]); rewrite Ha in Ha1; injection Ha1 as <-.
    + rewrite E1 in El. done.
    + rewrite E1, last_snoc in El. injection El as <- <-. exact Ho.
  - pose proof (block_due_to w s HC He Hs) as G. unfold due_to, standing in G. unfold owed.
    rewrite !(msum_plus (bid_of w) (losing w) (leading w)) by apply bid_split. rewrite Hsum. lia.
Qed.

Lemma only_won_step w s a : config_ok -> ed <= 1 -> reachable s -> action_ok a -> (forall c, a <> Extrinsic (Signed w) c) -> only_won w s (step s a).
Proof.
  intros HC He Hs Ha Hne. pose proof (reachable_ainv s Hs) as HA. unfold ainv in HA.
  assert (Hk : forall t, s_auc t = s_auc s -> only_won w s t) by (intros t E; apply owed_same; unfold owed, refund; by rewrite E).
  apply (step_cases (only_won w s)); try done.
  - by apply Hk.
  - intros c s' Hm Hc. apply Hk. pose proof (call_kept _ _ _ _ Hm Hc) as K. unfold kept in K.
    destruct c; cbn [pallet_of] in K; try (by destruct_and! K); try discriminate Hm; discriminate Hc.
  - intros o c s' -> Hm _ Hc. pose proof (call_kept _ _ _ _ Hm Hc) as K. unfold kept in K.
    destruct c; cbn [pallet_of] in K; try (apply Hk; by destruct_and! K); try discriminate Hm.
    all: clear K Hm; cbn [exec_call] in Hc; unfold signed in Hc; destruct o as [|who|]; try done.
    all: assert (Hw : who <> w) by (intros ->; by eapply Hne).
    + apply owed_same. apply create_ok in Hc as (d&m&Hd&_&Hu&_&_&_&_&_&_&_&_&_&_&_&E).
      assert (auctions (s_auc s) !! id = None) as Hno.
      { pose proof (i_view s (reachable_inv1 s Hs) id) as V. unfold view_ok in V. rewrite Hd in V. destruct Hu as (Hu&_).
        apply v_listed in V. rewrite Hu in V. destruct (auctions (s_auc s) !! id); [|done]. by rewrite orb_comm in V. }
      unfold owed, refund. rewrite E. cbn [auctions claims]. rewrite msumf_new by done. done.
    + apply owed_same. apply cancel_ok in Hc as (d&y&_&Hy&_&Hlt&_&_&E).
      pose proof (reachable_waits s Hs id y Hy Hlt) as Hb. rewrite Hb in E.
      unfold owed, refund. rewrite E. cbn [auc_done auctions claims claims_add fold_left]. rewrite (msumf_delete (bid_of w) (auctions (s_auc s)) _ _ Hy).
      unfold bid_of at 2. rewrite Hb. done.
    + apply end_ok in Hc as (d&y&m&f&v&x&rest&b'&_&Hy&_&_&Eb&_&_&_&_&En&E).
      assert (refund s' w = refund s w + part w rest) as Hr.
      { apply (refunded_part s s' id y); try done; [rewrite Eb; by apply sublist_inserts_r|by rewrite E]. }
      assert (owed s' w + (if decide (v = w) then x else 0) = owed s w) as Ho.
      { unfold owed. rewrite Hr, (msumf_delete (bid_of w) (auctions (s_auc s)) _ _ Hy), bid_part, Eb, part_app, part_one, E.
        cbn [auc_done auctions]. lia. }
      case_decide as Hv; [subst v|apply owed_same; lia]. exists [(id, x)]. split; [by repeat constructor; apply not_elem_of_nil|]. split.
      * intros j z Hj%elem_of_list_singleton. injection Hj as -> ->. exists y. rewrite Eb, last_snoc. split_and!; try done.
        -- rewrite E. apply lookup_delete.
        -- unfold owner_of. rewrite En. st_cbn. by rewrite lookup_insert.
      * unfold sum_of. cbn. lia.
    + apply owed_same. apply bid_ok in Hc as (y&b'&l&a'&e&Hy&_&_&_&_&Hlim&El&_&Ee&_&_&E).
      destruct (extend_fields _ _ _ _ Ee) as (_&_&_&_&Ebs&_). change (a_bidders a' = snd (insert_new_bid who amount l)) in Ebs.
      pose proof (part_del w who (a_bidders y) Hw) as Hpd. rewrite <- El in Hpd.
      destruct (insert_split who amount l) as (k&_&Es&Hor&_).
      assert (part w (a_bidders a') = part w k) as Hpa. { rewrite Ebs, Es, part_app, part_one, decide_False by done. lia. }
      assert (refund s' w + part w k = refund s w + part w l) as Hr.
      { destruct (fst (insert_new_bid who amount l)) as [z|] eqn:Ez.
        - destruct Hor as [Hlk|[_ ?]]; [|done]. rewrite (refunded_part s s' id y [z] w HC He Hs Hy); [|rewrite <- ?Ez|by rewrite E].
          + rewrite Hlk. change (z :: k) with ([z] ++ k). rewrite part_app. lia.
          + assert (sublist (z :: k) (a_bidders y)) as Hsb by (rewrite <- Hlk, El; apply q_del_sub).
            etrans; [|exact Hsb]. constructor. apply sublist_nil_l.
        - destruct Hor as [->|[_ ?]]; [|done]. unfold refund. by rewrite E. }
      unfold owed. pose proof (msumf_insert (bid_of w) (auctions (s_auc s)) _ y a' Hy) as Hms. rewrite E. cbn [auctions].
      rewrite !bid_part in Hms. rewrite Hpa in Hms. rewrite <- Hpd in Hms.
      revert Hr Hms. generalize (msum (bid_of w <$> <[id:=a']> (auctions (s_auc s)))) (msum (bid_of w <$> auctions (s_auc s))) (part w k) (part w l). clear. lia.
    + apply owed_same. apply unbid_ok in Hc as (y&v&b'&Hy&_&_&_&_&_&E). unfold owed, refund. rewrite E. cbn [auctions claims].
      pose proof (msumf_insert (bid_of w) (auctions (s_auc s)) _ y (y <| a_bidders ::= q_del who |>) Hy) as Hms.
      rewrite !bid_part in Hms. change (a_bidders (y <| a_bidders ::= q_del who |>)) with (q_del who (a_bidders y)) in Hms.
      rewrite part_del in Hms by done. revert Hms. clear. lia.
    + apply owed_same. apply buy_ok in Hc as (d&y&m&f&b'&_&Hy&_&_&_&_&_&_&_&_&_&E).
      assert (refund s' w = refund s w + part w (a_bidders y)) as Hr.
      { apply (refunded_part s s' id y); try done. by rewrite E. }
      unfold owed. rewrite Hr, (msumf_delete (bid_of w) (auctions (s_auc s)) _ _ Hy), bid_part, E. cbn [auc_done auctions]. lia.
    + apply owed_same. apply claim_ok in Hc as (v&b'&_&_&_&_&E). unfold owed, refund. rewrite E. cbn [auctions claims].
      by rewrite lookup_delete_ne.
  - intros _. by apply only_won_block.
  - intros e s' -> Hc. apply Hk. by apply env_kept in Hc as (_&_&_&?&_).
Qed.
End facts.
