(** Facts about the sorted queues of (NFT id, block) shared by three pallets. *)
From Verif Require Export Tactics.
From Coq Require Export Sorted.
Local Open Scope N_scope.

Implicit Types (i j b c now lim : N) (x y : N * N) (q : list (N * N)).

(** Sorted by block, each NFT at most once. *)
Definition qle (x y : N * N) : Prop := snd x <= snd y.
Definition qok (q : list (N * N)) : Prop := StronglySorted qle q /\ NoDup (q.*1).

Lemma q_ins_perm x q : q_ins x q ≡ₚ x :: q.
Proof.
  induction q as [|y q IH]; [done|]. cbn [q_ins]. destruct (_ <? _); [done|]. rewrite IH. apply perm_swap.
Qed.
Lemma q_ins_elem x y q : y ∈ q_ins x q <-> y = x \/ y ∈ q.
Proof. rewrite q_ins_perm. apply elem_of_cons. Qed.
Lemma q_ins_length x q : length (q_ins x q) = S (length q).
Proof. by rewrite q_ins_perm. Qed.
Lemma sorted_elem x q : StronglySorted qle (x :: q) <-> StronglySorted qle q /\ forall y, y ∈ q -> snd x <= snd y.
Proof.
  split.
  - intros H. apply StronglySorted_inv in H as [H1 H2]. split; [done|]. intros y Hy.
    rewrite Forall_forall in H2. by apply H2.
  - intros [H1 H2]. constructor; [done|]. apply Forall_forall. done.
Qed.
Lemma q_ins_sorted x q : StronglySorted qle q -> StronglySorted qle (q_ins x q).
Proof.
  induction q as [|y q IH]; [by repeat constructor|]. intros H. cbn [q_ins].
  destruct (_ <? _) eqn:E.
  - apply N.ltb_lt in E. apply sorted_elem. split; [done|]. apply sorted_elem in H as [_ H].
    intros z [->|Hz]%elem_of_cons; [lia|]. specialize (H z Hz). lia.
  - apply N.ltb_ge in E. apply sorted_elem in H as [H1 H2]. apply sorted_elem. split; [by apply IH|].
    intros z [->|Hz]%q_ins_elem; [done|]. by apply H2.
Qed.
Lemma q_ins_ok i b q : qok q -> i ∉ q.*1 -> qok (q_ins (i, b) q).
Proof.
  intros [H1 H2] Hi. split; [by apply q_ins_sorted|]. rewrite q_ins_perm. cbn. by constructor.
Qed.
Lemma q_insert_some lim i b q q' : q_insert lim i b q = Some q' -> nlen q < lim /\ q' = q_ins (i, b) q.
Proof. unfold q_insert. destruct (_ <? _) eqn:E; [|done]. intros [= <-]. apply N.ltb_lt in E. done. Qed.

Lemma q_fst_elem i q : i ∈ q.*1 <-> exists b, (i, b) ∈ q.
Proof.
  rewrite elem_of_list_fmap. split.
  - intros ([j b]&->&H). by exists b.
  - intros [b H]. by exists (i, b).
Qed.
Lemma q_uniq i b b' q : NoDup (q.*1) -> (i, b) ∈ q -> (i, b') ∈ q -> b = b'.
Proof.
  induction q as [|[j c] q IH]; [intros _ ?%elem_of_nil; done|]. cbn. intros [Hj Hn]%NoDup_cons H1 H2.
  apply elem_of_cons in H1 as [[= -> ->]|H1]; apply elem_of_cons in H2 as [[= ->]|H2]; [done| | |by eapply IH].
  - destruct Hj. apply q_fst_elem. eauto.
  - destruct Hj. apply q_fst_elem. subst. eauto.
Qed.
Lemma q_get_elem i b q : NoDup (q.*1) -> q_get i q = Some b <-> (i, b) ∈ q.
Proof.
  induction q as [|[j c] q IH]; cbn; [intros _; split; [done|intros ?%elem_of_nil; done]|].
  intros [Hj Hn]%NoDup_cons. rewrite elem_of_cons. destruct (N.eqb_spec j i) as [->|Hne].
  - split; [intros [= ->]; by left|]. intros [[= ->]|H]; [done|]. destruct Hj. apply q_fst_elem. eauto.
  - rewrite (IH Hn). split; [by right|]. intros [[= -> _]|H]; [done|done].
Qed.
Lemma q_get_none i q : q_get i q = None <-> i ∉ q.*1.
Proof.
  induction q as [|[j c] q IH]; cbn; [split; [intros _ ?%elem_of_nil|]; done|].
  rewrite not_elem_of_cons. destruct (N.eqb_spec j i) as [->|Hne]; [split; [done|intros [? _]; done]|].
  rewrite IH. split; [intros ?; split; [congruence|done]|by intros [_ ?]].
Qed.
Lemma q_del_sub i q : sublist (q_del i q) q.
Proof.
  induction q as [|[j c] q IH]; [constructor|]. cbn. destruct (j =? i); [by apply sublist_cons|by apply sublist_skip].
Qed.
Lemma q_del_notin i q : i ∉ q.*1 -> q_del i q = q.
Proof.
  induction q as [|[j c] q IH]; [done|]. cbn. rewrite not_elem_of_cons. intros [Hn Hi].
  destruct (N.eqb_spec j i) as [->|]; [done|]. by rewrite IH.
Qed.
Lemma q_del_elem i x q : NoDup (q.*1) -> x ∈ q_del i q <-> x ∈ q /\ fst x <> i.
Proof.
  induction q as [|[j c] q IH]; cbn; [intros _; split; [intros ?%elem_of_nil|intros [?%elem_of_nil _]]; done|].
  intros [Hj Hn]%NoDup_cons. rewrite elem_of_cons. destruct (N.eqb_spec j i) as [->|Hne].
  - split; [|by intros [[->|?] ?]]. intros Hx. split; [by right|]. intros <-. destruct Hj. apply q_fst_elem.
    exists (snd x). by destruct x.
  - rewrite elem_of_cons, (IH Hn). split; [intros [->|[? ?]]; split; auto|]. intros [[->|?] ?]; auto.
Qed.
Lemma sorted_sub q q' : sublist q' q -> StronglySorted qle q -> StronglySorted qle q'.
Proof.
  induction 1 as [|x q' q H IH|x q' q H IH]; [done| |].
  - intros [H1 H2]%sorted_elem. apply sorted_elem. split; [by apply IH|]. intros y Hy. apply H2.
    eapply sublist_submseteq, elem_of_submseteq in H; eauto.
  - intros [H1 H2]%sorted_elem. by apply IH.
Qed.
Lemma nodup_sub {A} (q q' : list A) : sublist q' q -> NoDup q -> NoDup q'.
Proof.
  intros H. induction H as [|x q' q H IH|x q' q H IH]; [done| |].
  - intros [H1 H2]%NoDup_cons. constructor; [|by apply IH]. intros Hx. apply H1.
    eapply elem_of_submseteq; [exact Hx|]. by apply sublist_submseteq.
  - intros [H1 H2]%NoDup_cons. by apply IH.
Qed.
Lemma qok_sub q q' : sublist q' q -> qok q -> qok q'.
Proof.
  intros H [H1 H2]. split; [by eapply sorted_sub|]. eapply nodup_sub; [|exact H2].
  clear H1 H2. induction H; cbn; [constructor|by constructor|by constructor].
Qed.
Lemma q_del_ok i q : qok q -> qok (q_del i q).
Proof. apply qok_sub, q_del_sub. Qed.
Lemma q_del_fst i q : NoDup (q.*1) -> i ∉ (q_del i q).*1.
Proof. intros H Hi. apply q_fst_elem in Hi as [b Hb]. apply q_del_elem in Hb as [_ Hb]; [|done]. done. Qed.
Lemma q_del_length i q : (length (q_del i q) <= length q)%nat.
Proof. apply sublist_length, q_del_sub. Qed.
Lemma q_del_length_in i q : i ∈ q.*1 -> length q = S (length (q_del i q)).
Proof.
  induction q as [|[j c] q IH]; cbn; [intros ?%elem_of_nil; done|].
  destruct (N.eqb_spec j i) as [->|Hne]; [done|]. intros [?|H]%elem_of_cons; [congruence|]. cbn. by rewrite IH.
Qed.
Lemma q_update_ok i b q : qok q -> qok (q_update i b q).
Proof.
  intros H. unfold q_update. destruct (q_get i q); [|done]. apply q_ins_ok; [by apply q_del_ok|].
  apply q_del_fst, H.
Qed.
Lemma q_update_elem i b x q : NoDup (q.*1) -> i ∈ q.*1 ->
  x ∈ q_update i b q <-> x = (i, b) \/ (x ∈ q /\ fst x <> i).
Proof.
  intros Hn Hi. unfold q_update. destruct (q_get i q) eqn:E; [|by apply q_get_none in E].
  rewrite q_ins_elem, q_del_elem; done.
Qed.
Lemma q_update_notin i b q : i ∉ q.*1 -> q_update i b q = q.
Proof. intros H. unfold q_update. by rewrite (proj2 (q_get_none _ _) H). Qed.
Lemma q_update_length i b q : length (q_update i b q) = length q.
Proof.
  unfold q_update. destruct (q_get i q) eqn:E; [|done]. rewrite q_ins_length.
  symmetry. apply q_del_length_in. destruct (decide (i ∈ q.*1)) as [|Hn]; [done|].
  apply q_get_none in Hn. congruence.
Qed.
Lemma q_update_fst i b q j : NoDup (q.*1) -> j ∈ (q_update i b q).*1 <-> j ∈ q.*1.
Proof.
  intros Hn. destruct (decide (i ∈ q.*1)) as [Hi|Hi]; [|by rewrite q_update_notin].
  split; intros [c Hc]%q_fst_elem.
  - apply q_update_elem in Hc as [[= -> ->]|[Hc _]]; [done| |done|done]. apply q_fst_elem. eauto.
  - apply q_fst_elem. destruct (decide (j = i)) as [->|Hne].
    + exists b. apply q_update_elem; auto.
    + exists c. apply q_update_elem; auto.
Qed.
Lemma q_pop_some now q i q' : q_pop now q = Some (i, q') -> exists b, q = (i, b) :: q' /\ b <= now.
Proof.
  destruct q as [|[j b] q2]; [done|]. cbn. destruct (_ <=? _) eqn:E; [|done]. intros [= -> ->]. apply N.leb_le in E. eauto.
Qed.
Lemma q_pop_none now q x : q_pop now q = None -> StronglySorted qle q -> x ∈ q -> now < snd x.
Proof.
  destruct q as [|[j b] q2]; cbn; [by intros _ _ ?%elem_of_nil|].
  destruct (_ <=? _) eqn:E; [done|]. apply N.leb_gt in E. intros _ H Hx. apply sorted_elem in H as [_ H].
  apply elem_of_cons in Hx as [->|Hx]; [done|]. specialize (H x Hx). cbn in H. lia.
Qed.
