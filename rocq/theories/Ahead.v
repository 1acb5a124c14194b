(** How many entries of a queue come before an NFT. *)
From Verif Require Export Queue.
Local Open Scope N_scope.

(** [i] is queued for block [b], and at most [n] entries are before it. *)
Definition ahead (q : list (N * N)) (i b n : N) : Prop := exists l1 l2, q = l1 ++ (i, b) :: l2 /\ nlen l1 <= n.

Lemma ahead_elem q i b n : ahead q i b n -> (i, b) ∈ q.
Proof. intros (l1&l2&->&_). apply elem_of_app. right. left. Qed.
Lemma elem_ahead q i b : (i, b) ∈ q -> exists n, ahead q i b n /\ n < nlen q.
Proof.
  intros (l1&l2&->)%elem_of_list_split. exists (nlen l1). split; [by exists l1, l2|]. unfold nlen. rewrite app_length. cbn. lia.
Qed.
Lemma ahead_le q i b n m : ahead q i b n -> n <= m -> ahead q i b m.
Proof. intros (l1&l2&->&H) Hm. exists l1, l2. split; [done|]. lia. Qed.
Lemma ahead_cons x q i b n : ahead (x :: q) i b n -> fst x <> i -> exists m, m + 1 <= n /\ ahead q i b m.
Proof.
  intros (l1&l2&E&H) Hx. destruct l1 as [|y l1]; cbn in E; injection E as -> ->; [done|].
  exists (nlen l1). split; [unfold nlen in *; cbn [length] in H; lia|]. by exists l1, l2.
Qed.
Lemma ahead_ins x q i b n : StronglySorted qle q -> b <= snd x -> ahead q i b n -> ahead (q_ins x q) i b n.
Proof.
  intros Hs Hb (l1&l2&->&H). revert n H. induction l1 as [|y l1 IH]; intros n H.
  - cbn. destruct (_ <? _) eqn:E; [apply N.ltb_lt in E; lia|]. by exists [], (q_ins x l2).
  - apply sorted_elem in Hs as [Hs Hy]. specialize (IH Hs). cbn [app q_ins].
    specialize (Hy (i, b)). cbn in Hy. rewrite elem_of_app in Hy. specialize (Hy ltac:(right; left)). unfold qle in Hy.
    destruct (snd x <? snd y) eqn:E; [apply N.ltb_lt in E; cbn in Hy; lia|].
    destruct (IH (nlen l1)) as (m1&m2&E1&Hm); [lia|]. rewrite E1. exists (y :: m1), m2. split; [done|].
    unfold nlen in *. cbn [length] in *. lia.
Qed.
Lemma ahead_del j q i b n : j <> i -> ahead q i b n -> ahead (q_del j q) i b n.
Proof.
  intros Hne (l1&l2&->&H). revert n H. induction l1 as [|y l1 IH]; intros n H.
  - cbn. destruct (N.eqb_spec i j) as [->|]; [done|]. by exists [], (q_del j l2).
  - cbn. destruct (N.eqb_spec (fst y) j) as [Ey|Ey].
    + exists l1, l2. split; [done|]. unfold nlen in *. cbn [length] in *. lia.
    + destruct (IH (nlen l1)) as (m1&m2&E1&Hm); [lia|]. rewrite E1. exists (y :: m1), m2. split; [done|].
      unfold nlen in *. cbn [length] in *. lia.
Qed.
Lemma ahead_update j x q i b n : j <> i -> qok q -> b <= x -> ahead q i b n -> ahead (q_update j x q) i b n.
Proof.
  intros Hne Hq Hb H. unfold q_update. destruct (q_get j q); [|done]. apply ahead_ins; [by apply q_del_ok|done|]. by apply ahead_del.
Qed.
(** A front part [l] that does not contain [i] is gone. *)
Lemma ahead_app l q i b n : i ∉ l.*1 -> ahead (l ++ q) i b n -> exists m, m + nlen l <= n /\ ahead q i b m.
Proof.
  revert n. induction l as [|x l IH]; intros n Hi H; [exists n; split; [cbn; lia|done]|].
  cbn [fmap list_fmap] in Hi. apply not_elem_of_cons in Hi as [Hx Hi]. cbn [app] in H.
  apply ahead_cons in H as (m&Hm&H); [|done]. destruct (IH m Hi H) as (k&Hk&H'). exists k. split; [|done].
  unfold nlen in *. cbn [length]. lia.
Qed.
(** An entry that moves back does not get before others. *)
Lemma ahead_ins_any x q i b n : ahead q i b n -> ahead (q_ins x q) i b (n + 1).
Proof.
  intros (l1&l2&->&H). revert n H. induction l1 as [|y l1 IH]; intros n H; cbn [app q_ins].
  - destruct (_ <? _); [exists [x], l2|exists [], (q_ins x l2)]; (split; [done|]); cbn; lia.
  - destruct (_ <? _).
    + exists (x :: y :: l1), l2. split; [done|]. unfold nlen in *. cbn [length] in *. lia.
    + destruct (IH (nlen l1)) as (m1&m2&E1&Hm); [lia|]. rewrite E1. exists (y :: m1), m2. split; [done|].
      unfold nlen in *. cbn [length] in *. lia.
Qed.
Lemma ahead_postpone j c x q i b n : qok q -> (j, c) ∈ q -> c <= x -> j <> i -> ahead q i b n -> ahead (q_update j x q) i b n.
Proof.
  intros Hq Hj Hx Hne (l1&l2&E&H). unfold q_update. destruct (q_get j q) as [c'|] eqn:Eg.
  2: { exists l1, l2. done. }
  destruct (decide (j ∈ l1.*1)) as [Hl|Hl].
  - assert (Ed : q_del j q = q_del j l1 ++ (i, b) :: l2 /\ length l1 = S (length (q_del j l1))).
    { split; [|by apply q_del_length_in]. rewrite E. clear - Hl. induction l1 as [|[k y] l1 IH]; [by apply elem_of_nil in Hl|]. cbn in *.
      destruct (N.eqb_spec k j) as [->|Hk]; [done|]. apply elem_of_cons in Hl as [?|Hl]; [congruence|]. by rewrite IH. }
    destruct Ed as [Ed El]. rewrite Ed. eapply ahead_le; [apply ahead_ins_any; exists (q_del j l1), l2; split; [done|reflexivity]|].
    unfold nlen in *. lia.
  - assert (b <= c) as Hbc.
    { rewrite E in Hj. apply elem_of_app in Hj as [Hj|Hj]; [destruct Hl; apply q_fst_elem; eauto|].
      apply elem_of_cons in Hj as [[= -> ->]|Hj]; [done|]. destruct Hq as [Hs _]. rewrite E in Hs. clear - Hs Hj.
      induction l1 as [|y l1 IH]; cbn in Hs; apply sorted_elem in Hs as [Hs Hy]; [by apply (Hy (j, c))|by apply IH]. }
    apply ahead_ins; [by apply q_del_ok|cbn; lia|]. apply ahead_del; [done|]. exists l1, l2. done.
Qed.
