(** The invariant of the rent storages: contracts and schedule. *)
From Verif Require Export RentInv AucSolv.
Local Open Scope N_scope.

Section rok.
Context {C : Config}.

Record cok (now : N) (c : contract) : Prop := {
  c_full : 0 < full_duration (r_duration c) <= duration_limit;
  c_per : 0 < duration_or_period (r_duration c) <= duration_limit;
  c_cf1 : zero_or_big (cf_amount (r_renter_cf c));
  c_cf2 : zero_or_big (cf_amount (r_rentee_cf c));
  c_a1 : allows_cancellation (r_duration c) (r_renter_cf c) = true;
  c_a2 : allows_cancellation (r_duration c) (r_rentee_cf c) = true;
  c_fee : allows_rent_fee (r_duration c) (r_rent_fee c) = true;
  c_run : isS (r_start c) = isS (r_rentee c);
  c_start : forall st, r_start c = Some st -> r_creation c <= st <= now;
  c_made : r_creation c <= now }.

(** The entry a contract has in the schedule. *)
Definition due_ok (now : N) (c : contract) (b : N) : Prop :=
  match r_start c, r_duration c with
  | None, _ => b = r_creation c + availability_limit
  | Some st, Fixed n => b = st + n
  | Some _, Subscription _ => b <= now + duration_limit
  end.
Definition in_fixed (c : contract) : Prop := isS (r_start c) = true /\ kind_of (r_duration c) = QFixed.
Definition in_sub (c : contract) : Prop := isS (r_start c) = true /\ kind_of (r_duration c) = QSub.
Definition in_avail (c : contract) : Prop := isS (r_start c) = false.

Definition listing (now : N) (cs : gmap N contract) (P : contract -> Prop) (l : list (N * N)) : Prop :=
  qok l /\
  (forall i b, (i, b) ∈ l -> exists c, cs !! i = Some c /\ P c /\ due_ok now c b) /\
  (forall i c, cs !! i = Some c -> P c -> i ∈ l.*1).

Record rok (now : N) (cs : gmap N contract) (q : rent_queues) : Prop := {
  r_fix : listing now cs in_fixed (q_fixed q);
  r_subs : listing now cs in_sub (q_sub q);
  r_av : listing now cs in_avail (q_avail q);
  r_size : queues_size q <= rent_limit;
  r_cok : forall i c, cs !! i = Some c -> cok now c }.

Lemma due_mono n n' c b : n <= n' -> due_ok n c b -> due_ok n' c b.
Proof. unfold due_ok. intros ? ?. destruct (r_start c); [|done]. destruct (r_duration c); [done|]. lia. Qed.
Lemma cok_mono n n' c : n <= n' -> cok n c -> cok n' c.
Proof. intros Hn []. constructor; try done; [intros st Hs; specialize (c_start0 st Hs)|]; lia. Qed.
Lemma listing_mono n n' cs P l : n <= n' -> listing n cs P l -> listing n' cs P l.
Proof.
  intros Hn (H1&H2&H3). split_and!; [done| |done]. intros i b Hi. destruct (H2 i b Hi) as (c&Hc&Hp&Hd).
  exists c. split_and!; [done|done|by eapply due_mono].
Qed.
Lemma rok_mono n n' cs q : n <= n' -> rok n cs q -> rok n' cs q.
Proof.
  intros Hn []. constructor; [by eapply listing_mono..|done|]. intros i c Hc. eapply cok_mono; eauto.
Qed.

Lemma listing_del now cs P l i : listing now cs P l -> listing now (delete i cs) P (q_del i l).
Proof.
  intros (H1&H2&H3). split_and!.
  - by apply q_del_ok.
  - intros j b Hj. apply q_del_elem in Hj as [Hj Hne]; [|apply H1]. cbn in Hne.
    destruct (H2 j b Hj) as (c&Hc&Hp). exists c. by rewrite lookup_delete_ne.
  - intros j c [Hne Hj]%lookup_delete_Some Hp. specialize (H3 j c Hj Hp). apply q_fst_elem in H3 as [b Hb].
    apply q_fst_elem. exists b. apply q_del_elem; [apply H1|]. done.
Qed.
Lemma listing_notin now cs P l i : listing now cs P l -> (forall c, cs !! i = Some c -> ~ P c) -> i ∉ l.*1.
Proof. intros (H1&H2&H3) H [b Hb]%q_fst_elem. destruct (H2 i b Hb) as (c&Hc&Hp&_). by apply (H c). Qed.
Lemma rok_del now cs q i : rok now cs q ->
  rok now (delete i cs) (mkQueues (q_del i (q_fixed q)) (q_del i (q_sub q)) (q_del i (q_avail q))).
Proof.
  intros []. constructor; cbn [q_fixed q_sub q_avail]; try (by apply listing_del).
  - unfold queues_size, nlen in *. cbn [q_fixed q_sub q_avail].
    pose proof (q_del_length i (q_fixed q)). pose proof (q_del_length i (q_sub q)). pose proof (q_del_length i (q_avail q)). lia.
  - intros j c [_ Hj]%lookup_delete_Some. by eapply r_cok0.
Qed.
Lemma listing_other now cs P l i c : listing now cs P l -> cs !! i = None -> ~ P c -> listing now (<[i := c]> cs) P l.
Proof.
  intros (H1&H2&H3) Hi Hp. split_and!; [done| |].
  - intros j b Hj. destruct (H2 j b Hj) as (x&Hx&Hq). exists x. rewrite lookup_insert_ne; [done|]. intros <-. congruence.
  - intros j x [[<- <-]|[_ Hj]]%lookup_insert_Some Hq; [done|]. by eapply H3.
Qed.
Lemma listing_add now cs (P : contract -> Prop) l i c b : listing now cs P l -> cs !! i = None -> P c -> due_ok now c b ->
  listing now (<[i := c]> cs) P (q_ins (i, b) l).
Proof.
  intros HL Hi Hp Hd. pose proof HL as (H1&H2&H3). split_and!.
  - apply q_ins_ok; [done|]. eapply listing_notin; [exact HL|]. intros x Hx. congruence.
  - intros j b' [[= -> ->]|Hj]%q_ins_elem.
    + exists c. by rewrite lookup_insert.
    + destruct (H2 j b' Hj) as (x&Hx&Hq). exists x. rewrite lookup_insert_ne; [done|]. intros <-. congruence.
  - intros j x [[<- <-]|[_ Hj]]%lookup_insert_Some Hq.
    + apply q_fst_elem. exists b. apply q_ins_elem. by left.
    + specialize (H3 j x Hj Hq). apply q_fst_elem in H3 as [b' Hb]. apply q_fst_elem. exists b'. apply q_ins_elem. by right.
Qed.

Definition put (i b : N) (c : contract) (q : rent_queues) : rent_queues :=
  match r_start c, kind_of (r_duration c) with
  | None, _ => mkQueues (q_fixed q) (q_sub q) (q_ins (i, b) (q_avail q))
  | Some _, QFixed => mkQueues (q_ins (i, b) (q_fixed q)) (q_sub q) (q_avail q)
  | Some _, _ => mkQueues (q_fixed q) (q_ins (i, b) (q_sub q)) (q_avail q)
  end.
Lemma rok_put now cs q i c b : rok now cs q -> cs !! i = None -> cok now c -> due_ok now c b -> queues_size q + 1 <= rent_limit ->
  rok now (<[i := c]> cs) (put i b c q).
Proof.
  intros [] Hi Hc Hd Hz.
  assert (Hcok : forall j x, <[i := c]> cs !! j = Some x -> cok now x).
  { intros j x [[<- <-]|[_ Hj]]%lookup_insert_Some; [done|]. by eapply r_cok0. }
  unfold put. destruct (r_start c) eqn:Es; [destruct (kind_of (r_duration c)) eqn:Ek|].
  all: constructor; cbn [q_fixed q_sub q_avail]; try exact Hcok.
  all: try (unfold queues_size, nlen in *; cbn [q_fixed q_sub q_avail]; rewrite q_ins_length; lia).
  all: try (apply listing_add; [assumption|assumption| |assumption]; unfold in_fixed, in_sub, in_avail; rewrite Es; done).
  all: try (apply listing_other; [assumption|assumption|]; unfold in_fixed, in_sub, in_avail; rewrite Es; try done; rewrite Ek; intros [_ ?]; done).
  all: try (exfalso; by destruct (r_duration c)).
  all: apply listing_other; [assumption|assumption|]; unfold in_fixed, in_sub; rewrite Es; intros [? _]; done.
Qed.
Lemma rok_upd now cs q i c c' : rok now cs q -> cs !! i = Some c -> cok now c' ->
  r_start c' = r_start c -> r_creation c' = r_creation c -> kind_of (r_duration c) = QSub -> kind_of (r_duration c') = QSub ->
  rok now (<[i := c']> cs) q.
Proof.
  intros [] Hi Hc E1 E2 E3 E4.
  assert (Hl : forall P l, (P c <-> P c') -> listing now cs P l -> listing now (<[i := c']> cs) P l).
  { intros P l HP (H1&H2&H3). split_and!; [done| |].
    - intros j b Hj. destruct (H2 j b Hj) as (x&Hx&Hq&Hd). destruct (decide (i = j)) as [<-|Hne].
      + exists c'. rewrite lookup_insert. rewrite Hi in Hx. injection Hx as <-. split_and!; [done|by apply HP|].
        unfold due_ok in *. rewrite E1, E2. destruct (r_start c); [|done]. destruct (r_duration c), (r_duration c'); try done.
      + exists x. by rewrite lookup_insert_ne.
    - intros j x [[<- <-]|[_ Hj]]%lookup_insert_Some Hq; [apply (H3 i c); [done|by apply HP]|]. by eapply H3. }
  constructor; try done.
  - apply Hl; [|done]. unfold in_fixed. rewrite E3, E4. split; intros [_ ?]; done.
  - apply Hl; [|done]. unfold in_sub. rewrite E1, E3, E4. done.
  - apply Hl; [|done]. unfold in_avail. by rewrite E1.
  - intros j x [[<- <-]|[_ Hj]]%lookup_insert_Some; [done|]. by eapply r_cok0.
Qed.

(** Removing from the one queue that holds the contract. *)
Lemma rok_del_kind now cs q i c : rok now cs q -> cs !! i = Some c -> isS (r_start c) = true ->
  rok now (delete i cs) (queues_remove i (kind_of (r_duration c)) q).
Proof.
  intros H Hi Hs. pose proof (rok_del _ _ _ i H) as Hd.
  assert (forall P l, listing now cs P l -> ~ P c -> q_del i l = l) as Hn.
  { intros P l HL Hp. apply q_del_notin. eapply listing_notin; [exact HL|]. intros x Hx. rewrite Hi in Hx. by injection Hx as <-. }
  destruct H. rewrite (Hn _ _ r_av0) in Hd by (unfold in_avail; by rewrite Hs).
  destruct (r_duration c) eqn:Ed; cbn [kind_of queues_remove].
  - rewrite (Hn _ _ r_subs0) in Hd by (unfold in_sub; rewrite Ed; intros [_ ?]; done). exact Hd.
  - rewrite (Hn _ _ r_fix0) in Hd by (unfold in_fixed; rewrite Ed; intros [_ ?]; done). exact Hd.
Qed.
Lemma rok_del_avail now cs q i c : rok now cs q -> cs !! i = Some c -> isS (r_start c) = false ->
  rok now (delete i cs) (q <| q_avail ::= q_del i |>) /\ queues_size (q <| q_avail ::= q_del i |>) + 1 <= rent_limit.
Proof.
  intros H Hi Hs. pose proof (rok_del _ _ _ i H) as Hd.
  assert (forall P l, listing now cs P l -> ~ P c -> q_del i l = l) as Hn.
  { intros P l HL Hp. apply q_del_notin. eapply listing_notin; [exact HL|]. intros x Hx. rewrite Hi in Hx. by injection Hx as <-. }
  destruct H. rewrite (Hn _ _ r_fix0) in Hd by (unfold in_fixed; rewrite Hs; intros [? _]; done).
  rewrite (Hn _ _ r_subs0) in Hd by (unfold in_sub; rewrite Hs; intros [? _]; done). split; [exact Hd|].
  destruct r_av0 as (_&_&H3). specialize (H3 i c Hi Hs). pose proof (q_del_length_in i (q_avail q) H3) as Hlen.
  unfold queues_size, nlen in *. cbn [q_fixed q_sub q_avail set]. lia.
Qed.
Lemma rok_start now cs q i c t : rok now cs q -> cs !! i = Some c -> isS (r_start c) = false ->
  rok now (<[i := c <| r_rentee := Some t |> <| r_start := Some now |>]> cs)
    (moved_q i (now + duration_or_period (r_duration c)) (kind_of (r_duration c)) q).
Proof.
  intros H Hi Hs. destruct (rok_del_avail _ _ _ _ _ H Hi Hs) as [Hd Hz].
  set (c' := c <| r_rentee := Some t |> <| r_start := Some now |>).
  pose proof (r_cok _ _ _ H _ _ Hi) as Hc.
  pose proof (rok_put now _ _ i c' (now + duration_or_period (r_duration c)) Hd (lookup_delete _ _)) as Hp.
  rewrite insert_delete_insert in Hp. unfold put in Hp. cbn [r_start r_duration set c'] in Hp. subst c'.
  assert (kind_of (r_duration c) <> QAvail) by (by destruct (r_duration c)).
  destruct (kind_of (r_duration c)) eqn:Ek; try done; apply Hp; try done; clear Hp; try (destruct Hc; constructor; cbn [r_start r_rentee r_duration r_rent_fee r_renter_cf r_rentee_cf r_creation set isS]; try done; intros st [= <-]; lia);
    unfold due_ok; cbn; destruct (r_duration c) eqn:Ed; try done; cbn. destruct Hc. rewrite Ed in c_per0. cbn in c_per0. lia.
Qed.
End rok.
