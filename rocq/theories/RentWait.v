(** The rent queues in the course of time. *)
From Verif Require Export TransWait RentFacts.
From Verif Require Import TeeInv2.
Local Open Scope N_scope.

Section facts.
Context {C : Config}.

Lemma scheduled_uniq s i b b' : config_ok -> reachable s -> scheduled s i b -> scheduled s i b' -> b = b'.
Proof.
  intros HC Hs H1 H2. destruct (fact_rent_sorted s HC Hs) as (_&_&_&Hnd&_). cbv zeta in Hnd.
  eapply q_uniq; [exact Hnd| |]; rewrite !elem_of_app; [exact H1|exact H2].
Qed.
Lemma rent_lists_in f : f ∈ rent_lists -> f = q_fixed \/ f = q_sub \/ f = q_avail.
Proof. unfold rent_lists. rewrite !elem_of_cons, elem_of_nil. tauto. Qed.
Lemma queue_scheduled f s i b : f ∈ rent_lists -> (i, b) ∈ f (queues (s_rent s)) -> scheduled s i b.
Proof. unfold scheduled. intros [->|[->| ->]]%rent_lists_in; auto. Qed.

(** What a step between blocks does to a list. *)
Definition keeps_place f s a i b : Prop :=
  (i, b) ∈ f (queues (s_rent (step s a))) /\
  forall n, b <= s_now s -> ahead (f (queues (s_rent s))) i b n -> ahead (f (queues (s_rent (step s a)))) i b n.
Lemma queue_step s a f i b : config_ok -> reachable s -> action_ok a -> a <> NextBlock -> f ∈ rent_lists ->
  (i, b) ∈ f (queues (s_rent s)) -> leaves_schedule f s a i b \/ keeps_place f s a i b.
Proof.
  intros HC Hs Ha Hnb Hf Hi. pose proof (queue_scheduled f s i b Hf Hi) as Hsch.
  assert (Hs' : reachable (step s a)) by (by apply reach_step).
  pose proof (reachable_inv1 s Hs) as HI. destruct (reachable_rent s HC Hs) as [HR _].
  assert (Hsame : queues (s_rent (step s a)) = queues (s_rent s) -> keeps_place f s a i b).
  { intros E. unfold keeps_place. by rewrite E. }
  assert (Hgone : contracts (s_rent (step s a)) !! i = None -> (i, b) ∉ f (queues (s_rent (step s a)))).
  { intros E H. destruct (fact_rent_entry _ i b HC Hs' (queue_scheduled f _ i b Hf H)) as [c Hc]. congruence. }
  destruct (step_runs s a) as [(o&c&s1&Hr&Hm&He&l&Hl)|[[l Hl]|[->|(e&s'&->&He&Hl)]]].
  2: { right. apply Hsame. by rewrite Hl. }
  2: { done. }
  2: { right. apply Hsame. rewrite Hl. apply env_kept in He. unfold env_kept_from in He. destruct He as (_&_&_&_&->&_). done. }
  assert (Er : s_rent (step s a) = s_rent s1) by (by rewrite Hl). clear Hl.
  assert (pallet_of c = PRent \/ pallet_of c <> PRent) as [Hpal|Hpal] by (destruct (pallet_of c); auto).
  2: { right. apply Hsame. by rewrite Er, (call_rent_kept _ _ _ _ Hm He Hpal). }
  assert (Hq : qok (f (queues (s_rent s)))). { apply rent_lists_in in Hf as [->|[->| ->]]; apply HR. }
  assert (Hins : forall j x, s_now s <= x -> f (queues (s_rent (step s a))) = q_ins (j, x) (f (queues (s_rent s))) -> keeps_place f s a i b).
  { intros j x Hx E. unfold keeps_place. rewrite E. split; [apply q_ins_elem; by right|]. intros n Hb. apply ahead_ins; [apply Hq|]. cbn. lia. }
  assert (Hdel : forall j, j <> i -> f (queues (s_rent (step s a))) = q_del j (f (queues (s_rent s))) -> keeps_place f s a i b).
  { intros j Hj E. unfold keeps_place. rewrite E. split; [apply q_del_elem; [apply Hq|]; split; [done|]; cbn; congruence|]. intros n Hb. by apply ahead_del. }
  assert (Hkeep : f (queues (s_rent (step s a))) = f (queues (s_rent s)) -> keeps_place f s a i b).
  { intros E. unfold keeps_place. by rewrite E. }
  (* A contract that starts. *)
  assert (Hstart : forall id k t ofs, contracts (s_rent s) !! id = Some k -> r_rentee k = None ->
    s_rent s1 = mkRentSt (<[id := k <| r_rentee := Some t |> <| r_start := Some (s_now s) |>]> (contracts (s_rent s)))
      ofs (moved_q id (s_now s + duration_or_period (r_duration k)) (kind_of (r_duration k)) (queues (s_rent s))) ->
    (id = i -> exists w c, a = Extrinsic (Signed w) c /\ ((exists x, c = C_rent i x) \/ (exists t, c = C_accept_rent_offer i t))) ->
    leaves_schedule f s a i b \/ keeps_place f s a i b).
  { intros id k t ofs Hk Hst E Hact. rewrite E in Er. clear E.
    assert (Est : isS (r_start k) = false) by (rewrite (c_run _ _ (r_cok _ _ _ HR _ _ Hk)), Hst; done).
    destruct (decide (id = i)) as [->|Hne].
    - left. split; [done|]. split; [|right; destruct (Hact eq_refl) as (w&c'&Ea&Hc'); exists w, c'; split; [done|]; tauto].
      assert (f = q_avail) as ->.
      { destruct (r_fix _ _ _ HR) as (_&F2&_). destruct (r_subs _ _ _ HR) as (_&S2&_).
        apply rent_lists_in in Hf as [->|[->| ->]]; [| |done].
        - destruct (F2 _ _ Hi) as (k'&Hk'&[P _]&_). congruence.
        - destruct (S2 _ _ Hi) as (k'&Hk'&[P _]&_). congruence. }
      rewrite Er. cbn [queues]. unfold moved_q. intros H. assert (H' : (i, b) ∈ q_del i (q_avail (queues (s_rent s)))) by (by destruct (kind_of (r_duration k))).
      apply q_del_elem in H' as [_ H']; [|apply Hq]. done.
    - right. unfold moved_q in Er. destruct (rent_lists_in f Hf) as [->|[->| ->]]; destruct (kind_of _).
      all: first [apply Hkeep; by rewrite Er | apply (Hdel id Hne); by rewrite Er | eapply (Hins id); [|by rewrite Er]; lia]. }
  destruct c; try discriminate Hpal; clear Hpal Hm; cbn [exec_call] in He; unfold signed in He; destruct o as [who| |]; try done.
  all: apply runs_signed in Hr.
  - apply rcreate_ok in He as (b0&nd&_&_&_&_&_&_&_&_&_&_&_&_&_&E). rewrite E in Er. right.
    destruct (rent_lists_in f Hf) as [->|[->| ->]]; [apply Hkeep; by rewrite Er..|]. eapply (Hins id); [|by rewrite Er]. lia.
  - apply rcancel_ok in He as (k&b1&Hk&_&_&_&_&E). rewrite E in Er. destruct (decide (id = i)) as [->|Hne].
    + left. split; [done|]. split; [apply Hgone; rewrite Er; cbn; by rewrite lookup_delete|]. right. eexists _, _. split; [exact Hr|]. auto.
    + right. destruct (rent_lists_in f Hf) as [->|[->| ->]]; [apply Hkeep; by rewrite Er..|]. apply (Hdel id Hne). by rewrite Er.
  - apply rrevoke_ok in He as (k&t&b1&b2&Hk&_&_&_&_&_&E). rewrite E in Er. destruct (decide (id = i)) as [->|Hne].
    + left. split; [done|]. split; [apply Hgone; rewrite Er; cbn; by rewrite lookup_delete|]. right. eexists _, _. split; [exact Hr|]. auto.
    + right. unfold queues_remove in Er. destruct (rent_lists_in f Hf) as [->|[->| ->]]; destruct (kind_of _).
      all: first [apply Hkeep; by rewrite Er | apply (Hdel id Hne); by rewrite Er].
  - apply rent_ok in He as (k&b1&b2&Hk&_&Hre&_&_&_&_&_&_&E). eapply Hstart; [exact Hk|done|exact E|]. intros ->. eexists _, _. split; [exact Hr|]. eauto.
  - apply roffer_ok in He as (k&_&_&_&_&_&_&_&_&_&E). right. apply Hsame. by rewrite Er, E.
  - apply raccept_ok in He as (k&l0&b1&b2&Hk&Hl&_&_&_&_&_&E). eapply Hstart; [exact Hk|by eapply offered_not_running|exact E|].
    intros ->. eexists _, _. split; [exact Hr|]. eauto.
  - apply rretract_ok in He as (l0&k&_&_&_&E). right. apply Hsame. by rewrite Er, E.
  - apply rchange_ok in He as (k&ofs&_&_&_&_&_&_&_&_&E). right. apply Hsame. by rewrite Er, E.
  - apply raccterms_ok in He as (k&sb&_&_&_&_&_&_&_&_&_&_&E). right. apply Hsame. by rewrite Er, E.
Qed.

(** What a block does to a list. *)
Lemma queue_block s f i b : config_ok -> reachable s -> f ∈ rent_lists -> (i, b) ∈ f (queues (s_rent s)) ->
  leaves_schedule f s NextBlock i b \/
  (i, b) ∈ f (queues (s_rent (next_block s))) /\
  forall n, b <= s_now s + 1 -> ahead (f (queues (s_rent s))) i b n -> exists m, m + 1 <= n /\ ahead (f (queues (s_rent (next_block s)))) i b m.
Proof.
  intros HC Hs Hf Hi. destruct (turn_exists HookRent s HC) as (t&t'&Ht). pose proof (reachable_sreach s Hs) as Hsr.
  assert (Hs' : reachable (next_block s)) by (by apply (reach_step s NextBlock)).
  destruct (turn_state s_rent HookRent s t t' HC Hsr) as (Hst&Hnow&Er&En); [intros; by apply hook_rent_kept|done|done|].
  destruct (sreach_rent t HC Hst) as [HR HS]. assert (t' = snd (run_hook HookRent t)) as Et' by (destruct Ht as (?&?&_&_&?); done).
  destruct (rent_hook_ok t HC (sreach_rlinv t Hst HR HS)) as (l&[Bo Bi _ _ _ Bk]&_). rewrite <- Et' in *. rewrite Hnow, Er in *. rewrite <- En in *.
  destruct (decide (i ∈ l)) as [Hl|Hl].
  - left. destruct (Bi i Hl) as (c&b'&Hc&Hb'&Hq&Hout).
    assert (b' = b) as -> by (eapply scheduled_uniq; [done|exact Hs|exact Hq|by eapply queue_scheduled]).
    assert (Hper : 0 < duration_or_period (r_duration c)). { apply (c_per _ _ (r_cok _ _ _ HR i c ltac:(by rewrite Er))). }
    split; [done|]. cbn [step]. rewrite now_next_block. split; [|left; split; [done|]; split; [done|]].
    + intros H. apply (queue_scheduled f _ _ _ Hf) in H. destruct Hout as [E|(_&E&Hn&_)].
      * destruct (fact_rent_entry _ i b HC Hs' H) as [c' Hc']. congruence.
      * pose proof (scheduled_uniq _ _ _ _ HC Hs' H ltac:(right; left; exact Hn)). lia.
    + destruct Hout as [E|(_&E&Hn&_)]; [by left|right]. exists c. rewrite period_is. done.
  - right. split.
    + destruct (Bo i Hl) as [_ Hq]. destruct (Hq b) as (Q1&Q2&Q3). destruct (rent_lists_in f Hf) as [->|[->| ->]]; [by apply Q1|by apply Q2|by apply Q3].
    + intros n Hb Ha. by apply Bk.
Qed.

Lemma fact_rent_waits_its_turn acts : forall s f i b n, config_ok -> reachable s -> Forall action_ok acts -> f ∈ rent_lists ->
  ahead (f (queues (s_rent s))) i b n -> b <= s_now s -> n < blocks acts ->
  exists p a q, acts = p ++ a :: q /\ leaves_schedule f (after s p) a i b.
Proof.
  induction acts as [|a acts IH]; intros s f i b n HC Hs Hok Hf Hq Hb Hn; [cbn in Hn; lia|].
  apply Forall_cons in Hok as [Ha Hok].
  assert (Hnext : (exists m, ahead (f (queues (s_rent (step s a)))) i b m /\ m < blocks acts) ->
    exists p a' q, a :: acts = p ++ a' :: q /\ leaves_schedule f (after s p) a' i b).
  { intros (m&Hq'&Hm).
    destruct (IH (step s a) f i b m HC (reach_step _ _ Hs Ha) Hok Hf Hq') as (p&a'&q&E&H1); [pose proof (now_grows s a); lia|done|].
    exists (a :: p), a', q. split; [by rewrite E|]. done. }
  assert (Hout : leaves_schedule f s a i b -> exists p a' q, a :: acts = p ++ a' :: q /\ leaves_schedule f (after s p) a' i b).
  { intros H. exists [], a, acts. done. }
  pose proof (ahead_elem _ _ _ _ Hq) as Hel.
  assert (a = NextBlock \/ a <> NextBlock) as [->|Hnb] by (destruct a; auto).
  - destruct (queue_block s f i b HC Hs Hf Hel) as [H|[_ H]]; [by apply Hout|].
    destruct (H n ltac:(lia) Hq) as (m&Hm&Hq'). apply Hnext. exists m. split; [done|]. cbn [blocks] in Hn. lia.
  - destruct (queue_step s a f i b HC Hs Ha Hnb Hf Hel) as [H|[_ H]]; [by apply Hout|].
    apply Hnext. exists n. split; [by apply H|]. by rewrite blocks_other in Hn.
Qed.

Lemma fact_rent_handled_in_time acts : forall s f i b, config_ok -> reachable s -> Forall action_ok acts -> f ∈ rent_lists ->
  (i, b) ∈ f (queues (s_rent s)) -> b - s_now s + rent_limit <= blocks acts ->
  exists p a q, acts = p ++ a :: q /\ leaves_schedule f (after s p) a i b.
Proof.
  assert (Hlen : forall s f, config_ok -> reachable s -> f ∈ rent_lists -> nlen (f (queues (s_rent s))) <= rent_limit).
  { intros s f HC Hs Hf. destruct (fact_rent_sorted s HC Hs) as (_&_&_&_&H). cbv zeta in H. destruct (rent_lists_in f Hf) as [->|[->| ->]]; lia. }
  induction acts as [|a acts IH]; intros s f i b HC Hs Hok Hf Hi Hbl.
  all: destruct (decide (b <= s_now s)) as [Hb|Hb].
  all: try (destruct (elem_ahead _ _ _ Hi) as (n&Hq&Hn); specialize (Hlen s f HC Hs Hf); eapply fact_rent_waits_its_turn; [done..|exact Hq|done|]; lia).
  { cbn in Hbl. lia. }
  apply Forall_cons in Hok as [Ha Hok].
  assert (Hnext : (i, b) ∈ f (queues (s_rent (step s a))) -> exists p a' q, a :: acts = p ++ a' :: q /\ leaves_schedule f (after s p) a' i b).
  { intros Hq'. destruct (IH (step s a) f i b HC (reach_step _ _ Hs Ha) Hok Hf Hq') as (p&a'&q&E&H1).
    - assert (a = NextBlock \/ a <> NextBlock) as [->|Hnb] by (destruct a; auto).
      + cbn [step blocks] in *. rewrite now_next_block. lia.
      + rewrite now_same by done. by rewrite blocks_other in Hbl.
    - exists (a :: p), a', q. split; [by rewrite E|]. done. }
  assert (Hout : leaves_schedule f s a i b -> exists p a' q, a :: acts = p ++ a' :: q /\ leaves_schedule f (after s p) a' i b).
  { intros H. exists [], a, acts. done. }
  assert (a = NextBlock \/ a <> NextBlock) as [->|Hnb] by (destruct a; auto).
  - destruct (queue_block s f i b HC Hs Hf Hi) as [H|[H _]]; [by apply Hout|by apply Hnext].
  - destruct (queue_step s a f i b HC Hs Ha Hnb Hf Hi) as [H|[H _]]; [by apply Hout|by apply Hnext].
Qed.
End facts.
