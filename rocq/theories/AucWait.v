(** The auction deadlines in the course of time. *)
From Verif Require Export TransWait AucFacts.
From Verif Require Import TeeInv2.
Local Open Scope N_scope.

Section facts.
Context {C : Config}.

Lemma call_auc_kept s o c s' : is_mandate c = false -> exec_call o c s = (Ok tt, s') -> pallet_of c <> PAuction -> s_auc s' = s_auc s.
Proof.
  intros Hm He Hp. pose proof (call_kept _ _ _ _ Hm He) as Hk. unfold kept in Hk. destruct (pallet_of c); try done; destruct_and! Hk; done.
Qed.

Definition keeps_deadline s a i b : Prop :=
  (i, b) ∈ deadlines (s_auc (step s a)) /\
  forall n, b <= s_now s + 1 -> ahead (deadlines (s_auc s)) i b n -> ahead (deadlines (s_auc (step s a))) i b n.
Lemma deadline_step s a i b : config_ok -> reachable s -> action_ok a -> a <> NextBlock ->
  (i, b) ∈ deadlines (s_auc s) -> ends_or_moves s a i b \/ keeps_deadline s a i b.
Proof.
  intros HC Hs Ha Hnb Hi. assert (Hs' : reachable (step s a)) by (by apply reach_step).
  destruct (reachable_ainv s Hs) as [H1 H2 H3 H4 H5 H6].
  destruct (H4 _ _ Hi) as (x&Hx&Ex).
  assert (Hsame : deadlines (s_auc (step s a)) = deadlines (s_auc s) -> keeps_deadline s a i b).
  { intros E. unfold keeps_deadline. by rewrite E. }
  destruct (step_runs s a) as [(o&c&s1&Hr&Hm&He&l&Hl)|[[l Hl]|[->|(e&s'&->&He&Hl)]]].
  2: { right. apply Hsame. by rewrite Hl. }
  2: { done. }
  2: { right. apply Hsame. rewrite Hl. apply env_kept in He. unfold env_kept_from in He. destruct He as (_&_&_&->&_). done. }
  assert (Er : s_auc (step s a) = s_auc s1) by (by rewrite Hl). clear Hl.
  assert (pallet_of c = PAuction \/ pallet_of c <> PAuction) as [Hpal|Hpal] by (destruct (pallet_of c); auto).
  2: { right. apply Hsame. by rewrite Er, (call_auc_kept _ _ _ _ Hm He Hpal). }
  assert (Hdone : forall j l, (j = i -> exists w c, a = Extrinsic (Signed w) c /\ (c = C_cancel_auction i \/ c = C_end_auction i \/ exists p, c = C_buy_it_now i p)) ->
    s_auc s1 = auc_done j l (s_auc s) -> ends_or_moves s a i b \/ keeps_deadline s a i b).
  { intros j l0 Hact E. destruct (decide (j = i)) as [->|Hne].
    - left. exists x. split; [done|]. split; [done|]. left. split; [rewrite Er, E; cbn; by rewrite lookup_delete|]. right. by apply Hact.
    - right. unfold keeps_deadline. rewrite Er, E. cbn [auc_done deadlines].
      split; [apply q_del_elem; [apply H3|]; split; [done|]; cbn; congruence|]. intros n Hb. by apply ahead_del. }
  destruct c; try discriminate Hpal; clear Hpal Hm; cbn [exec_call] in He; unfold signed in He; destruct o as [who| |]; try done.
  all: apply runs_signed in Hr.
  - apply create_ok in He as (d&m&_&_&_&T1&T2&_&_&_&_&_&_&_&_&_&E). right. unfold keeps_deadline. rewrite Er, E. cbn [deadlines].
    split; [apply q_ins_elem; by right|]. intros n Hb. apply ahead_ins; [apply H3|]. cbn. lia.
  - apply cancel_ok in He as (d&y&_&_&_&_&_&_&E). eapply Hdone; [|exact E]. intros ->. eexists _, _. split; [exact Hr|]. auto.
  - apply end_ok in He as (d&y&m&f&w&z&rest&b'&_&_&_&_&_&_&_&_&_&_&E). eapply Hdone; [|exact E]. intros ->. eexists _, _. split; [exact Hr|]. auto.
  - apply bid_ok in He as (y&b0&l0&y'&e&Hy&_&_&_&_&_&_&_&Ee&_&_&E).
    destruct (extend_fields _ _ _ _ Ee) as (_&_&_&_&_&_&Hle&He).
    change (a_end (y <| a_bidders := snd (insert_new_bid who amount l0) |>)) with (a_end y) in *.
    destruct e as [e|]; [|right; apply Hsame; by rewrite Er, E].
    destruct He as (Hye&_&Hg&Hv). destruct (decide (id = i)) as [->|Hne].
    + left. rewrite Hx in Hy. injection Hy as <-. exists x. split; [done|]. split; [done|]. right. eexists who, amount, y'. split; [exact Hr|].
      split; [rewrite Er, E; cbn; by rewrite lookup_insert|]. lia.
    + right. unfold keeps_deadline. rewrite Er, E. cbn [deadlines].
      destruct (q_get id (deadlines (s_auc s))) as [c|] eqn:Eg.
      2: { unfold q_update. rewrite Eg. done. }
      assert (Hc : (id, c) ∈ deadlines (s_auc s)) by (apply q_get_elem; [apply H3|exact Eg]). destruct (H4 _ _ Hc) as (y0&Hy0&Ey0). rewrite Hy in Hy0. injection Hy0 as <-.
      split.
      * unfold q_update. rewrite Eg. apply q_ins_elem. right. apply q_del_elem; [apply H3|]. split; [done|]. cbn. congruence.
      * intros n _ Hn. eapply ahead_postpone; [exact H3|exact Hc|lia|done|done].
  - apply unbid_ok in He as (y&z&b'&_&_&_&_&_&_&E). right. apply Hsame. by rewrite Er, E.
  - apply buy_ok in He as (d&y&m&f&b'&_&_&_&_&_&_&_&_&_&_&_&E). eapply Hdone; [|exact E]. intros ->. eexists _, _. split; [exact Hr|]. eauto.
  - apply claim_ok in He as (z&b'&_&_&_&_&E). right. apply Hsame. by rewrite Er, E.
Qed.

Lemma deadline_block s i b : config_ok -> ed <= 1 -> reachable s -> (i, b) ∈ deadlines (s_auc s) ->
  ends_or_moves s NextBlock i b \/
  (i, b) ∈ deadlines (s_auc (next_block s)) /\
  forall n, b <= s_now s + 1 -> ahead (deadlines (s_auc s)) i b n ->
    exists m, m + N.max 1 auction_actions <= n /\ ahead (deadlines (s_auc (next_block s))) i b m.
Proof.
  intros HC He Hs Hi. pose proof (reachable_sreach s Hs) as Hsr. destruct (reachable_ainv s Hs) as [H1 H2 H3 H4 H5 H6].
  destruct (H4 _ _ Hi) as (x&Hx&Ex).
  destruct (next_block_hook s_auc HookAuction s HC Hsr) as (t&Ht&_&Hnow&Et&En); [intros; by apply hook_auc_kept|done|].
  destruct (sreach_solv t He HC Ht) as [HS HD].
  destruct (auction_hook_ok t He HC (sreach_linv t Ht HS HD)) as (l1&E1&Hdue&Hau&_&HD'&Hcase).
  rewrite <- En in *. rewrite Hnow, Et in *.
  destruct (decide (i ∈ l1.*1)) as [Hl|Hl].
  - left. exists x. split; [done|]. split; [done|]. left. cbn [step]. rewrite now_next_block. specialize (Hau i). rewrite decide_True in Hau by done. split; [done|].
    left. split; [done|]. apply q_fst_elem in Hl as [b' Hl]. destruct (H4 i b') as (x'&Hx'&Ex'); [rewrite E1; apply elem_of_app; by left|].
    specialize (Hdue _ Hl). cbn in Hdue. rewrite Hx in Hx'. injection Hx' as <-. lia.
  - right. split.
    + rewrite E1 in Hi. apply elem_of_app in Hi as [Hi|Hi]; [|done]. destruct Hl. apply q_fst_elem. eauto.
    + intros n Hb Hn. rewrite E1 in Hn. destruct (ahead_app l1 _ i b n Hl Hn) as (m&Hm&Hq). exists m. split; [|done].
      destruct Hcase as [Hend|Hend]; [|lia]. specialize (Hend _ (ahead_elem _ _ _ _ Hq)). cbn in Hend. lia.
Qed.

Lemma fact_auction_waits_its_turn acts : forall s i b n, config_ok -> ed <= 1 -> reachable s -> Forall action_ok acts ->
  ahead (deadlines (s_auc s)) i b n -> b <= s_now s + 1 -> n < blocks acts * N.max 1 auction_actions ->
  exists p a q, acts = p ++ a :: q /\ ends_or_moves (after s p) a i b.
Proof.
  induction acts as [|a acts IH]; intros s i b n HC He Hs Hok Hq Hb Hn; [cbn in Hn; lia|].
  apply Forall_cons in Hok as [Ha Hok].
  assert (Hnext : (exists m, ahead (deadlines (s_auc (step s a))) i b m /\ m < blocks acts * N.max 1 auction_actions) ->
    exists p a' q, a :: acts = p ++ a' :: q /\ ends_or_moves (after s p) a' i b).
  { intros (m&Hq'&Hm).
    destruct (IH (step s a) i b m HC He (reach_step _ _ Hs Ha) Hok Hq') as (p&a'&q&E&H1); [pose proof (now_grows s a); lia|done|].
    exists (a :: p), a', q. split; [by rewrite E|]. done. }
  assert (Hout : ends_or_moves s a i b -> exists p a' q, a :: acts = p ++ a' :: q /\ ends_or_moves (after s p) a' i b).
  { intros H. exists [], a, acts. done. }
  pose proof (ahead_elem _ _ _ _ Hq) as Hel.
  assert (a = NextBlock \/ a <> NextBlock) as [->|Hnb] by (destruct a; auto).
  - destruct (deadline_block s i b HC He Hs Hel) as [H|[_ H]]; [by apply Hout|].
    destruct (H n Hb Hq) as (m&Hm&Hq'). apply Hnext. exists m. split; [done|]. cbn [blocks] in Hn. lia.
  - destruct (deadline_step s a i b HC Hs Ha Hnb Hel) as [H|[_ H]]; [by apply Hout|].
    apply Hnext. exists n. split; [by apply H|]. by rewrite blocks_other in Hn.
Qed.

Lemma fact_auction_ends_in_time acts : forall s i x k, config_ok -> ed <= 1 -> reachable s -> Forall action_ok acts ->
  auctions (s_auc s) !! i = Some x -> parallel_auctions <= k * N.max 1 auction_actions -> a_end x - (s_now s + 1) + k <= blocks acts ->
  exists p a q, acts = p ++ a :: q /\ ends_or_moves (after s p) a i (a_end x).
Proof.
  intros s i x k HC He Hs Hok Hx Hk Hbl.
  assert (Hi : (i, a_end x) ∈ deadlines (s_auc s)).
  { exact (fact_all_due s i x HC He Hs Hx). }
  clear Hx. generalize dependent (a_end x). clear x. intros b Hbl Hi. revert s b HC He Hs Hok Hbl Hi.
  induction acts as [|a acts IH]; intros s b HC He Hs Hok Hbl Hi.
  all: destruct (decide (b <= s_now s + 1)) as [Hb|Hb].
  all: try (destruct (elem_ahead _ _ _ Hi) as (n&Hq&Hn); pose proof (a_dlen _ _ (reachable_ainv s Hs)) as Hlen;
            eapply fact_auction_waits_its_turn; [done..|exact Hq|done|]; nia).
  { cbn in Hbl. lia. }
  apply Forall_cons in Hok as [Ha Hok].
  assert (Hnext : (i, b) ∈ deadlines (s_auc (step s a)) -> exists p a' q, a :: acts = p ++ a' :: q /\ ends_or_moves (after s p) a' i b).
  { intros Hq'. destruct (IH (step s a) b HC He (reach_step _ _ Hs Ha) Hok) as (p&a'&q&E&H1); [|done|].
    - assert (a = NextBlock \/ a <> NextBlock) as [->|Hnb] by (destruct a; auto).
      + cbn [step blocks] in *. rewrite now_next_block. lia.
      + rewrite now_same by done. by rewrite blocks_other in Hbl.
    - exists (a :: p), a', q. split; [by rewrite E|]. done. }
  assert (Hout : ends_or_moves s a i b -> exists p a' q, a :: acts = p ++ a' :: q /\ ends_or_moves (after s p) a' i b).
  { intros H. exists [], a, acts. done. }
  assert (a = NextBlock \/ a <> NextBlock) as [->|Hnb] by (destruct a; auto).
  - destruct (deadline_block s i b HC He Hs Hi) as [H|[H _]]; [by apply Hout|by apply Hnext].
  - destruct (deadline_step s a i b HC Hs Ha Hnb Hi) as [H|[H _]]; [by apply Hout|by apply Hnext].
Qed.

(** Between blocks no auction becomes overdue. *)
Definition none_overdue (s : state) : Prop := forall i x, auctions (s_auc s) !! i = Some x -> s_now s < a_end x.
Lemma overdue_step s a : a <> NextBlock -> none_overdue s -> none_overdue (step s a).
Proof.
  intros Hnb HA. unfold none_overdue. rewrite now_same by done.
  assert (Hsame : s_auc (step s a) = s_auc s -> forall i x, auctions (s_auc (step s a)) !! i = Some x -> s_now s < a_end x).
  { intros E. rewrite E. exact HA. }
  destruct (step_runs s a) as [(o&c&s1&Hr&Hm&He&l&Hl)|[[l Hl]|[->|(e&s'&->&He&Hl)]]].
  2: { apply Hsame. by rewrite Hl. }
  2: { done. }
  2: { apply Hsame. rewrite Hl. apply env_kept in He. unfold env_kept_from in He. destruct He as (_&_&_&->&_). done. }
  assert (Er : s_auc (step s a) = s_auc s1) by (by rewrite Hl). clear Hl.
  assert (pallet_of c = PAuction \/ pallet_of c <> PAuction) as [Hpal|Hpal] by (destruct (pallet_of c); auto).
  2: { apply Hsame. by rewrite Er, (call_auc_kept _ _ _ _ Hm He Hpal). }
  intros i x. rewrite Er. clear Er Hsame Hr.
  destruct c; try discriminate Hpal; clear Hpal Hm; cbn [exec_call] in He; unfold signed in He; destruct o as [who| |]; try done.
  - apply create_ok in He as (d&m&_&_&_&T1&T2&_&_&_&_&_&_&_&_&_&E). rewrite E. cbn [auctions].
    intros [[<- <-]|[_ H]]%lookup_insert_Some; [cbn; lia|by apply (HA i)].
  - apply cancel_ok in He as (d&y&_&_&_&_&_&_&E). rewrite E. cbn. intros [_ H]%lookup_delete_Some. by apply (HA i).
  - apply end_ok in He as (d&y&m&f&w&z&rest&b'&_&_&_&_&_&_&_&_&_&_&E). rewrite E. cbn. intros [_ H]%lookup_delete_Some. by apply (HA i).
  - apply bid_ok in He as (y&b0&l0&y'&e&Hy&_&_&_&_&_&_&_&Ee&_&_&E).
    destruct (extend_fields _ _ _ _ Ee) as (_&_&_&_&_&_&Hle&_). cbn [a_end set] in Hle. rewrite E. cbn [auctions].
    intros [[<- <-]|[_ H]]%lookup_insert_Some; [|by apply (HA i)]. specialize (HA _ _ Hy).
    change (a_end (y <| a_bidders := snd (insert_new_bid who amount l0) |>)) with (a_end y) in *. lia.
  - apply unbid_ok in He as (y&z&b'&Hy&_&_&_&_&_&E). rewrite E. cbn [auctions].
    intros [[<- <-]|[_ H]]%lookup_insert_Some; [|by apply (HA i)]. exact (HA _ _ Hy).
  - apply buy_ok in He as (d&y&m&f&b'&_&_&_&_&_&_&_&_&_&_&_&E). rewrite E. cbn. intros [_ H]%lookup_delete_Some. by apply (HA i).
  - apply claim_ok in He as (z&b'&_&_&_&_&E). rewrite E. apply HA.
Qed.
Lemma fact_no_late_bid s l acts who i amt x s' : config_ok -> ed <= 1 -> reachable s ->
  (forall j y, auctions (s_auc s) !! j = Some y -> a_end y <= s_now s + 1 -> j ∈ l) -> nlen l <= N.max 1 auction_actions ->
  blocks acts = 0 -> let t := after (next_block s) acts in
  dispatch (Signed who) (C_add_bid i amt) t = (Ok tt, s') -> auctions (s_auc t) !! i = Some x -> s_now t < a_end x.
Proof.
  intros HC He Hs Hl Hn Hb t _ Hx. assert (H : none_overdue t); [|exact (H i x Hx)].
  clear Hx. subst t. assert (H0 : none_overdue (next_block s)).
  { intros j y Hy. rewrite now_next_block. destruct (decide (a_end y <= s_now s + 1)) as [Hd|Hd]; [|lia]. exfalso.
    assert (Hin : auctions (s_auc s) !! j = Some y).
    { destruct (next_block_hook s_auc HookAuction s HC (reachable_sreach s Hs)) as (t&Ht&_&Hnow&Et&En); [intros; by apply hook_auc_kept|done|].
      destruct (sreach_solv t He HC Ht) as [HS HD]. destruct (auction_hook_ok t He HC (sreach_linv t Ht HS HD)) as (l1&_&_&Hau&_).
      rewrite En, Hau, Et in Hy. by destruct (decide _). }
    pose proof (fact_settled s l j y HC He Hs Hl Hn Hin Hd). congruence. }
  generalize dependent (next_block s). clear - Hb. induction acts as [|a acts IH]; intros s H; [done|].
  assert (a <> NextBlock) as Ha. { intros ->. cbn in Hb. lia. }
  rewrite blocks_other in Hb by done. exact (IH Hb _ (overdue_step _ _ Ha H)).
Qed.
End facts.
