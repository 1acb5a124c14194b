(** If nobody acts, everything comes to an end and all money comes home. *)
From Verif Require Export AssetsFacts OwedFacts OwedBids CanEnd.
Local Open Scope N_scope.

Section quiet.
Context {C : Config}.

Lemma drain {A} (get : state -> gmap N A) :
  (forall s n, reachable s -> get (wait s n) ⊆ get s) ->
  (forall s i x, reachable s -> get s !! i = Some x -> exists n, get (wait s n) !! i = None) ->
  forall s, reachable s -> exists n, get (wait s n) = ∅.
Proof.
  intros Hsub Hend s. remember (get s) as k eqn:Ek. revert s Ek.
  induction (map_wf k) as [k _ IH]. intros s -> Hs. destruct (decide (get s = ∅)) as [E|E]; [by exists 0%nat|].
  apply map_choose in E as (i&x&Hx). destruct (Hend s i x Hs Hx) as [n Hn].
  assert (get (wait s n) ⊂ get s) as Hlt.
  { split; [by apply Hsub|]. intros H. pose proof (lookup_weaken _ _ _ _ Hx H). congruence. }
  destruct (IH _ Hlt (wait s n) eq_refl (wait_reach s n Hs)) as [m Hm]. exists (n + m)%nat. by rewrite <- wait_wait.
Qed.

Lemma queue_shrinks s n : exists l, t_queue (s_trans s) = l ++ t_queue (s_trans (wait s n)).
Proof.
  induction n as [|n [l IH]]; [by exists []|]. rewrite wait_S. destruct (td_t_queue _ _ (block_only_due (wait s n))) as (l'&E&_).
  exists (l ++ l'). by rewrite <- app_assoc, <- E.
Qed.
Lemma drain_queue s : config_ok -> reachable s -> exists n, t_queue (s_trans (wait s n)) = [].
Proof.
  intros HC. remember (length (t_queue (s_trans s))) as k eqn:Ek. revert s Ek.
  induction (lt_wf k) as [k _ IH]. intros s -> Hs. destruct (t_queue (s_trans s)) as [|[i b] q] eqn:Eq; [by exists 0%nat|].
  assert (waits s i b) as Hw by (unfold waits; rewrite Eq; left).
  destruct (to_entry _ _ (reachable_tinv _ Hs) i b Hw) as (t&Ht&_).
  destruct (wait_trans s i t b HC Hs Ht Hw) as [n Hn].
  destruct (queue_shrinks s n) as [l El]. assert (length (t_queue (s_trans (wait s n))) < length ((i, b) :: q))%nat as Hlt.
  { rewrite <- Eq, El, app_length. destruct l as [|z l]; [exfalso|cbn [length]; lia]. cbn in El.
    assert (waits (wait s n) i b) as Hw' by (unfold waits; rewrite <- El; exact Hw).
    destruct (to_entry _ _ (reachable_tinv _ (wait_reach s n Hs)) i b Hw') as (t'&Ht'&_). congruence. }
  destruct (IH _ Hlt (wait s n) eq_refl (wait_reach s n Hs)) as [m Hm]. exists (n + m)%nat. by rewrite <- wait_wait.
Qed.

Lemma wait_later s n m : (n <= m)%nat -> wait s m = wait (wait s n) (m - n).
Proof. intros H. rewrite wait_wait. f_equal. lia. Qed.

Lemma fact_quiet s : config_ok -> ed <= 1 -> reachable s -> exists n, forall m, (n <= m)%nat ->
  auctions (s_auc (blocks_pass m s)) = ∅ /\ contracts (s_rent (blocks_pass m s)) = ∅ /\ t_queue (s_trans (blocks_pass m s)) = [].
Proof.
  intros HC He Hs.
  destruct (drain (fun s => auctions (s_auc s))) with (s := s) as [n1 H1]; [intros t n Ht; apply (wait_rel t n Ht)|intros t i x Ht; by apply wait_auction|done|].
  destruct (drain (fun s => contracts (s_rent s))) with (s := s) as [n2 H2]; [intros t n Ht; apply (wait_rel t n Ht)|intros t i x Ht; by apply wait_contract|done|].
  destruct (drain_queue s HC Hs) as [n3 H3].
  exists (Nat.max n1 (Nat.max n2 n3)). intros m Hm. unfold blocks_pass. fold (wait s m). split_and!.
  - rewrite (wait_later s n1 m) by lia. apply map_empty. intros i. eapply sub_None; [apply (wait_rel (wait s n1) (m - n1) (wait_reach s n1 Hs))|]. by rewrite H1.
  - rewrite (wait_later s n2 m) by lia. apply map_empty. intros i. eapply sub_None; [apply (wait_rel (wait s n2) (m - n2) (wait_reach s n2 Hs))|]. by rewrite H2.
  - rewrite (wait_later s n3 m) by lia. destruct (queue_shrinks (wait s n3) (m - n3)) as [l El]. rewrite H3 in El. symmetry in El. by apply app_eq_nil in El as [_ ?].
Qed.

Lemma fact_free_again s : config_ok -> ed <= 1 -> reachable s -> exists n, forall m, (n <= m)%nat ->
  forall i d, nfts (s_nft (blocks_pass m s)) !! i = Some d ->
    is_rented (nstate d) = false /\
    (is_listed (nstate d) = true -> is_Some (sales (s_mkt s) !! i)) /\
    (is_transmission (nstate d) = true -> exists t l k, under (blocks_pass m s) i t /\ asks (t_protocol t) l k).
Proof.
  intros HC He Hs. destruct (fact_quiet s HC He Hs) as [n Hn]. exists n. intros m Hm i d Hd.
  destruct (Hn m Hm) as (Ha&Hc&Hq). unfold blocks_pass in *. fold (wait s m) in *.
  pose proof (wait_reach s m Hs) as Hr. destruct (fact_flags _ i d Hr Hd) as ([F1 _]&_&[F3 _]&[F4 _]&_).
  split; [|split].
  - destruct (is_rented (nstate d)); [|done]. destruct (F3 eq_refl) as [c E]. rewrite Hc in E. by rewrite lookup_empty in E.
  - intros Hl. destruct (F1 Hl) as [Hx|[x E]]; [|rewrite Ha in E; by rewrite lookup_empty in E].
    destruct (wait_rel s m Hs) as [_ Em]. by rewrite <- Em.
  - intros Ht. destruct (F4 Ht) as [t Et]. exists t.
    assert (forall b, ~ timed (t_protocol t) b) as Hnt.
    { intros b Hb. pose proof (fact_timed_waits _ i t b Hr Et Hb) as Hw. unfold waits in Hw. rewrite Hq in Hw. by apply elem_of_nil in Hw. }
    unfold asks, timed in *. destruct (t_protocol t) as [b|b|l k|l k b]; [exfalso; apply (Hnt b); by left|exfalso; apply (Hnt b); by right| |];
      exists l, k; split; [done|by left|done|right; by exists b].
Qed.

Lemma fact_home s w : config_ok -> ed <= 1 -> reachable s -> w ∉ pots ->
  exists n cl x, (cl = [] \/ cl = [Extrinsic (Signed w) C_claim]) /\ spends w s (replicate n NextBlock) x /\
    let t := after s (replicate n NextBlock ++ cl) in assets s w <= free (s_bal t) w + x /\ assets t w = free (s_bal t) w.
Proof.
  intros HC He Hs Hw. destruct (fact_quiet s HC He Hs) as [n Hn]. destruct (Hn n ltac:(lia)) as (Ha&Hc&_).
  destruct (fact_assets_run w (replicate n NextBlock) s HC He Hs (wait_ok n) Hw) as (x&Hx&Hle).
  { intros a Ha'. apply elem_of_replicate_inv in Ha'. subst a. by split. }
  unfold blocks_pass in *. set (t := after s (replicate n NextBlock)) in *.
  assert (deposited t w = 0) as Hd by (unfold deposited; by rewrite Hc, fmap_empty, msum_empty).
  assert (msum (bid_of w <$> auctions (s_auc t)) = 0) as Hb by (by rewrite Ha, fmap_empty, msum_empty).
  assert (reachable t) as Ht by (by apply after_reachable, wait_ok).
  destruct (claims (s_auc t) !! w) as [y|] eqn:Ey.
  - destruct (owed_refund t w y HC He Ht Ey) as (t'&Hdp&Hf&Hcl). exists n, [Extrinsic (Signed w) C_claim], x. split; [by right|]. split; [done|].
    cbv zeta. unfold after. rewrite fold_left_app. fold (after s (replicate n NextBlock)). fold t. cbn [fold_left step]. rewrite Hdp. cbn [snd].
    pose proof Hdp as Hk. apply dispatch_ok in Hk as [_ Hk]. pose proof (call_kept (Signed w) C_claim t t' eq_refl Hk) as K. unfold kept in K. cbn [pallet_of] in K.
    cbn [exec_call signed] in Hk. apply claim_ok in Hk as (v&b'&_&_&_&_&E).
    assert (s_rent t' = s_rent t) as Er by (by destruct_and! K).
    split.
    + assert (assets t w = free (s_bal t) w + y) as Et by (unfold assets, owed, refund; rewrite Hd, Hb, Ey; cbn [default from_option]; unfold id; lia). lia.
    + unfold assets, owed, deposited, refund. rewrite Er, Hcl, E. cbn [auctions default from_option]. unfold deposited in Hd. rewrite Hd, Hb. lia.
  - exists n, [], x. split; [by left|]. split; [done|]. rewrite app_nil_r. cbv zeta. fold t.
    assert (assets t w = free (s_bal t) w) as Et by (unfold assets, owed, refund; rewrite Hd, Hb, Ey; cbn [default from_option]; lia). lia.
Qed.
End quiet.
