(** What bidders are owed across a block. *)
From Verif Require Export SpecOwed.
From Verif Require Import AucFacts AucHook AucSolv AucInv CanEnd Sreach BlockLog SpecLog Queue Frame NftHook AucWait.
Local Open Scope N_scope.

Section facts.
Context {C : Config}.

Definition part (w : N) (l : list (N * N)) : N := sum_of (map (fun b => if decide (fst b = w) then snd b else 0) l).
Lemma part_none (l : list (N * N)) w : (forall x, (w, x) ∉ l) -> part w l = 0.
Proof.
  unfold part, sum_of. induction l as [|[v z] l IH]; [done|]. intros H. cbn [map fold_right fst snd]. rewrite IH.
  - rewrite decide_False; [done|]. intros ->. apply (H z). by left.
  - intros x Hx. apply (H x). by right.
Qed.
Lemma part_in (l : list (N * N)) w x : NoDup (l.*1) -> (w, x) ∈ l -> part w l = x.
Proof.
  induction l as [|[v z] l IH]; [by intros _ ?%elem_of_nil|]. intros [Hv Hl]%NoDup_cons [E|H]%elem_of_cons.
  - injection E as <- <-. assert (part w l = 0) as G.
    { apply part_none. intros y Hy. apply Hv, elem_of_list_fmap. by exists (w, y). }
    unfold part, sum_of in *. cbn [map fold_right fst snd]. rewrite G, decide_True by done. lia.
  - specialize (IH Hl H). unfold part, sum_of in *. cbn [map fold_right fst snd]. rewrite IH, decide_False; [done|].
    intros ->. apply Hv, elem_of_list_fmap. by exists (w, x).
Qed.

(** Refunds and losing bids together. *)
Definition due_to (w : N) (s : state) : N := refund s w + standing s w.

Lemma settle_due_to w i b dl s s' : ed <= 1 -> config_ok -> linv s ((i, b) :: dl) -> settle_one i s = (Ok true, s') -> due_to w s' = due_to w s.
Proof.
  intros He HC HL E. destruct (settle_ok i s) as (r&s0&E0&Hc). rewrite E in E0. injection E0 as <- <-.
  destruct Hc as [[? _]|(_&d&a&rest&Hd&Ha&Ea&Hc)]; [done|].
  pose proof (a_books _ _ (l_aok _ _ HL) i a Ha) as B.
  assert (rest = removelast (a_bidders a) /\ NoDup (rest.*1) /\ (forall b, b ∈ rest -> b ∈ a_bidders a)) as (Er&Hn&Hsub).
  { destruct Hc as [(Eb&->&_)|(m&f&v&x&b'&Eb&_)]; [rewrite Eb; by split_and!; [|constructor|]|].
    rewrite Eb, removelast_last. split_and!; [done| |intros ? ?; apply elem_of_app; by left]. apply (nodup_prefix _ (v, x)). rewrite <- Eb. apply B. }
  assert (refunded rest s s') as [R1 R2]. { apply claims_refunded; [done|]. by rewrite Ea. }
  unfold due_to. assert (standing s w = losing w a + standing s' w) as ->.
  { unfold standing. rewrite (msumf_delete _ _ _ _ Ha). rewrite Ea. done. }
  assert (losing w a = part w rest) as -> by (unfold losing, part; by rewrite Er).
  assert (forall y, (w, y) ∈ rest -> refund s w + y <= u128_max) as Hsat.
  { intros y Hy. pose proof (l_solv _ _ HL) as HS. unfold solv, escrow, stakes in HS.
    pose proof (msum_ge (claims (s_auc s)) w). pose proof (msum_fmap_ge (fun a => tot (a_bidders a)) _ _ _ Ha) as H1. cbv beta in H1.
    pose proof (tot_elem _ _ _ (Hsub _ Hy)) as H2. pose proof (l_binv _ _ HL) as Hb. unfold binv in Hb.
    assert (free (s_bal s) auction_pot <= u128_max) by (pose proof (bsum_max _ _ auction_pot Hb); lia).
    unfold refund. lia. }
  destruct (q_get w rest) as [y|] eqn:Ey.
  - apply (q_get_elem w y rest Hn) in Ey. rewrite (part_in _ _ _ Hn Ey), (R1 w y Ey). specialize (Hsat y Ey). clear - Hsat. lia.
  - assert (forall y, (w, y) ∉ rest) as Hno. { intros y Hy%(q_get_elem w y rest Hn). congruence. }
    rewrite (part_none _ _ Hno), (R2 w Hno). lia.
Qed.

Lemma loop_due_to w fuel : forall now dl acts s dl' s', ed <= 1 -> config_ok -> linv s dl ->
  auction_loop fuel now dl acts s = (Ok dl', s') -> due_to w s' = due_to w s.
Proof.
  induction fuel as [|f IH]; intros now dl acts s dl' s' He HC HL E.
  - by injection E as _ <-.
  - cbn [auction_loop] in E. destruct (q_pop now dl) as [[i dl1]|] eqn:Ep; [|by injection E as _ <-].
    apply q_pop_some in Ep as (b&->&Hb). destruct (linv_settle i b dl1 s He HC HL) as (s1&E1&HL1&_).
    unfold bind at 1 in E. rewrite E1 in E. rewrite <- (settle_due_to w i b dl1 s s1 He HC HL E1).
    destruct (_ && _); [by injection E as _ <-|]. by eapply IH.
Qed.

Lemma hook_due_to w s : ed <= 1 -> config_ok -> linv s (deadlines (s_auc s)) -> due_to w (snd (run_hook HookAuction s)) = due_to w s.
Proof.
  intros He HC HL. cbn [run_hook].
  destruct (linv_loop (length (deadlines (s_auc s))) (s_now s) (deadlines (s_auc s)) 0 s He HC HL ltac:(done)) as (l1&dl'&s'&El&_).
  rewrite <- (loop_due_to w _ _ _ _ _ _ _ He HC HL El).
  unfold auction_on_initialize, bind, gets. by rewrite El.
Qed.

Lemma block_due_to w s : config_ok -> ed <= 1 -> reachable s -> due_to w (next_block s) = due_to w s.
Proof.
  intros HC He Hs. pose proof (reachable_sreach s Hs) as Hsr.
  destruct (next_block_hook s_auc HookAuction s HC Hsr) as (t&Ht&_&Hnow&Et&En); [intros; by apply hook_auc_kept|done|].
  destruct (sreach_solv t He HC Ht) as [HS HD].
  pose proof (hook_due_to w t He HC (sreach_linv t Ht HS HD)) as G.
  unfold due_to, refund, standing in *. rewrite En, G. by rewrite Et.
Qed.

Lemma msum_sub {A} (f : A -> N) (m m' : gmap N A) : m' ⊆ m -> msum (f <$> m') <= msum (f <$> m).
Proof.
  revert m. induction m' as [|k v m' Hk IH] using map_ind; intros m Hm; [rewrite fmap_empty, msum_empty; lia|].
  rewrite fmap_insert, msum_insert by (by rewrite lookup_fmap, Hk).
  assert (m !! k = Some v) as Hv. { eapply lookup_weaken; [|exact Hm]. apply lookup_insert. }
  rewrite (msumf_delete _ _ _ _ Hv). specialize (IH (delete k m)).
  assert (m' ⊆ delete k m) as Hd.
  { apply map_subseteq_spec. intros j y Hj. rewrite lookup_delete_ne; [|intros ->; congruence].
    eapply lookup_weaken; [|exact Hm]. rewrite lookup_insert_ne; [done|]. intros ->. congruence. }
  specialize (IH Hd). lia.
Qed.

(** When its auction ends in a block, a bid has won the NFT or is a refund. *)
Lemma bid_returns s i a w x : config_ok -> ed <= 1 -> reachable s -> auctions (s_auc s) !! i = Some a -> (w, x) ∈ a_bidders a ->
  exists n, auctions (s_auc (blocks_pass n s)) !! i = None /\
    (last (a_bidders a) = Some (w, x) /\ owner_of (blocks_pass n s) i = Some w \/
     last (a_bidders a) <> Some (w, x) /\ x <= refund (blocks_pass n s) w).
Proof.
  intros HC He Hs Ha Hx.
  destruct (wait_auction s i a HC He Hs Ha) as [n0 Hn0].
  assert (exists n, auctions (s_auc (wait s n)) !! i = Some a /\ auctions (s_auc (wait s (S n))) !! i = None) as (n&Hn&Hn1).
  { induction n0 as [|k IH]; [change (wait s 0) with s in Hn0; congruence|].
    destruct (auctions (s_auc (wait s k)) !! i) as [a'|] eqn:Ek; [|by apply IH].
    exists k. split; [|done]. destruct (wait_rel s k Hs) as [[Hsub _ _ _ _] _].
    pose proof (lookup_weaken _ _ _ _ Ek Hsub). congruence. }
  exists (S n). unfold blocks_pass. fold (wait s (S n)). split; [done|].
  pose proof (wait_reach s n Hs) as Hr. rewrite wait_S in *.
  pose proof (a_books _ _ (reachable_ainv _ Hr) i a Hn) as B.
  destruct (exists_last (l := a_bidders a)) as (l&[v y]&E); [intros E; rewrite E in Hx; by apply elem_of_nil in Hx|].
  rewrite E, last_snoc. destruct (decide ((v, y) = (w, x))) as [Eq|Hne]; [injection Eq as -> ->|].
  - left. split; [done|]. destruct (block_log (wait s n) HC Hr) as (ev&_&Hl).
    destruct (tl_auction _ _ _ Hl i a Hn Hn1) as (p1&p2&p3&p4&p5&Hev).
    destruct (tl_true _ _ _ Hl _ Hev) as (a1&Ha1&_&[[E1 _]|(l1&v1&x1&d&f&com&roy&rest&E1&_&_&_&_&_&Ho)]); rewrite Hn in Ha1; injection Ha1 as <-.
    + rewrite E in E1. by destruct l.
    + rewrite E in E1. apply app_inj_tail in E1 as [_ E1]. injection E1 as <- <-. exact Ho.
  - right. split; [congruence|].
    assert ((w, x) ∈ l) as Hxl. { rewrite E in Hx. apply elem_of_app in Hx as [?|Hx%elem_of_list_singleton]; [done|by destruct Hne]. }
    assert (losing w a = x) as Hlo.
    { unfold losing. rewrite E, removelast_last. apply part_in; [|done]. apply (nodup_prefix _ (v, y)). rewrite <- E. apply B. }
    pose proof (block_due_to w (wait s n) HC He Hr) as G. unfold due_to in G.
    assert (standing (next_block (wait s n)) w + x <= standing (wait s n) w) as Hst.
    { unfold standing. rewrite (msumf_delete _ _ _ _ Hn), Hlo.
      assert (auctions (s_auc (next_block (wait s n))) ⊆ delete i (auctions (s_auc (wait s n)))) as Hsub.
      { pose proof (block_hrel _ (reachable_inv1 _ Hr)) as [Hsub _ _ _ _]. apply map_subseteq_spec. intros j z Hj.
        rewrite lookup_delete_ne; [by eapply lookup_weaken|]. intros ->. congruence. }
      pose proof (msum_sub (losing w) _ _ Hsub). lia. }
    lia.
Qed.
End facts.
