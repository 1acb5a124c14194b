(** Facts behind the rent properties: escrow, custody, schedule and the start of a block. *)
From Verif Require Export RentHook.
Local Open Scope N_scope.

Section facts.
Context {C : Config}.

(** ** C31, C32 *)
Lemma fact_rent_pot s : config_ok -> reachable s -> held_deposits s <= free (s_bal s) rent_pot.
Proof. intros HC Hs. rewrite held_rescrow. by apply reachable_rent. Qed.

Lemma fact_rent_custody s i c j : reachable s -> contracts (s_rent s) !! i = Some c -> secures c j ->
  (j = i /\ r_renter_cf c = FeeNFT i /\ exists d, nfts (s_nft s) !! i = Some d /\ owner d = r_renter c /\ is_rented (nstate d) = true) \/
  (owner_of s j = Some rent_pot).
Proof.
  intros Hs Hc Hj. pose proof (reachable_inv1 s Hs) as HI. apply secures_role in Hj as [role Hr].
  destruct (i_cust s HI i c role j Hc Hr) as [[-> ->]|[(d&Hd&Ho) _]].
  - left. split; [done|]. split.
    + unfold deposit_nft in Hr. by destruct (r_renter_cf c); simplify_eq/=.
    + destruct (contract_nft s i c HI Hc) as (d&Hd&Hr'&Ho). eauto.
  - right. unfold owner_of. rewrite Hd. cbn. by rewrite Ho.
Qed.
Lemma fact_rent_one_deposit s i c j i' c' : reachable s -> contracts (s_rent s) !! i = Some c -> secures c j ->
  contracts (s_rent s) !! i' = Some c' -> secures c' j -> i' = i.
Proof.
  intros Hs Hc Hj Hc' Hj'. destruct (decide (i' = i)) as [|Hne]; [done|].
  by destruct (deposit_apart s i c j i' c' (reachable_inv1 s Hs) Hc Hj Hc' Hne).
Qed.
Lemma fact_rent_two_deposits s i c j : reachable s -> contracts (s_rent s) !! i = Some c -> r_rentee c <> None ->
  r_renter_cf c = FeeNFT j -> r_rentee_cf c <> FeeNFT j.
Proof.
  intros Hs Hc Hr E1 E2. destruct (r_rentee c) as [t|] eqn:Et; [|done].
  refine (deposits_differ s i c j j (reachable_inv1 s Hs) Hc _ _ eq_refl); unfold deposit_nft; [by rewrite E1|by rewrite Et, E2].
Qed.

(** ** C36 *)
Lemma fact_rent_sorted s : config_ok -> reachable s ->
  let q := queues (s_rent s) in
  StronglySorted (fun x y => snd x <= snd y) (q_fixed q) /\ StronglySorted (fun x y => snd x <= snd y) (q_sub q) /\
  StronglySorted (fun x y => snd x <= snd y) (q_avail q) /\
  NoDup (map fst (q_fixed q ++ q_sub q ++ q_avail q)) /\
  nlen (q_fixed q) + nlen (q_sub q) + nlen (q_avail q) <= rent_limit.
Proof.
  intros HC Hs q. destruct (reachable_rent s HC Hs) as [[HF HS HA Hz _] _]. fold q in HF, HS, HA, Hz.
  pose proof HF as ([F1 F2]&F3&_). pose proof HS as ([S1 S2]&S3&_). pose proof HA as ([A1 A2]&A3&_).
  split_and!; try done. change (NoDup ((q_fixed q ++ q_sub q ++ q_avail q).*1)). rewrite !fmap_app.
  apply NoDup_app. split; [done|]. split; [|apply NoDup_app; split; [done|]; split; [|done]].
  - intros i [b Hb]%q_fst_elem Hi. destruct (F3 _ _ Hb) as (c&Hc&[P1 P2]&_).
    apply elem_of_app in Hi as [[b' Hb']%q_fst_elem|[b' Hb']%q_fst_elem].
    + destruct (S3 _ _ Hb') as (c'&Hc'&[P3 P4]&_). congruence.
    + destruct (A3 _ _ Hb') as (c'&Hc'&P3&_). unfold in_avail in P3. congruence.
  - intros i [b Hb]%q_fst_elem [b' Hb']%q_fst_elem. destruct (S3 _ _ Hb) as (c&Hc&[P1 P2]&_).
    destruct (A3 _ _ Hb') as (c'&Hc'&P3&_). unfold in_avail in P3. congruence.
Qed.
(** A contract's queue and block. *)
Lemma fact_rent_scheduled s i c : config_ok -> reachable s -> contracts (s_rent s) !! i = Some c ->
  match r_start c, r_duration c with
  | None, _ => (i, r_creation c + availability_limit) ∈ q_avail (queues (s_rent s)) /\ r_rentee c = None
  | Some st, Fixed n => (i, st + n) ∈ q_fixed (queues (s_rent s)) /\ r_rentee c <> None
  | Some st, Subscription _ => (exists b, (i, b) ∈ q_sub (queues (s_rent s)) /\ b <= s_now s + duration_limit) /\ r_rentee c <> None
  end.
Proof.
  intros HC Hs Hc. destruct (reachable_rent s HC Hs) as [[HF HS HA Hz HK] _]. pose proof (c_run _ _ (HK _ _ Hc)) as Hrun.
  destruct HF as (_&F2&F3). destruct HS as (_&S2&S3). destruct HA as (_&A2&A3).
  destruct (r_start c) as [st|] eqn:Est; cbn [isS] in Hrun.
  - assert (r_rentee c <> None) by (by destruct (r_rentee c)). destruct (r_duration c) as [n|x] eqn:Ed.
    + assert (i ∈ (q_fixed (queues (s_rent s))).*1) as [b Hb]%q_fst_elem by (apply (F3 i c Hc); split; [by rewrite Est|by rewrite Ed]).
      destruct (F2 _ _ Hb) as (c'&Hc'&_&Hd). simplify_eq. unfold due_ok in Hd. rewrite Est, Ed in Hd. by subst b.
    + assert (i ∈ (q_sub (queues (s_rent s))).*1) as [b Hb]%q_fst_elem by (apply (S3 i c Hc); split; [by rewrite Est|by rewrite Ed]).
      destruct (S2 _ _ Hb) as (c'&Hc'&_&Hd). simplify_eq. unfold due_ok in Hd. rewrite Est, Ed in Hd. eauto.
  - assert (i ∈ (q_avail (queues (s_rent s))).*1) as [b Hb]%q_fst_elem by (apply (A3 i c Hc); unfold in_avail; by rewrite Est).
    destruct (A2 _ _ Hb) as (c'&Hc'&_&Hd). simplify_eq. unfold due_ok in Hd. rewrite Est in Hd. subst b. split; [done|]. by destruct (r_rentee c).
Qed.
Lemma fact_rent_entry s i b : config_ok -> reachable s -> scheduled s i b -> exists c, contracts (s_rent s) !! i = Some c.
Proof.
  intros HC Hs Hi. destruct (reachable_rent s HC Hs) as [[HF HS HA Hz HK] _].
  destruct HF as (_&F2&_). destruct HS as (_&S2&_). destruct HA as (_&A2&_).
  destruct Hi as [Hi|[Hi|Hi]]; [destruct (F2 _ _ Hi) as (c&?&_)|destruct (S2 _ _ Hi) as (c&?&_)|destruct (A2 _ _ Hi) as (c&?&_)]; eauto.
Qed.

(** ** The rent hook in its block *)
Lemma turn_state {A} (f : state -> A) h s t t' : config_ok -> sreach s ->
  (forall h' t, h' <> h -> f (snd (run_hook h' t)) = f t) ->
  (forall t, f (t <| s_now ::= fun n => n + 1 |>) = f t) -> turn h s t t' ->
  sreach t /\ s_now t = s_now s + 1 /\ f t = f s /\ f (next_block s) = f t'.
Proof.
  intros HC Hs Hf Hn (l1&l2&El&->&->). unfold next_block, run_hooks. rewrite El.
  assert (Hnd : NoDup hook_order).
  { rewrite (ok_hooks HC). repeat (apply NoDup_cons; split; [set_solver|]). apply NoDup_nil_2. }
  rewrite El in Hnd. apply NoDup_app in Hnd as (_&Hd&Hnd). apply NoDup_cons in Hnd as [Hl2 _].
  assert (Hl1 : h ∉ l1). { intros H. apply (Hd _ H). by left. }
  assert (Hfold : forall l t, h ∉ l -> f (fold_left (fun s h => snd (run_hook h s)) l t) = f t).
  { induction l as [|h' l IH]; intros t Hl; [done|]. apply not_elem_of_cons in Hl as [Hne Hl]. cbn. rewrite IH by done. by apply Hf. }
  assert (Hnow : forall l t, s_now (fold_left (fun s h => snd (run_hook h s)) l t) = s_now t).
  { induction l as [|h' l IH]; intros t; [done|]. cbn. rewrite IH. apply hook_now. }
  rewrite fold_left_app. cbn [fold_left]. split_and!.
  - apply sreach_hooks. by apply sr_tick.
  - by rewrite Hnow.
  - rewrite Hfold by done. apply Hn.
  - by apply Hfold.
Qed.
Lemma turn_exists h s : config_ok -> exists t t', turn h s t t'.
Proof.
  intros HC. assert (Hin : h ∈ hook_order) by (rewrite (ok_hooks HC); destruct h; set_solver).
  apply elem_of_list_split in Hin as (l1&l2&El). eexists _, _, l1, l2. split; [done|]. done.
Qed.

Lemma due_nodup now (q : list (N * N)) : NoDup (q.*1) -> NoDup ((due now q).*1).
Proof.
  unfold due. induction q as [|[i b] q IH]; [done|]. cbn [fmap list_fmap fst]. intros [Hi Hq]%NoDup_cons. rewrite filter_cons.
  case_decide; [|by apply IH]. cbn [fmap list_fmap fst]. apply NoDup_cons. split; [|by apply IH].
  intros [b' Hb]%q_fst_elem. apply elem_of_list_filter in Hb as [_ Hb]. apply Hi, q_fst_elem. by exists b'.
Qed.
Lemma due_count s l : config_ok -> reachable s -> all_due_fit s l ->
  nlen (due (s_now s + 1) (q_fixed (queues (s_rent s)))) + nlen (due (s_now s + 1) (q_sub (queues (s_rent s)))) +
      nlen (due (s_now s + 1) (q_avail (queues (s_rent s)))) <= rent_actions.
Proof.
  intros HC Hs [Hl Hn]. destruct (fact_rent_sorted s HC Hs) as (_&_&_&Hnd&_). cbv zeta in Hnd.
  set (q := queues (s_rent s)) in *. set (now := s_now s + 1) in *.
  assert (Hnd' : NoDup ((due now (q_fixed q) ++ due now (q_sub q) ++ due now (q_avail q)).*1)).
  { unfold due. rewrite <- !filter_app. change (map fst (q_fixed q ++ q_sub q ++ q_avail q)) with ((q_fixed q ++ q_sub q ++ q_avail q).*1) in Hnd.
    by apply due_nodup. }
  assert (Hsub : (due now (q_fixed q) ++ due now (q_sub q) ++ due now (q_avail q)).*1 ⊆+ l).
  { apply NoDup_submseteq; [done|]. intros i [b Hb]%q_fst_elem. unfold due in Hb. rewrite !elem_of_app, !elem_of_list_filter in Hb. cbn [snd] in Hb.
    apply (Hl i b); [unfold scheduled; fold q; tauto|fold now; tauto]. }
  apply submseteq_length in Hsub. rewrite fmap_length, !app_length in Hsub. unfold nlen in *. lia.
Qed.

Lemma fact_rent_turn s t t' : config_ok -> reachable s -> turn HookRent s t t' ->
  s_now t = s_now s + 1 /\ s_rent t = s_rent s /\ s_rent (next_block s) = s_rent t' /\
  exists l, rent_effects t l t' /\
    (forall i, i ∈ l -> exists b, scheduled s i b /\ b <= s_now s + 1) /\
    (forall i c, i ∈ l -> contracts (s_rent t') !! i = Some c ->
       r_rentee c <> None /\ ~ terms_open (r_duration c) /\ ~ over c (s_now s + 1) /\
       (exists x, r_duration c = Subscription x) /\ (i, s_now s + 1 + period_of (r_duration c)) ∈ q_sub (queues (s_rent t'))) /\
    (forall i b, i ∉ l -> scheduled t' i b <-> scheduled s i b) /\
    nlen l <= N.max 1 rent_actions + 2 /\
    forall l', all_due_fit s l' -> forall i b, scheduled s i b -> b <= s_now s + 1 -> i ∈ l.
Proof.
  intros HC Hs Ht. pose proof (reachable_sreach s Hs) as Hsr.
  destruct (turn_state s_rent HookRent s t t' HC Hsr) as (Hst&Hnow&Er&En); [intros; by apply hook_rent_kept|done|done|].
  split; [done|]. split; [done|]. split; [done|].
  destruct (sreach_rent t HC Hst) as [HR HS]. assert (t' = snd (run_hook HookRent t)) as -> by (destruct Ht as (?&?&_&_&?); done).
  destruct (rent_hook_ok t HC (sreach_rlinv t Hst HR HS)) as (l&[Bo Bi Bl Ba Be _]&_). rewrite Hnow, Er in *.
  exists l. split; [done|]. split_and!.
  - intros i Hi. destruct (Bi i Hi) as (c&b&_&Hb&Hq&_). exists b. done.
  - intros i c Hi Hc. destruct (Bi i Hi) as (c'&b&Hc'&Hb&Hq&[E|(Hq'&E&Hn&Htc&Hhe)]); [congruence|]. assert (c' = c) as -> by congruence.
    unfold rinv in HR. rewrite Hnow, Er in HR. destruct (r_subs _ _ _ HR) as (_&S2&_). destruct (S2 _ _ Hq') as (c''&Hc''&[P1 P2]&_). assert (c'' = c) as -> by congruence.
    rewrite period_is, terms_is, over_is, Htc, Hhe. split_and!; try done.
    + pose proof (c_run _ _ (r_cok _ _ _ HR _ _ Hc')) as Hrun. rewrite P1 in Hrun. by destruct (r_rentee c).
    + destruct (r_duration c); [done|eauto].
  - intros i b Hi. destruct (Bo i Hi) as [_ Hq]. destruct (Hq b) as (Q1&Q2&Q3). unfold scheduled. by rewrite Q1, Q2, Q3.
  - done.
  - intros l' Hl' i b Hi Hb. destruct (decide (i ∈ l)) as [|Hn]; [done|exfalso].
    pose proof (due_count s l' HC Hs Hl') as Hd. specialize (Ba Hd (i, b)). destruct (Bo i Hn) as [_ Hq]. destruct (Hq b) as (Q1&Q2&Q3).
    rewrite Q1, Q2, Q3 in Ba. specialize (Ba Hi). cbn [snd] in Ba. lia.
Qed.

(** Seen from outside the block. *)
Lemma fact_rent_due_ends s l i c b : config_ok -> reachable s -> all_due_fit s l -> contracts (s_rent s) !! i = Some c ->
  scheduled s i b -> b <= s_now s + 1 ->
  (forall x, r_duration c = Subscription x -> r_rentee c = None \/ new_terms x = true \/ over c (s_now s + 1)) ->
  contracts (s_rent (next_block s)) !! i = None /\ owner_of (next_block s) i = owner_of s i /\
  exists d, nfts (s_nft (next_block s)) !! i = Some d /\ is_rented (nstate d) = false.
Proof.
  intros HC Hs Hl Hc Hi Hb Hend. destruct (turn_exists HookRent s HC) as (t&t'&Ht).
  destruct (fact_rent_turn s t t' HC Hs Ht) as (_&Er&En&l'&[Ro Ri Rn Rb Rr Rrest]&_&Hre&_&_&Hall).
  pose proof (Hall l Hl i b Hi Hb) as Hin.
  assert (Hgone : contracts (s_rent t') !! i = None).
  { destruct (Ri i Hin) as (c'&Hc'&[E|E]); [done|]. rewrite Er in Hc'. assert (c' = c) as -> by congruence.
    destruct (Hre i c Hin E) as (H1&H2&H3&(x&Hx)&_). exfalso. destruct (Hend x Hx) as [?|[Hn|?]]; [done| |done]. apply H2. unfold terms_open. by rewrite Hx. }
  rewrite En. split; [done|]. pose proof (reachable_inv1 s Hs) as HI.
  assert (HI' : inv1 (next_block s)). { apply (reachable_inv1 (step s NextBlock)). by apply reach_step. }
  destruct (contract_nft s i c HI Hc) as (d&Hd&Hrd&Ho).
  destruct (block_hrel s HI) as [_ _ _ _ Hnf]. specialize (Hnf i). rewrite Hd in Hnf. destruct Hnf as (d'&Hd'&_&Hown).
  split.
  - unfold owner_of. rewrite Hd, Hd'. cbn. f_equal. destruct Hown as [->|[Hm _]]; [done|exfalso].
    pose proof (i_view s HI i) as V. unfold view_ok in V. rewrite Hd, Hc in V. destruct Hm as [(a&amt&Ha&_)|[(x&Hx&_)|(id&k&_&_&Hp&_)]].
    + pose proof (v_listed _ _ _ _ _ _ _ _ _ _ _ _ _ V) as E. rewrite Ha, orb_true_r in E.
      destruct (only_listed d (v_one _ _ _ _ _ _ _ _ _ _ _ _ _ V) E) as (_&E'&_). congruence.
    + pose proof (v_trans _ _ _ _ _ _ _ _ _ _ _ _ _ V) as E. rewrite Hx in E. cbn [isS] in E. pose proof (v_one _ _ _ _ _ _ _ _ _ _ _ _ _ V) as Ho1.
      clear - Ho1 E Hrd. unfold engagements in Ho1. rewrite E, Hrd in Ho1. cbn [N.b2n] in Ho1. lia.
    + by eapply (pot_not_rented s i c i).
  - exists d'. split; [done|]. pose proof (i_view _ HI' i) as V. unfold view_ok in V. rewrite Hd', En, Hgone in V. by apply v_rented in V.
Qed.
Lemma fact_rent_ends_due s i c : config_ok -> reachable s -> contracts (s_rent s) !! i = Some c ->
  contracts (s_rent (next_block s)) !! i <> Some c -> contracts (s_rent (next_block s)) !! i = None /\ exists b, scheduled s i b /\ b <= s_now s + 1.
Proof.
  intros HC Hs Hc Hne. destruct (turn_exists HookRent s HC) as (t&t'&Ht).
  destruct (fact_rent_turn s t t' HC Hs Ht) as (_&Er&En&l'&[Ro Ri Rn Rb Rr Rrest]&Hdue&_). rewrite En in *. rewrite Er in *.
  destruct (decide (i ∈ l')) as [Hi|Hi].
  - split; [|by apply Hdue]. destruct (Ri i Hi) as (c'&Hc'&[E|E]); [done|congruence].
  - rewrite Ro in Hne by done. done.
Qed.
(** A subscription that can be renewed and is paid goes on. *)
Lemma fact_rent_renewed s l i c b : config_ok -> reachable s -> all_due_fit s l -> contracts (s_rent s) !! i = Some c ->
  scheduled s i b -> b <= s_now s + 1 -> contracts (s_rent (next_block s)) !! i = Some c ->
  ~ terms_open (r_duration c) /\ ~ over c (s_now s + 1) /\
  (i, s_now s + 1 + period_of (r_duration c)) ∈ q_sub (queues (s_rent (next_block s))) /\
  forall b', scheduled (next_block s) i b' -> b' = s_now s + 1 + period_of (r_duration c).
Proof.
  intros HC Hs Hl Hc Hi Hb Hc'. destruct (turn_exists HookRent s HC) as (t&t'&Ht).
  destruct (fact_rent_turn s t t' HC Hs Ht) as (_&Er&En&l'&_&_&Hre&_&_&Hall).
  pose proof (Hall l Hl i b Hi Hb) as Hin. rewrite En in Hc'. destruct (Hre i c Hin Hc') as (_&H1&H2&_&H3).
  split; [done|]. split; [done|]. rewrite En. split; [done|]. intros b' Hb'.
  assert (Hs' : reachable (next_block s)) by (by apply (reach_step s NextBlock)).
  destruct (fact_rent_sorted _ HC Hs') as (_&_&_&Hnd&_). cbv zeta in Hnd.
  eapply q_uniq; [exact Hnd| |].
  - rewrite !elem_of_app. exact Hb'.
  - rewrite !elem_of_app. right; left. by rewrite En.
Qed.
End facts.
