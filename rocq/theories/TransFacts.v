(** Facts behind the transmission properties. *)
From Verif Require Export TransInv Engaged SpecTrans.
Local Open Scope N_scope.

Section facts.
Context {C : Config}.

Lemma block_of_end p : block_of p = end_block p.
Proof. by destruct p. Qed.
Lemma asks_data p l k : asks p l k <-> consent_data p = Some (l, k).
Proof.
  unfold asks. destruct p; cbn; split; try done.
  all: try (intros [?|[? ?]]; congruence).
  - intros [= -> ->]. by left.
  - intros [= -> ->]. right. eauto.
Qed.
Lemma timed_queue p b : timed p b <-> block_to_queue p = Some b.
Proof. unfold timed. destruct p; cbn; split; try done; try (intros [?|?]; congruence); intros [= ->]; auto. Qed.
Lemma may_cancel_is c now : may_cancel c now <-> is_cancellable c now = true.
Proof. destruct c; cbn; try done. symmetry. apply N.leb_le. Qed.
Lemma given_is s i w : given_to s i w -> owner_of s i = Some w.
Proof. intros (_&d&Hd&<-&_). unfold owner_of. by rewrite Hd. Qed.

Lemma call_trans_kept s o c s' : is_mandate c = false -> exec_call o c s = (Ok tt, s') -> pallet_of c <> PTrans -> s_trans s' = s_trans s.
Proof.
  intros Hm He Hp. pose proof (call_kept _ _ _ _ Hm He) as Hk. unfold kept in Hk. destruct (pallet_of c); try done; destruct_and! Hk; done.
Qed.
Lemma hook_trans_kept h t : h <> HookTrans -> s_trans (snd (run_hook h t)) = s_trans t.
Proof.
  intros Hne. pose proof (hook_kept h t) as Hk. unfold kept in Hk. destruct h; cbn [hook_pallet] in Hk; try done; by destruct_and! Hk.
Qed.

(** ** The hook in its block *)
Lemma trans_alone s i t d : inv1 s -> transs (s_trans s) !! i = Some t -> nfts (s_nft s) !! i = Some d ->
  auctions (s_auc s) !! i = None /\ (forall id k, contracts (s_rent s) !! id = Some k -> ~ secures k i) /\ engagements d <> 0.
Proof.
  intros HI Ht Hd. destruct (trans_nft s i t HI Ht) as (d'&Hd'&Hf). assert (d' = d) as -> by congruence. split_and!.
  - destruct (auctions (s_auc s) !! i) as [a|] eqn:Ha; [|done]. destruct (auction_nft s i a HI Ha) as (y&Hy&Hl&_).
    assert (y = d) as -> by congruence. pose proof (listed_alone s i d HI Hd Hl). congruence.
  - intros id k Hk Hs. by eapply (engaged_unsecured s i d id k); eauto.
  - intros H0. apply unengaged_flags in H0. destruct_and! H0. congruence.
Qed.

Lemma settled_hooks l : forall t i d, inv1 t -> settled t i -> nfts (s_nft t) !! i = Some d ->
  exists d', nfts (s_nft (fold_left (fun s h => snd (run_hook h s)) l t)) !! i = Some d' /\ owner d' = owner d.
Proof.
  induction l as [|h l IH]; intros t i d HI Hset Hd; [eauto|]. cbn [fold_left].
  destruct (hook_hrel t h HI) as [A1 A2 A3 A4 A5]. specialize (A5 i). rewrite Hd in A5. destruct A5 as (d1&Hd1&_&Ho).
  assert (owner d1 = owner d) as E1.
  { destruct Ho as [?|[Hm _]]; [done|]. exfalso. destruct Hset as (F1&F2&F3).
    destruct Hm as [(a&amt&Ha&_)|[(x&Hx&_)|(id&k&Hk&Hr&_)]]; [congruence..|]. by eapply F3. }
  destruct (IH (snd (run_hook h t)) i d1) as (d2&Hd2&E2); [by apply inv1_hook|by eapply settled_sub|done|].
  exists d2. split; [done|]. congruence.
Qed.

Lemma fact_trans_turn s t t' : config_ok -> reachable s -> turn HookTrans s t t' ->
  fst (run_hook HookTrans t) = Ok tt /\ s_now t = s_now s + 1 /\ s_trans t = s_trans s /\ s_trans (next_block s) = s_trans t' /\
  exists l, t_queue (s_trans s) = l ++ t_queue (s_trans (next_block s)) /\
    (forall i b, (i, b) ∈ l -> b <= s_now s + 1 /\
       exists u, transs (s_trans s) !! i = Some u /\ given_to t' i (t_recipient u) /\ given_to (next_block s) i (t_recipient u)) /\
    (forall i, i ∉ map fst l -> transs (s_trans (next_block s)) !! i = transs (s_trans s) !! i) /\
    (N.max 1 trans_actions <= nlen l \/ forall i b, waits (next_block s) i b -> s_now s + 1 < b) /\
    nlen l <= N.max 1 trans_actions /\
    s_events t' = map Ev_Transmitted (rev (map fst l)) ++ s_events t /\ consents (s_trans (next_block s)) = consents (s_trans s).
Proof.
  intros HC Hs Ht. pose proof (reachable_sreach s Hs) as Hsr.
  destruct (turn_state s_trans HookTrans s t t' HC Hsr) as (Hst&Hnow&Er&En); [intros; by apply hook_trans_kept|done|done|].
  pose proof (sreach_inv1 t Hst) as HI. pose proof (sreach_tinv t Hst) as HT.
  destruct (trans_hook_run t (inv1_tback t HI) HT) as (l&t2&Eh&Eq&Hdue&Hend&Hmax&Hd&_).
  destruct Ht as (l1&l2&El&Et&Et'). cbn [run_hook] in Et'. rewrite Eh in Et'. cbn [snd] in Et'. subst t2.
  cbn [run_hook]. rewrite Eh. split; [done|]. split; [done|]. split; [done|]. split; [done|].
  exists l. rewrite <- Er, En. destruct Hd as [D1 D2 (m1&m2&q&D3)].
  assert (HI' : inv1 t') by (apply sreach_inv1; pose proof (sr_hook t HookTrans Hst) as K; cbn [run_hook] in K; by rewrite Eh in K).
  split_and!; try done.
  - intros i b Hb. split; [rewrite <- Hnow; by apply (Hdue (i, b))|].
    destruct (D1 i) as (u&d&Hu&Hd&N1&N2); [apply q_fst_elem; eauto|]. exists u. split; [done|].
    assert (Hset : settled t' i).
    { destruct (trans_alone t i u d HI Hu Hd) as (F1&F2&_). split; [|split; [done|]].
      - rewrite D3. exact F1.
      - rewrite D3. exact F2. }
    split; [split; [done|]; eexists; split; [done|]; done|].
    split; [by rewrite En|].
    destruct (settled_hooks l2 t' i _ HI' Hset N2) as (d'&Hd'&Eo).
    assert (Hnb : next_block s = fold_left (fun s h => snd (run_hook h s)) l2 t').
    { unfold next_block, run_hooks. rewrite El, fold_left_app. cbn [fold_left]. rewrite <- Et. cbn [run_hook]. by rewrite Eh. }
    rewrite Hnb. exists d'. split; [done|]. split; [done|].
    assert (inv1 (next_block s)) as HI2 by (apply (reachable_inv1 (step s NextBlock)); by apply reach_step).
    destruct (is_transmission (nstate d')) eqn:Ef; [|done]. exfalso. rewrite <- Hnb in Hd'.
    pose proof (i_view _ HI2 i) as V. unfold view_ok in V. rewrite Hd', En, N1 in V. apply v_trans in V. cbn in V. congruence.
  - intros i Hi. by apply D2.
  - destruct Hend as [?|Hend]; [by left|]. right. unfold waits. rewrite En. intros i b Hb. rewrite <- Hnow. by apply (Hend (i, b)).
  - rewrite D3. done.
  - rewrite D3. done.
Qed.

(** A mandate call runs as root, and root calls leave transmissions and NFTs alone. *)
Lemma root_trans c s s' : is_mandate c = false -> exec_call Root c s = (Ok tt, s') ->
  transs (s_trans s') = transs (s_trans s) /\ t_queue (s_trans s') = t_queue (s_trans s) /\ consents (s_trans s') = consents (s_trans s).
Proof.
  intros Hm He. assert (pallet_of c = PTrans \/ pallet_of c <> PTrans) as [Hpal|Hpal] by (destruct (pallet_of c); auto).
  2: { by rewrite (call_trans_kept _ _ _ _ Hm He Hpal). }
  destruct c; try discriminate Hpal; cbn [exec_call] in He; try done. minv He. subst s'. st_cbn. by destruct k.
Qed.
Lemma mandate_trans s o c : is_mandate c = true ->
  let s' := step s (Extrinsic o c) in
  transs (s_trans s') = transs (s_trans s) /\ t_queue (s_trans s') = t_queue (s_trans s) /\ consents (s_trans s') = consents (s_trans s) /\
  nfts (s_nft s') = nfts (s_nft s).
Proof.
  intros Hm s'. subst s'. apply (step_cases (fun u => transs (s_trans u) = transs (s_trans s) /\ t_queue (s_trans u) = t_queue (s_trans s) /\
    consents (s_trans u) = consents (s_trans s) /\ nfts (s_nft u) = nfts (s_nft s))); try done.
  - intros c0 u Hm0 He. destruct (root_trans c0 s u Hm0 He) as (?&?&?). apply root_nfts in He as [? _]. done.
  - intros o0 c0 u [= -> ->] Hm0. congruence.
Qed.

(** ** The life of a transmission *)
Inductive trans_step (s : state) (a : action) (i : N) (t : transmission) : Prop :=
| TS_stay : transs (s_trans (step s a)) !! i = Some t -> owner_of (step s a) i = owner_of s i -> trans_step s a i t
| TS_removed w : a = Extrinsic (Signed w) (C_remove_transmission_protocol i) -> owner_of s i = Some w -> may_cancel (t_cancellation t) (s_now s) ->
    given_to (step s a) i w -> trans_step s a i t
| TS_reset w b b' : a = Extrinsic (Signed w) (C_reset_timer i b') -> owner_of s i = Some w -> t_protocol t = AtBlockWithReset b ->
    s_now s < b' -> transs (s_trans (step s a)) !! i = Some (t <| t_protocol := AtBlockWithReset b' |>) ->
    owner_of (step s a) i = owner_of s i -> trans_step s a i t
| TS_consent w l k : a = Extrinsic (Signed w) (C_add_consent i) -> consent_data (t_protocol t) = Some (l, k) -> w ∈ l ->
    dispatch (Signed w) (C_add_consent i) s = (Ok tt, step s a) ->
    i ∉ (t_queue (s_trans s)).*1 -> w ∉ default [] (consents (s_trans s) !! i) -> k <= nlen (default [] (consents (s_trans s) !! i)) + 1 ->
    (forall b, end_block (t_protocol t) = Some b -> b <= s_now s) -> s_now (step s a) = s_now s ->
    given_to (step s a) i (t_recipient t) -> trans_step s a i t
| TS_block b : a = NextBlock -> (i, b) ∈ t_queue (s_trans s) -> end_block (t_protocol t) = Some b -> b <= s_now s + 1 ->
    given_to (step s a) i (t_recipient t) -> trans_step s a i t.

Lemma given_not_some s i w t : given_to s i w -> transs (s_trans s) !! i = Some t -> False.
Proof. intros [H _] ?. congruence. Qed.

Lemma trans_step_ok s a i t : config_ok -> reachable s -> action_ok a -> transs (s_trans s) !! i = Some t -> trans_step s a i t.
Proof.
  intros HC Hs Ha Ht. pose proof (reachable_inv1 s Hs) as HI. pose proof (reachable_tinv s Hs) as HT.
  destruct (trans_nft s i t HI Ht) as (d&Hd&Hf). destruct (trans_alone s i t d HI Ht Hd) as (_&_&He0).
  assert (Ho : owner_of s i = Some (owner d)) by (unfold owner_of; by rewrite Hd).
  assert (Hinv : reachable (step s a)) by (by apply reach_step).
  assert (Hstay : forall s', s_trans s' = s_trans s -> owner_of s' i = owner_of s i ->
    step s a = s' -> trans_step s a i t).
  { intros s' E1 E2 E3. apply TS_stay; rewrite E3; [by rewrite E1|done]. }
  destruct a as [o c| |e].
  - cbn [step] in *. destruct (dispatch_cases o c s) as [(s'&Hw&He&Hdp)|[e Hdp]].
    2: { eapply Hstay; [| |cbn [step]; by rewrite Hdp]; done. }
    assert (Hcall : forall c0 o0 s2, is_mandate c0 = false -> exec_call o0 c0 s = (Ok tt, s2) -> ~ hands_out c0 i d ->
       owner_of s2 i = owner_of s i).
    { intros c0 o0 s2 Hm0 He1 Hh. destruct (eng_call s o0 c0 s2 HI Hm0 He1 i d Hd He0 Hh) as (d'&Hd'&Eo).
      unfold owner_of. rewrite Hd, Hd'. cbn. by rewrite Eo. }
    assert (Hnb : forall c0, pallet_of c0 <> PTrans -> forall o0 s2, is_mandate c0 = false -> exec_call o0 c0 s = (Ok tt, s2) -> ~ hands_out c0 i d).
    { intros c0 Hp0 o0 s2 Hm0 He1. destruct c0; cbn [hands_out]; try (by intros []); cbn [exec_call] in He1; unfold signed in He1; destruct o0; try done.
      - intros [-> Hsy]. pose proof (i_view s HI i) as V. unfold view_ok in V. rewrite Hd in V. apply v_one in V.
        unfold engagements in V. rewrite Hf in V. destruct Hsy as [E|E]; rewrite E in V; clear - V; cbn in V; destruct (is_listed _), (is_delegated _), (is_rented _); cbn in V; lia.
      - intros ->. assert (is_Some (sales (s_mkt s) !! i)) as [sl Hsl] by (minv He1; eauto).
        destruct (sale_nft s i sl HI Hsl) as (y&Hy&Hl&_). assert (y = d) as -> by congruence. pose proof (listed_alone s i d HI Hd Hl). congruence.
      - intros ->. destruct (trans_alone s i t d HI Ht Hd) as (Hau&_). assert (is_Some (auctions (s_auc s) !! i)) as [sl Hsl] by (minv He1; eauto). congruence.
      - intros ->. destruct (trans_alone s i t d HI Ht Hd) as (Hau&_). assert (is_Some (auctions (s_auc s) !! i)) as [sl Hsl] by (minv He1; eauto). congruence.
      - intros ->. assert (is_Some (contracts (s_rent s) !! i)) as [k Hk] by (unfold revoke_contract in He1; do 3 mstep He1; eauto).
        destruct (contract_nft s i k HI Hk) as (y&Hy&Hr&_). assert (y = d) as -> by congruence.
        pose proof (i_view s HI i) as V. unfold view_ok in V. rewrite Hd in V. apply v_one in V. unfold engagements in V. rewrite Hf, Hr in V.
        clear - V; cbn in V; destruct (is_listed _), (is_delegated _), (is_syncing_secret _), (is_syncing_capsule _); cbn in V; lia. }
    destruct (is_mandate c) eqn:Hm.
    { destruct (mandate_trans s o c Hm) as (E1&_&_&E2). apply TS_stay; [by rewrite E1|]. unfold owner_of. by rewrite E2. }
    assert (Es : step s (Extrinsic o c) = s') by (cbn [step]; by rewrite Hdp).
    assert (pallet_of c = PTrans \/ pallet_of c <> PTrans) as [Hpal|Hpal] by (destruct (pallet_of c); auto).
    2: { eapply Hstay; [| |exact Es]; [by eapply call_trans_kept|]. eapply Hcall; [exact Hm|exact He|]. by eapply Hnb. }
    assert (Hother : transs (s_trans s') !! i = Some t -> ~ hands_out c i d -> trans_step s (Extrinsic o c) i t).
    { intros E1 Hh. apply TS_stay; rewrite Es; [done|]. by eapply Hcall. }
    destruct c; try discriminate Hpal; clear Hpal Hm; cbn [exec_call] in He.
    all: try (unfold signed in He; destruct o as [who| |]; try done).
    + apply tset_ok in He as (d0&b&q'&Hd0&_&_&Hu&_&_&_&_&_&_&E). apply Hother; [|by intros []]. rewrite E. st_cbn.
      rewrite lookup_insert_ne; [done|]. intros ->. assert (d0 = d) as -> by congruence. destruct Hu as (_&_&_&?&_). congruence.
    + apply tremove_ok in He as (d0&t0&Hd0&Ho0&_&Ht0&Hc&En&_&E1&_). destruct (decide (id = i)) as [->|Hne].
      * assert (d0 = d) as -> by congruence. assert (t0 = t) as -> by congruence. eapply TS_removed; [done|by rewrite Ho, Ho0|by apply may_cancel_is|]. rewrite Es. split; [by rewrite E1, lookup_delete|].
        rewrite En. cbn. rewrite lookup_insert. eexists. split; [done|]. done.
      * apply Hother; [|by intros []]. by rewrite E1, lookup_delete_ne.
    + apply treset_ok in He as (d0&t0&b0&Hd0&Ho0&_&Ht0&Ep&Hb&_&E). destruct (decide (id = i)) as [->|Hne].
      * assert (d0 = d) as -> by congruence. assert (t0 = t) as -> by congruence. eapply TS_reset; [done|by rewrite Ho, Ho0|exact Ep|exact Hb| |]; rewrite Es, E; [|done]. st_cbn. by rewrite lookup_insert.
      * apply Hother; [|by intros []]. rewrite E. st_cbn. by rewrite lookup_insert_ne.
    + pose proof He as He1. apply tconsent_ok in He as (d0&t0&cl&th&Hd0&_&Ht0&Hcd&Hw0&Hq&Hnw&_&He). cbv zeta in He.
      destruct (decide (id = i)) as [->|Hne].
      * assert (d0 = d) as -> by congruence. assert (t0 = t) as -> by congruence. destruct He as [(Hlt&En&Et)|[(Hle&b&Eb&Hb&Hcap&En&Et)|(Hle&Eb&En&Et)]].
        -- apply TS_stay; rewrite Es; [by rewrite Et|]. unfold owner_of. by rewrite En.
        -- apply TS_stay; rewrite Es; [by rewrite Et|]. unfold owner_of. by rewrite En.
        -- eapply TS_consent; [done|exact Hcd|done|rewrite Es; exact Hdp| |done|done|done| |]; try rewrite Es.
           ++ intros [x Hx]%q_fst_elem. destruct (to_entry _ _ HT _ _ Hx) as (t'&Ht'&Ex). assert (t' = t) as -> by congruence.
              apply Hq; [congruence|]. apply q_fst_elem. eauto.
           ++ by eapply (call_now s (Signed who) (C_add_consent i)).
           ++ split; [by rewrite Et; cbn; rewrite lookup_delete|]. rewrite En. cbn. rewrite lookup_insert. eexists. split; [done|]. done.
      * apply Hother; [|done]. destruct He as [(Hlt&En&->)|[(Hle&b&Eb&Hb&Hcap&En&->)|(Hle&Eb&En&->)]]; cbn; [done|done|]. by rewrite lookup_delete_ne.
    + minv He. apply Hother; [|by intros []]. subst s'. st_cbn. by destruct k.
  - destruct (turn_exists HookTrans s HC) as (u&u'&Hu).
    destruct (fact_trans_turn s u u' HC Hs Hu) as (_&_&_&_&l&Eq&Hin&Hout&_&_&_&_).
    destruct (decide (i ∈ map fst l)) as [Hi|Hi].
    + change (map fst l) with (l.*1) in Hi. apply q_fst_elem in Hi as [b Hb]. destruct (Hin i b Hb) as (Hle&t0&Ht0&_&Hg). simplify_eq.
      assert (Hbq : (i, b) ∈ t_queue (s_trans s)) by (rewrite Eq; apply elem_of_app; by left).
      destruct (to_entry _ _ HT i b Hbq) as (t'&Ht'&Ee). simplify_eq. by eapply TS_block.
    + apply TS_stay; [cbn [step]; by rewrite Hout|]. unfold owner_of. cbn [step].
      destruct (block_hrel s HI) as [_ _ Htr _ Hnf]. specialize (Hnf i). rewrite Hd in Hnf. destruct Hnf as (d'&Hd'&_&Hown).
      rewrite Hd, Hd'. cbn. f_equal. destruct Hown as [->|[Hm Hset]]; [done|exfalso]. destruct Hset as (_&E&_).
      rewrite Hout in E by done. congruence.
  - cbn [step] in *. destruct (transactional_cases (run_env e) s) as [(s2&Hok&E)|(x&s2&_&E)].
    + eapply (Hstay s2); [| |cbn [step]; by rewrite E]; apply env_kept in Hok as (_&En&_&_&_&Et&_); [done|]. unfold owner_of. by rewrite En.
    + eapply (Hstay s); [done|done|]. cbn [step]. by rewrite E.
Qed.
End facts.
