(** The bridge properties. *)
From Verif Require Export SpecBridge TeeFacts NftFacts2 TransFacts3.
Local Open Scope N_scope.

Section facts.
Context {C : Config}.

(** What a step does to the storages of the bridge. *)
Inductive brg_step (s : state) (a : action) : Prop :=
| bs_call o c s1 : runs a o c -> pallet_of c = PBridge -> is_mandate c = false -> exec_call o c s = (Ok tt, s1) ->
    but_events s1 (step s a) -> s_now (step s a) = s_now s -> brg_step s a
| bs_none : s_brg (step s a) = s_brg s -> s_now s <= s_now (step s a) -> brg_step s a.

Lemma brg_block s : s_brg (next_block s) = s_brg s.
Proof.
  unfold next_block, run_hooks. assert (H : forall l t, s_brg t = s_brg s -> s_brg (fold_left (fun s h => snd (run_hook h s)) l t) = s_brg s).
  { induction l as [|h l IH]; intros t Ht; [done|]. cbn [fold_left]. apply IH. rewrite <- Ht. pose proof (hook_kept h t) as Hk. unfold kept in Hk.
    destruct h; cbn [hook_pallet] in Hk; by destruct_and! Hk. }
  by apply H.
Qed.
Lemma brg_steps s a : brg_step s a.
Proof.
  destruct (step_runs s a) as [(o&c&s1&Hr&Hm&He&l&Hl)|[[l Hl]|[->|(e&s'&->&He&Hs)]]].
  - pose proof (call_kept _ _ _ _ Hm He) as Hk. unfold kept in Hk.
    assert (pallet_of c = PBridge \/ pallet_of c <> PBridge) as [Hp|Hp] by (destruct (pallet_of c); auto).
    + eapply bs_call; [done..|by exists l|]. rewrite Hl. cbn. by destruct_and! Hk.
    + apply bs_none; rewrite Hl; cbn; [|destruct_and! Hk; lia]. destruct (pallet_of c); try done; destruct_and! Hk; done.
  - apply bs_none; rewrite Hl; cbn; [done|lia].
  - apply bs_none; cbn [step]; [apply brg_block|]. rewrite now_next_block. lia.
  - apply bs_none; rewrite Hs; apply env_kept in He; unfold env_kept_from in He; destruct_and! He; [done|lia].
Qed.

(** A successful vote. *)
Lemma vote_ok w c n r m s s' : vote_for_proposal w c n r m s = (Ok tt, s') ->
  w ∈ relayers (s_brg s) /\ is_Some (nonces (s_brg s) !! c) /\
  exists p,
    (votes (s_brg s) !! (c, (n, r, m)) = None /\ p_votes p = [w] /\ p_expiry p = s_now s + proposal_lifetime \/
     exists p0, votes (s_brg s) !! (c, (n, r, m)) = Some p0 /\ p_status p0 = Initiated /\ s_now s < p_expiry p0 /\ w ∉ p_votes p0 /\
       nlen (p_votes p0) < relayer_limit /\ p_votes p = p_votes p0 ++ [w] /\ p_expiry p = p_expiry p0) /\
    (p_status p = Approved <-> vote_threshold (s_brg s) <= nlen (p_votes p)) /\
    s_brg s' = s_brg s <| votes ::= <[(c, (n, r, m)) := p]> |> /\ s_now s' = s_now s /\
    s_bal s' = match p_status p with
               | Approved => let (i, x) := issue_b m (s_bal s) in resolve_creating_b r i x
               | Initiated => s_bal s
               end.
Proof.
  intros H. unfold vote_for_proposal in H. do 2 mstep H. mstep H. mstep H.
  apply bind_ok in H as (p&s0&Hp&H). apply memN_iff in E. split; [done|]. split; [by destruct (nonces (s_brg s) !! c)|].
  exists p. assert (Hc : forall q, (p_status q = Initiated) -> p = try_to_complete (vote_threshold (s_brg s)) q ->
     p_votes p = p_votes q /\ p_expiry p = p_expiry q /\ (p_status p = Approved <-> vote_threshold (s_brg s) <= nlen (p_votes p))).
  { intros q Hq ->. unfold try_to_complete. destruct (vote_threshold (s_brg s) <=? nlen (p_votes q)) eqn:El; st_cbn; rewrite ?Hq.
    - apply N.leb_le in El. split; [done|]. split; [done|]. split; done.
    - apply N.leb_gt in El. split; [done|]. split; [done|]. split; [done|lia]. }
  assert (s0 = s /\ (votes (s_brg s) !! (c, (n, r, m)) = None /\ p_votes p = [w] /\ p_expiry p = s_now s + proposal_lifetime \/
     exists p0, votes (s_brg s) !! (c, (n, r, m)) = Some p0 /\ p_status p0 = Initiated /\ s_now s < p_expiry p0 /\ w ∉ p_votes p0 /\
       nlen (p_votes p0) < relayer_limit /\ p_votes p = p_votes p0 ++ [w] /\ p_expiry p = p_expiry p0) /\
    (p_status p = Approved <-> vote_threshold (s_brg s) <= nlen (p_votes p))) as (->&Hcase&Hst).
  { destruct (votes (s_brg s) !! (c, (n, r, m))) as [p0|].
    - minv Hp. subst s0. assert (Hi : p_status p0 = Initiated) by (unfold is_complete in E0; by destruct (p_status p0)).
      destruct (Hc (p0 <| p_votes ::= fun l => l ++ [w] |>)) as (H1&H2&H3); [done|done|].
      split; [done|]. split; [|done]. right. exists p0. do 3 (split; [done|]). split; [|done]. intros Hin%memN_iff. by rewrite Hin in E2.
    - minv Hp. subst s0. destruct (Hc (mkProposal [w] Initiated (s_now s + proposal_lifetime))) as (H1&H2&H3); [done..|]. split; [done|]. split; [|done]. by left. }
  split; [done|]. split; [done|]. do 2 mstep H.
  apply when_ok in H as [[Hb H]|[Hb <-]]; unfold is_complete in Hb; destruct (p_status p); try done; minv H; subst s'; done.
Qed.
Lemma vote_dispatch w c n r m s s' : dispatch (Signed w) (C_vote_for_proposal c n r m) s = (Ok tt, s') -> vote_for_proposal w c n r m s = (Ok tt, s').
Proof. intros [_ He]%dispatch_ok. exact He. Qed.

(** How one proposal evolves. *)
Lemma prop_step s a c n r m :
  votes (s_brg (step s a)) !! (c, (n, r, m)) = votes (s_brg s) !! (c, (n, r, m)) \/
  exists w, a = Extrinsic (Signed w) (C_vote_for_proposal c n r m) /\
    dispatch (Signed w) (C_vote_for_proposal c n r m) s = (Ok tt, step s a).
Proof.
  destruct (brg_steps s a) as [o cc s1 Hr Hpal Hm He [l Hl] _|E _]; [|left; by rewrite E].
  destruct cc; try discriminate Hpal; cbn [exec_call] in He; unfold signed, external in He.
  1, 2, 3, 4, 7: left; rewrite Hl; cbn; destruct (external_ok o); [|done];
    unfold set_threshold, add_chain, set_relayers, set_deposit_nonce, set_bridge_fee in He; minv He; subst s1; done.
  2: { left. rewrite Hl. cbn. destruct o as [|who|]; try done. unfold deposit in He. minv He. subst s1. done. }
  destruct o as [|w|]; try done. apply runs_signed in Hr as ->.
  destruct (decide ((chain, (nonce, recipient, amount)) = (c, (n, r, m)))) as [[= -> -> -> ->]|Hne].
  - destruct (dispatch_cases (Signed w) (C_vote_for_proposal c n r m) s) as [(s'&Hw&He'&Hd)|[e Hd]].
    + right. exists w. split; [done|]. cbn [step]. by rewrite Hd.
    + left. cbn [step]. by rewrite Hd.
  - left. rewrite Hl. apply vote_ok in He as (_&_&p&_&_&Eb&_). cbn. rewrite Eb. cbn. by rewrite lookup_insert_ne by done.
Qed.

(** *** C66 *)
Lemma now_later s s' : later s s' -> s_now s <= s_now s'.
Proof.
  induction 1 as [|s' a _ IH _]; [lia|]. destruct (brg_steps s' a) as [? ? ? _ _ _ _ _ E|_ E]; lia.
Qed.
Lemma fact_final s s' c n r m p : proposed s c n r m p -> p_status p = Approved -> later s s' -> proposed s' c n r m p.
Proof.
  intros Hp Ha. induction 1 as [|s' a _ IH _]; [done|]. unfold proposed in *.
  destruct (prop_step s' a c n r m) as [E|(w&_&Hd)]; [by rewrite E|]. exfalso.
  apply vote_dispatch, vote_ok in Hd as (_&_&q&Hq&_). destruct Hq as [(E&_)|(p0&E&Ei&_)]; congruence.
Qed.
Lemma fact_expired s s' c n r m p : proposed s c n r m p -> p_status p = Initiated -> p_expiry p <= s_now s -> later s s' -> proposed s' c n r m p.
Proof.
  intros Hp Ha Hex Hl. pose proof Hl as Hl0. induction Hl as [|s' a Hl IH Ha']; [done|]. specialize (IH Hl). apply now_later in Hl. unfold proposed in *.
  destruct (prop_step s' a c n r m) as [E|(w&_&Hd)]; [by rewrite E|]. exfalso.
  apply vote_dispatch, vote_ok in Hd as (_&_&q&Hq&_). destruct Hq as [(E&_)|(p0&E&Ei&Hlt&_)]; [congruence|]. rewrite IH in E. injection E as <-. lia.
Qed.
Lemma fact_expired_never s s' c n r m : expired s c n r m -> later s s' -> expired s' c n r m /\ ~ approved s' c n r m.
Proof.
  intros (p&Hp&Hi&He) Hl. pose proof (fact_expired s s' c n r m p Hp Hi He Hl) as Hp'. split.
  - exists p. split; [done|]. split; [done|]. apply now_later in Hl. lia.
  - intros (q&Hq&Hqa). unfold proposed in *. congruence.
Qed.
Lemma fact_finished_votes_fail s c n r m w s' : approved s c n r m \/ expired s c n r m ->
  dispatch (Signed w) (C_vote_for_proposal c n r m) s <> (Ok tt, s').
Proof.
  intros H Hd. apply vote_dispatch, vote_ok in Hd as (_&_&q&Hq&_). unfold proposed in *. destruct H as [(p&Hp&Ha)|(p&Hp&Ha&Hex)].
  - destruct Hq as [(E&_)|(p0&E&Ei&_)]; unfold proposed in *; congruence.
  - destruct Hq as [(E&_)|(p0&E&Ei&Hlt&_)]; unfold proposed in *; [congruence|]. rewrite Hp in E. injection E as <-. lia.
Qed.

(** *** C62 *)
Lemma voted_more s0 acts a c n r m w b : voted_at s0 acts c n r m w b -> voted_at s0 (acts ++ [a]) c n r m w b.
Proof. intros (l1&l2&s'&->&H). exists l1, (l2 ++ [a]), s'. split; [by rewrite <- app_assoc|done]. Qed.
Definition voted_list (s0 : state) (acts : list action) (c n r m : N) (p : proposal) : Prop :=
  exists f ws b0, p_votes p = f :: ws /\ NoDup (f :: ws) /\ p_expiry p = b0 + proposal_lifetime /\ b0 <= s_now (after s0 acts) /\ voted_at s0 acts c n r m f b0 /\
    forall x, x ∈ ws -> exists b, b0 <= b /\ b < b0 + proposal_lifetime /\ voted_at s0 acts c n r m x b.
Lemma genesis_brg s : genesis s -> votes (s_brg s) = ∅.
Proof. by intros (now&era&bal&lk&->&_). Qed.
Lemma voted_lists s0 acts c n r m p : genesis s0 -> Forall action_ok acts -> proposed (after s0 acts) c n r m p -> voted_list s0 acts c n r m p.
Proof.
  intros H0 Hacts. revert p. induction acts as [|a acts IH] using rev_ind; intros p Hp.
  { unfold proposed, after in Hp. cbn in Hp. rewrite (genesis_brg _ H0) in Hp. by rewrite lookup_empty in Hp. }
  apply acts_snoc in Hacts as [Hacts Ha]. unfold proposed in *. rewrite after_snoc in Hp.
  assert (Hnow : s_now (after s0 acts) <= s_now (after s0 (acts ++ [a]))).
  { rewrite after_snoc. destruct (brg_steps (after s0 acts) a) as [? ? ? _ _ _ _ _ E|_ E]; lia. }
  destruct (prop_step (after s0 acts) a c n r m) as [E|(w&Ea&Hd)].
  { rewrite E in Hp. destruct (IH Hacts p Hp) as (f&ws&b0&H1&H2&H3&H4&H5&H6). exists f, ws, b0. do 3 (split; [done|]). split; [lia|].
    split; [by apply voted_more|]. intros x Hx. destruct (H6 x Hx) as (b&?&?&?). exists b. split; [done|]. split; [done|]. by apply voted_more. }
  pose proof (vote_ok _ _ _ _ _ _ _ (vote_dispatch _ _ _ _ _ _ _ Hd)) as (Hrel&_&q&Hq&_&Eb&_).
  assert (q = p) as ->. { rewrite Eb in Hp. cbn in Hp. rewrite lookup_insert in Hp. by injection Hp. }
  assert (Hv : voted_at s0 (acts ++ [a]) c n r m w (s_now (after s0 acts))).
  { exists acts, [], (step (after s0 acts) a). rewrite Ea in *. done. }
  destruct Hq as [(_&E1&E2)|(p0&E0&_&Hlt&Hnin&_&E1&E2)].
  - exists w, [], (s_now (after s0 acts)). split; [done|]. split; [apply NoDup_singleton|]. split; [done|]. split; [done|]. split; [done|]. by intros x ?%elem_of_nil.
  - destruct (IH Hacts p0 E0) as (f&ws&b0&H1&H2&H3&H4&H5&H6). exists f, (ws ++ [w]), b0. rewrite E1, H1. split; [done|].
    split. { change (NoDup ((f :: ws) ++ [w])). apply NoDup_app. split; [done|]. split; [|apply NoDup_singleton]. intros x Hx ->%elem_of_list_singleton. by rewrite H1 in Hnin. }
    split; [congruence|]. split; [lia|]. split; [by apply voted_more|]. intros x [Hx| ->%elem_of_list_singleton]%elem_of_app.
    + destruct (H6 x Hx) as (b&?&?&?). exists b. split; [done|]. split; [done|]. by apply voted_more.
    + exists (s_now (after s0 acts)). split; [done|]. split; [lia|]. done.
Qed.

Lemma fact_enough_votes s0 acts a c n r m : genesis s0 -> Forall action_ok (acts ++ [a]) ->
  ~ approved (after s0 acts) c n r m -> approved (after s0 (acts ++ [a])) c n r m ->
  exists f ws b0 w, a = Extrinsic (Signed w) (C_vote_for_proposal c n r m) /\ NoDup (f :: ws) /\ w ∈ f :: ws /\
    vote_threshold (s_brg (after s0 acts)) <= nlen (f :: ws) /\
    voted_at s0 (acts ++ [a]) c n r m f b0 /\
    forall x, x ∈ ws -> exists b, b0 <= b /\ b < b0 + proposal_lifetime /\ voted_at s0 (acts ++ [a]) c n r m x b.
Proof.
  intros H0 Hacts Hn (p&Hp&Hst). destruct (voted_lists _ _ _ _ _ _ _ H0 Hacts Hp) as (f&ws&b0&H1&H2&H3&H4&H5&H6).
  unfold proposed in Hp. rewrite after_snoc in Hp. destruct (prop_step (after s0 acts) a c n r m) as [E|(w&Ea&Hd)].
  { contradiction Hn. exists p. rewrite E in Hp. done. }
  exists f, ws, b0, w. split; [done|]. split; [done|].
  pose proof (vote_ok _ _ _ _ _ _ _ (vote_dispatch _ _ _ _ _ _ _ Hd)) as (Hrel&_&q&Hq&Hap&Eb&_).
  assert (q = p) as ->. { rewrite Eb in Hp. cbn in Hp. rewrite lookup_insert in Hp. by injection Hp. }
  rewrite H1 in *. split; [|split; [by apply Hap|done]].
  destruct Hq as [(_&E1&_)|(p0&_&_&_&_&_&E1&_)]; rewrite E1; [set_solver|]. apply elem_of_app. right. by apply elem_of_list_singleton.
Qed.

(** Depositing an imbalance. *)
Lemma resolve_effect who amt b g : bsum b (g + amt) ->
  let b' := resolve_creating_b who amt b in
  bsum b' g /\
  (free b who <> 0 \/ ed <= amt -> (forall a, free b' a = free b a + at_acc who a amt) /\ issuance b' = issuance b) /\
  (free b who = 0 -> amt < ed -> (forall a, free b' a = free b a) /\ issuance b' + amt = issuance b).
Proof.
  intros Hb b'. split; [by apply resolve_bsum|]. subst b'. unfold resolve_creating_b.
  assert (Hed : forall v, free_m b !! who = Some v -> ed <= v) by (intros v Hv; destruct Hb as [Hb _]; by apply (Hb who)).
  pose proof (bsum_le b _ who Hb) as Hle. pose proof (bsum_max b _ who Hb) as Hmax. split.
  - intros Hor. assert (Hpre : free_m b !! who = None -> ed <= amt).
    { intros Hn. destruct Hor as [Hf|]; [|done]. contradiction Hf. unfold free. by rewrite Hn. }
    assert (Hm : free b who + amt <= u128_max) by lia.
    assert (H1 : forall a, free (snd (deposit_creating_b who amt b)) a = free b a + at_acc who a amt) by (intros a; by apply (deposit_free who amt b a)).
    destruct (deposit_free who amt b who Hpre Hm Hed) as [_ H2].
    assert (H3 : issuance (snd (deposit_creating_b who amt b)) = issuance b).
    { unfold deposit_creating_b. destruct (_ =? _); [done|]. destruct (_ && _); [done|]. destruct (_ <? _); [done|]. cbn. unfold set_free. rewrite (proj2 (N.ltb_ge _ _)); [done|].
      unfold free. destruct (free_m b !! who) as [v|]; cbn; [specialize (Hed v eq_refl)|specialize (Hpre eq_refl)]; lia. }
    destruct (deposit_creating_b who amt b) as [d b1]. cbn [fst snd] in *. subst d. split; [intros a; exact (H1 a)|]. unfold burn_b. st_cbn. lia.
  - intros Hz Hlt. assert (Hn : free_m b !! who = None).
    { destruct (free_m b !! who) as [v|] eqn:E; [|done]. specialize (Hed v eq_refl). unfold free in Hz. rewrite E in Hz. cbn in Hz. lia. }
    unfold deposit_creating_b. rewrite Hn. destruct (amt =? 0) eqn:E0.
    + apply N.eqb_eq in E0 as ->. split; [done|]. unfold burn_b. st_cbn. lia.
    + apply N.ltb_lt in Hlt. rewrite Hlt. cbn [andb]. split; [done|]. unfold burn_b. st_cbn. lia.
Qed.

(** The mint. *)
Lemma mint_effect r m b : bsum b 0 ->
  let b' := let (i, x) := issue_b m b in resolve_creating_b r i x in
  let i := N.min m (u128_max - issuance b) in
  (free b r <> 0 \/ ed <= i -> (forall a, free b' a = free b a + at_acc r a i) /\ issuance b' = issuance b + i) /\
  (free b r = 0 -> i < ed -> (forall a, free b' a = free b a) /\ issuance b' = issuance b).
Proof.
  intros Hb. cbv zeta. pose proof (issue_bsum m b 0 Hb) as Hb1. unfold issue_b in *. cbn [fst snd] in *.
  set (i := N.min m (u128_max - issuance b)) in *.
  destruct (resolve_effect r i _ 0 Hb1) as (_&H1&H2). unfold free in *. cbn in H1, H2. split; [exact H1|].
  intros E1 E2. destruct (H2 E1 E2) as [H3 H4]. split; [exact H3|]. lia.
Qed.
Lemma fact_mint_exact s w c n r m s' : reachable s -> dispatch (Signed w) (C_vote_for_proposal c n r m) s = (Ok tt, s') ->
  ~ approved s c n r m /\
  (~ approved s' c n r m -> s_bal s' = s_bal s) /\
  (approved s' c n r m ->
     (free (s_bal s) r <> 0 \/ ed <= m -> issuance (s_bal s) + m <= u128_max ->
        (forall a, free (s_bal s') a = free (s_bal s) a + at_acc r a m) /\ issuance (s_bal s') = issuance (s_bal s) + m) /\
     (free (s_bal s') r <= free (s_bal s) r + m /\ (forall a, a <> r -> free (s_bal s') a = free (s_bal s) a) /\
        issuance (s_bal s') + free (s_bal s) r = issuance (s_bal s) + free (s_bal s') r)).
Proof.
  intros Hs Hd. pose proof (reachable_binv s Hs) as Hb. unfold binv in Hb.
  split. { intros Ha. by apply (fact_finished_votes_fail s c n r m w s' (or_introl Ha)). }
  pose proof (vote_ok _ _ _ _ _ _ _ (vote_dispatch _ _ _ _ _ _ _ Hd)) as (_&_&q&_&_&Eb&_&Ebal).
  assert (Hq : votes (s_brg s') !! (c, (n, r, m)) = Some q) by (rewrite Eb; cbn; by rewrite lookup_insert).
  split.
  - intros Hna. rewrite Ebal. destruct (p_status q) eqn:E; [done|]. contradiction Hna. by exists q.
  - intros (q'&Hq'&Hst). unfold proposed in Hq'. rewrite Hq in Hq'. injection Hq' as <-. rewrite Hst in Ebal.
    destruct (mint_effect r m (s_bal s) Hb) as [H1 H2]. cbv zeta in H1, H2. rewrite <- Ebal in H1, H2. clear Ebal.
    set (i := N.min m (u128_max - issuance (s_bal s))) in *. assert (i <= m) by lia. split.
    + intros Hor Hmax. assert (i = m) as Ei by lia. rewrite Ei in *. by apply H1.
    + assert (free (s_bal s) r <> 0 \/ ed <= i \/ (free (s_bal s) r = 0 /\ i < ed)) as [Hc|[Hc|[Hc1 Hc2]]] by lia.
      1, 2: destruct H1 as [H1 H3]; [by auto|]; split; [rewrite H1; unfold at_acc; rewrite decide_True by done; lia|];
        split; [intros a Ha; rewrite H1; unfold at_acc; rewrite decide_False by done; lia|]; rewrite H1, H3; unfold at_acc; rewrite decide_True by done; lia.
      destruct (H2 Hc1 Hc2) as [H3 H4]. rewrite !H3. split; [lia|]. split; [done|]. lia.
Qed.
Lemma fact_once s a s' b c n r m : reachable s -> action_ok a -> mints s a c n r m -> later (step s a) s' -> ~ mints s' b c n r m.
Proof.
  intros Hs Ha (w&s1&->&Hd&Hb) Hl (w2&s2&->&Hd2&_).
  destruct (fact_mint_exact s w c n r m s1 Hs Hd) as (_&Hna&_).
  assert (Es : step s (Extrinsic (Signed w) (C_vote_for_proposal c n r m)) = s1) by (cbn [step]; by rewrite Hd). rewrite Es in Hl.
  pose proof (vote_ok _ _ _ _ _ _ _ (vote_dispatch _ _ _ _ _ _ _ Hd)) as (_&_&q&_&_&Eb&_&Ebal).
  assert (Hq : votes (s_brg s1) !! (c, (n, r, m)) = Some q) by (rewrite Eb; cbn; by rewrite lookup_insert).
  assert (p_status q = Approved) as Hst by (by destruct (p_status q)).
  pose proof (fact_final s1 s' c n r m q Hq Hst Hl) as Hq'.
  apply (fact_finished_votes_fail s' c n r m w2 s2); [|done]. left. by exists q.
Qed.

(** *** C63 *)
Lemma approved_by s0 acts c n r m p : genesis s0 -> proposed (after s0 acts) c n r m p -> p_status p = Approved ->
  exists l1 l2, acts = l1 ++ l2 /\ vote_threshold (s_brg (after s0 l1)) <= nlen (p_votes p).
Proof.
  intros H0. revert p. induction acts as [|a acts IH] using rev_ind; intros p Hp Hst; unfold proposed in *.
  { unfold after in Hp. cbn in Hp. rewrite (genesis_brg _ H0) in Hp. by rewrite lookup_empty in Hp. }
  rewrite after_snoc in Hp. destruct (prop_step (after s0 acts) a c n r m) as [E|(w&Ea&Hd)].
  - rewrite E in Hp. destruct (IH p Hp Hst) as (l1&l2&->&H). exists l1, (l2 ++ [a]). by rewrite app_assoc.
  - pose proof (vote_ok _ _ _ _ _ _ _ (vote_dispatch _ _ _ _ _ _ _ Hd)) as (_&_&q&_&Hap&Eb&_).
    assert (q = p) as ->. { rewrite Eb in Hp. cbn in Hp. rewrite lookup_insert in Hp. by injection Hp. }
    exists acts, [a]. split; [done|]. by apply Hap.
Qed.
Lemma fact_double_vote s0 acts c n r1 m1 r2 m2 (U : list N) t : genesis s0 -> Forall action_ok acts ->
  (forall l1 l2, acts = l1 ++ l2 -> t <= vote_threshold (s_brg (after s0 l1)) /\ forall w, w ∈ relayers (s_brg (after s0 l1)) -> w ∈ U) ->
  nlen U < 2 * t ->
  approved (after s0 acts) c n r1 m1 -> approved (after s0 acts) c n r2 m2 ->
  exists w b1 b2, voted_at s0 acts c n r1 m1 w b1 /\ voted_at s0 acts c n r2 m2 w b2.
Proof.
  intros H0 Hacts HU Ht A1 A2.
  assert (Hap : forall r m, approved (after s0 acts) c n r m -> exists l, NoDup l /\ t <= nlen l /\ forall w, w ∈ l -> w ∈ U /\ exists b, voted_at s0 acts c n r m w b).
  { intros r m (p&Hp&Hst). exists (p_votes p). destruct (voted_lists _ _ _ _ _ _ _ H0 Hacts Hp) as (f&ws&b0&H1&H2&_&_&H5&H6).
    destruct (approved_by _ _ _ _ _ _ _ H0 Hp Hst) as (l1&l2&El&Hl). split; [by rewrite H1|]. split; [destruct (HU l1 l2 El); lia|].
    assert (Hin : forall w b, voted_at s0 acts c n r m w b -> w ∈ U).
    { intros w b (k1&k2&s'&Ek&_&Hr&_). by apply (HU k1 _ Ek). }
    rewrite H1. intros w [->|Hw]%elem_of_cons; [eauto|]. destruct (H6 w Hw) as (b&_&_&Hb). eauto. }
  destruct (Hap r1 m1 A1) as (l1&N1&T1&V1). destruct (Hap r2 m2 A2) as (l2&N2&T2&V2). clear Hap.
  destruct (decide (Exists (fun w => w ∈ l2) l1)) as [Hex|Hno].
  - apply Exists_exists in Hex as (w&W1&W2). destruct (V1 w W1) as (_&b1&?). destruct (V2 w W2) as (_&b2&?). by exists w, b1, b2.
  - exfalso. assert (Hd : NoDup (l1 ++ l2)).
    { apply NoDup_app. split; [done|]. split; [|done]. intros w W1 W2. apply Hno, Exists_exists. eauto. }
    assert (length (l1 ++ l2) <= length U)%nat as Hlen.
    { apply submseteq_length, NoDup_submseteq; [done|]. intros w [W|W]%elem_of_app; [by apply V1|by apply V2]. }
    rewrite app_length in Hlen. unfold nlen in *. lia.
Qed.

(** *** C65 *)
Lemma deposit_ok w m rc c s s' : deposit w m rc c s = (Ok tt, s') ->
  exists cur b1 b2, nonces (s_brg s) !! c = Some cur /\
    s_brg s' = s_brg s <| nonces ::= <[c := (cur + 1) mod (u64_max + 1)]> |> /\
    s_events s' = Ev_DepositMade c ((cur + 1) mod (u64_max + 1)) m rc :: s_events s /\
    pay_fee_b w (bridge_fee (s_brg s)) (s_bal s) = Ok b1 /\ withdraw_b w m false b1 = Ok b2 /\ s_bal s' = burn_b m b2.
Proof.
  intros H. unfold deposit in H. minv H. subst s'. st_cbn. st_cbn_in T0. cbn [default].
  destruct (withdraw_b w m false b) as [b2|] eqn:Ew; [|done]. injection T0 as <-. exists n, b, b2. done.
Qed.
Lemma nonce_step s a c cur : nonces (s_brg s) !! c = Some cur -> cur <= u64_max ->
  exists cur', nonces (s_brg (step s a)) !! c = Some cur' /\ (cur <= cur' \/ cur = u64_max).
Proof.
  intros Hc Hmax. destruct (brg_steps s a) as [o cc s1 Hr Hpal Hm He [l Hl] _|E _]; [|exists cur; rewrite E; auto using N.le_refl].
  destruct cc; try discriminate Hpal; cbn [exec_call] in He; unfold signed, external in He; rewrite Hl; cbn.
  all: try (destruct (external_ok o); [|done]).
  - unfold set_threshold in He. minv He. subst s1. cbn. exists cur. auto using N.le_refl.
  - unfold add_chain in He. minv He. subst s1. st_cbn. destruct (decide (chain = c)) as [->|]; [congruence|].
    rewrite lookup_insert_ne by done. exists cur. auto using N.le_refl.
  - unfold set_relayers in He. minv He. subst s1. cbn. exists cur. auto using N.le_refl.
  - unfold set_deposit_nonce in He. minv He. subst s1. st_cbn. destruct (decide (chain = c)) as [->|].
    + rewrite lookup_insert. exists nonce. split; [done|]. rewrite Hc in *. left. simplify_eq. lia.
    + rewrite lookup_insert_ne by done. exists cur. auto using N.le_refl.
  - destruct o as [|w|]; try done. apply vote_ok in He as (_&_&p&_&_&Eb&_). rewrite Eb. cbn. exists cur. auto using N.le_refl.
  - destruct o as [|w|]; try done. apply deposit_ok in He as (cur0&b1&b2&H1&H2&_). rewrite H2. cbn. destruct (decide (chain = c)) as [->|].
    + rewrite lookup_insert. eexists. split; [done|]. simplify_eq. destruct (decide (cur = u64_max)) as [->|]; [by right|left].
      rewrite N.mod_small by lia. lia.
    + rewrite lookup_insert_ne by done. exists cur. auto using N.le_refl.
  - unfold set_bridge_fee in He. minv He. subst s1. cbn. exists cur. auto using N.le_refl.
Qed.
Definition nonce_fit (s : state) : Prop := forall c cur, nonces (s_brg s) !! c = Some cur -> cur <= u64_max.
Lemma sreach_nonce s : sreach s -> nonce_fit s.
Proof.
  induction 1 as [s Hs|s o c s' Hs IH Ha Hw Hm He|s ev Hs IH|s Hs IH|s h Hs IH|s e s' Hs IH Ha He].
  - destruct Hs as (now&era&bal&lk&->&_). intros c cur. cbn. by rewrite lookup_empty.
  - unfold nonce_fit in *. pose proof (call_kept _ _ _ _ Hm He) as Hk. unfold kept in Hk.
    destruct c; try discriminate Hm; cbn [pallet_of] in Hk; try (destruct_and! Hk; by match goal with H : s_brg _ = s_brg _ |- _ => rewrite H end).
    all: clear Hk Hm; cbn [exec_call] in He; unfold signed, external in He; try (destruct (external_ok o); [|done]).
    + unfold set_threshold in He. minv He. by subst s'.
    + unfold add_chain in He. minv He. subst s'. st_cbn. intros c cur [[<- <-]|[_ ?]]%lookup_insert_Some; [lia|eauto].
    + unfold set_relayers in He. minv He. by subst s'.
    + unfold set_deposit_nonce in He. minv He. subst s'. st_cbn. intros c cur1 [[<- <-]|[_ ?]]%lookup_insert_Some; [|eauto].
      cbn [wf_call] in Hw. apply andb_true_iff in Hw as [_ Hw]. unfold fits in Hw. by apply N.leb_le in Hw.
    + destruct o as [|w|]; try done. apply vote_ok in He as (_&_&p&_&_&Eb&_). by rewrite Eb.
    + destruct o as [|w|]; try done. apply deposit_ok in He as (cur0&b1&b2&H1&H2&_). rewrite H2. cbn.
      intros c cur [[<- <-]|[_ ?]]%lookup_insert_Some; [|eauto]. pose proof (N.mod_lt (cur0 + 1) (u64_max + 1)). lia.
    + unfold set_bridge_fee in He. minv He. by subst s'.
  - done.
  - done.
  - pose proof (hook_kept h s) as Hk. unfold kept, nonce_fit in *. destruct h; cbn [hook_pallet] in Hk; destruct_and! Hk; by match goal with H : s_brg _ = s_brg _ |- _ => rewrite H end.
  - apply env_kept in He. unfold env_kept_from, nonce_fit in *. destruct_and! He. by match goal with H : s_brg _ = s_brg _ |- _ => rewrite H end.
Qed.
Lemma fact_nonces s w1 m1 rc1 c n1 s1 acts w2 m2 rc2 n2 s2 : reachable s -> w1 ∉ pots -> Forall action_ok acts ->
  deposits s w1 m1 rc1 c n1 s1 -> deposits (after s1 acts) w2 m2 rc2 c n2 s2 ->
  n1 < n2 \/ exists l1 l2, acts = l1 ++ l2 /\ exhausted (after s1 l1) c.
Proof.
  intros Hs Hw Hacts (Hd1&ev1&He1) (Hd2&ev2&He2).
  assert (Hr1 : reachable s1). { replace s1 with (step s (Extrinsic (Signed w1) (C_deposit m1 rc1 c))) by (cbn [step]; by rewrite Hd1). by apply reach_step. }
  apply dispatch_ok in Hd1 as [_ Hd1]. apply dispatch_ok in Hd2 as [_ Hd2]. cbn [exec_call signed] in Hd1, Hd2.
  apply deposit_ok in Hd1 as (cur1&b1&b1'&_&Eb1&Ev1&_). apply deposit_ok in Hd2 as (cur2&b2&b2'&Hc2&_&Ev2&_).
  rewrite Ev1 in He1. rewrite Ev2 in He2. injection He1 as E1 _. injection He2 as E2 _.
  assert (Hn1 : nonces (s_brg s1) !! c = Some n1) by (rewrite Eb1; cbn; by rewrite lookup_insert, E1).
  clear Eb1 Ev1 Ev2 E1.
  assert (H : forall l l', acts = l ++ l' -> (exists l1 l2, acts = l1 ++ l2 /\ exhausted (after s1 l1) c) \/ exists cur, nonces (s_brg (after s1 l)) !! c = Some cur /\ n1 <= cur).
  { induction l as [|a l IH] using rev_ind; intros l' E.
    - right. exists n1. split; [done|lia].
    - rewrite <- app_assoc in E. destruct (IH _ E) as [?|(cur&Hcur&Hle)]; [by left|]. rewrite after_snoc.
      assert (Hr : reachable (after s1 l)). { apply after_reachable; [done|]. rewrite E in Hacts. by apply Forall_app in Hacts as [? _]. }
      destruct (nonce_step _ a c cur Hcur) as (cur'&Hcur'&[Hmon|Hx]).
      + by apply (sreach_nonce _ (reachable_sreach _ Hr) c).
      + right. exists cur'. split; [done|lia].
      + left. exists l, (a :: l'). split; [done|]. unfold exhausted. by rewrite Hcur, Hx. }
  destruct (H acts [] (eq_sym (app_nil_r acts))) as [?|(cur&Hcur&Hle)]; [by right|]. rewrite Hcur in Hc2. injection Hc2 as <-.
  assert (Hr : reachable (after s1 acts)) by (by apply after_reachable).
  pose proof (sreach_nonce _ (reachable_sreach _ Hr) c cur Hcur) as Hmax. destruct (decide (cur = u64_max)) as [->|Hne].
  - right. exists acts, []. by rewrite app_nil_r.
  - left. rewrite N.mod_small in E2 by lia. lia.
Qed.

(** *** C64 *)
Lemma withdraw_effect who amt keep b b' g : bsum b g -> withdraw_b who amt keep b = Ok b' ->
  amt <= free b who /\
  exists dust, (dust = 0 \/ (keep = false /\ dust < ed /\ free b' who = 0)) /\
    (forall a, free b' a + at_acc who a (amt + dust) = free b a) /\ issuance b' + dust = issuance b.
Proof.
  intros Hb H. pose proof (bsum_le b g who Hb) as Hle. unfold withdraw_b in H. destruct (amt =? 0) eqn:E0.
  { apply N.eqb_eq in E0 as ->. injection H as <-. split; [lia|]. exists 0. split; [by left|]. split; [|lia]. intros a. unfold at_acc. destruct (decide _); lia. }
  apply N.eqb_neq in E0. destruct (free b who <? amt) eqn:E1; [done|]. apply N.ltb_ge in E1. cbv zeta in H.
  destruct (keep && (free b who - amt <? ed) && (ed <=? free b who)) eqn:E2; [done|].
  destruct (_ <? frozen _ _); [done|]. destruct (has_lock _ _ && _); [done|]. injection H as <-. split; [done|].
  assert (E5 : ed <= free b who) by (destruct (bsum_ed b g who Hb); [lia|done]). apply N.leb_le in E5. rewrite E5, andb_true_r in E2.
  destruct (free b who - amt <? ed) eqn:E4.
  - rewrite andb_true_r in E2. subst keep. apply N.ltb_lt in E4 as E4'. exists (free b who - amt). split.
    + right. split; [done|]. split; [lia|]. by rewrite free_set_free, decide_True, E4.
    + split; [|unfold set_free; rewrite E4; st_cbn; lia]. intros a. rewrite free_set_free, E4. unfold at_acc. destruct (decide (a = who)) as [->|]; lia.
  - exists 0. split; [by left|]. split; [|unfold set_free; rewrite E4; st_cbn; lia]. intros a. rewrite free_set_free, E4. unfold at_acc. destruct (decide (a = who)) as [->|]; lia.
Qed.
Lemma pay_fee_exact who amt b b' : bsum b 0 -> pay_fee_b who amt b = Ok b' ->
  bsum b' 0 /\ amt <= free b who /\ exists got, (got = amt \/ got = 0) /\
    (forall k, fees_collector = Some k -> free b k <> 0 \/ ed <= amt -> got = amt) /\ (fees_collector = None -> got = 0) /\
    (forall a, free b' a + at_acc who a amt = free b a + (if decide (fees_collector = Some a) then got else 0)) /\
    issuance b' + amt = issuance b + got.
Proof.
  intros Hb H. split; [by eapply pay_fee_bsum|]. unfold pay_fee_b in H. destruct (withdraw_b who amt true b) as [b1|] eqn:Ew; [|done]. injection H as <-.
  pose proof (withdraw_bsum _ _ _ _ _ _ Hb Ew) as Hb1. destruct (withdraw_effect _ _ _ _ _ _ Hb Ew) as (Hle&dust&Hdu&Hf&Hi). split; [done|].
  destruct Hdu as [->|[? _]]; [|done]. rewrite N.add_0_r in Hf, Hi. pose proof (bsum_le b1 _ who Hb1) as Hle1. unfold collect_b. destruct fees_collector as [k|].
  - destruct (resolve_effect k amt b1 0 Hb1) as (_&H1&H2).
    assert (free b1 k <> 0 \/ ed <= amt \/ (free b1 k = 0 /\ amt < ed)) as [Hc|[Hc|[Hc1 Hc2]]] by lia.
    1, 2: destruct H1 as [H1 H3]; [by auto|]; exists amt; split; [by left|]; split; [done|]; split; [done|]; split; [|lia];
      intros a; rewrite H1, <- (Hf a); unfold at_acc at 1; destruct (decide (Some k = Some a)) as [[= ->]|Hne];
        [rewrite decide_True by done; lia|rewrite decide_False by congruence; lia].
    destruct (H2 Hc1 Hc2) as [H3 H4]. exists 0. split; [by right|]. split.
    + intros k0 [= <-] [Hk|]; [|lia]. specialize (Hf k). rewrite Hc1 in Hf. unfold at_acc in Hf. destruct (decide (k = who)) as [->|]; [|lia]. 
      destruct (bsum_ed b 0 who Hb); lia.
    + split; [done|]. split; [|lia]. intros a. rewrite H3, <- (Hf a). destruct (decide _); lia.
  - exists 0. split; [by right|]. split; [done|]. split; [done|]. split; [intros a; rewrite <- (Hf a); rewrite decide_False by done; unfold burn_b, free; cbn; lia|].
    unfold burn_b. st_cbn. lia.
Qed.
Lemma fact_deposit s w m rc c s' : reachable s -> dispatch (Signed w) (C_deposit m rc c) s = (Ok tt, s') ->
  let f := bridge_fee (s_brg s) in
  (fees_collector <> Some w -> f + m <= free (s_bal s) w) /\
  exists got dust, (got = f \/ got = 0) /\
    (forall k, fees_collector = Some k -> free (s_bal s) k <> 0 \/ ed <= f -> got = f) /\ (fees_collector = None -> got = 0) /\
    (dust = 0 \/ (dust < ed /\ free (s_bal s') w = 0)) /\
    (forall a, free (s_bal s') a + at_acc w a (f + m + dust) = free (s_bal s) a + (if decide (fees_collector = Some a) then got else 0)) /\
    issuance (s_bal s') + f + m + dust = issuance (s_bal s) + got.
Proof.
  intros Hs Hd f. apply dispatch_ok in Hd as [_ Hd]. cbn [exec_call signed] in Hd.
  pose proof Hd as Hd0. apply deposit_ok in Hd as (cur&b1&b2&_&_&_&Hp&Hw&Hb'). pose proof (reachable_binv s Hs) as Hb. unfold binv in Hb.
  destruct (pay_fee_exact _ _ _ _ Hb Hp) as (Hb1&Hle&got&Hg&Hgk&Hgn&Hf&Hi). destruct (withdraw_effect _ _ _ _ _ _ Hb1 Hw) as (Hle2&dust&Hdu&Hf2&Hi2).
  assert (Hle3 : m + dust <= issuance b2 + m + dust) by lia. pose proof (bsum_le b2 _ w (withdraw_bsum _ _ _ _ _ _ Hb1 Hw)) as Hle4. fold f in Hp, Hle, Hg, Hgk, Hf, Hi. split.
  - intros Hnw. pose proof (Hf w) as Hfw. unfold at_acc in Hfw. rewrite decide_True, decide_False in Hfw by done. lia.
  - exists got, dust. split; [done|]. split; [done|]. split; [done|]. rewrite Hb'. split; [destruct Hdu as [?|(_&?&?)]; [by left|by right]|]. split.
    + intros a. change (free (burn_b m b2) a) with (free b2 a). specialize (Hf a). specialize (Hf2 a). unfold at_acc in *. destruct (decide (a = w)) as [->|]; lia.
    + unfold burn_b. st_cbn. lia.
Qed.
End facts.
