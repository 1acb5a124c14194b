(** Why calls of pallet transmission-protocols are refused. *)
From Verif Require Export ErrCalc RuleTrans.
Local Open Scope N_scope.

Section errs.
Context {C : Config}.
Implicit Types (s : state).

Lemma locked_nft s i d : nfts (s_nft s) !! i = Some d -> soulbound_locked d = true -> nft_is s i bound_to_owner.
Proof. intros Hd Hl%soulbound_locked_iff. by exists d. Qed.
Lemma not_under s i d : inv1 s -> nfts (s_nft s) !! i = Some d -> is_transmission (nstate d) = false -> forall t, ~ under s i t.
Proof. intros H1 Hd Hf t Ht. destruct (trans_nft s i t H1 Ht) as (d'&Hd'&?). congruence. Qed.
Lemma trans_there s i d : inv1 s -> nfts (s_nft s) !! i = Some d -> is_transmission (nstate d) = true -> exists t, under s i t.
Proof.
  intros H1 Hd Hf. pose proof (i_view s H1 i) as Hv. unfold view_ok in Hv. rewrite Hd in Hv. unfold under.
  destruct (transs (s_trans s) !! i) as [t|] eqn:Et; [eauto|]. pose proof (v_trans _ _ _ _ _ _ _ _ _ _ _ _ _ Hv) as Hx. cbn in Hx. congruence.
Qed.

Lemma fact_trans_err s w c e s' : 0 < ed -> reachable s -> wf_call c = true -> is_trans_call c ->
  dispatch (Signed w) c s = (Err e, s') -> justified e (trans_table s w c).
Proof.
  intros Hed Hs Hw Hc H. pose proof (reachable_binv s Hs) as Hb. pose proof (reachable_inv1 s Hs) as H1.
  pose proof (to_q _ _ (reachable_tinv s Hs)) as [_ Hnd]. apply err_dispatch in H as [_ [s1 H]]; [|done].
  destruct c; try done; cbn [exec_call signed root] in H; try (injection H as <- <-; by because); cbn [trans_table].
  - unfold set_transmission_protocol in H. estep H. apply err_bind in H as [H|([]&s2&H2&H)].
    { destruct c; try done. apply err_end in H. einv H. because. by eexists. }
    assert (s2 = s) as -> by (destruct c; by minv H2). clear H2.
    estep H. estep H; [say|]. estep H; [say|]. estep H; [because; congruence|]. do 3 (estep H; [say|]).
    estep H; [because; by eapply locked_nft|]. do 3 (estep H; [say|]).
    apply err_bind in H as [H|([]&s2&H2&H)].
    { rewrite block_of_is in H. destruct (block_of p) as [b|]; [|done]. cbn [on_some] in H. einv H; because; by exists b. }
    assert (s2 = s) as -> by (destruct (end_block p); by minv H2). clear H2.
    apply err_bind in H as [H|([]&s2&H2&H)].
    { destruct (consent_data p) as [[l k]|] eqn:Ea; [|done]. apply asks_iff in Ea. cbn [on_some fst snd] in H. einv H.
      - because. exists l, k. split; [done|]. rewrite <- no_dup_NoDup. congruence.
      - because. exists l. replace 0 with k by lia. done.
      - because. by exists l, k.
      - because. by exists l, k. }
    assert (s2 = s) as -> by (destruct (consent_data p); by minv H2). clear H2.
    estep H. apply err_bind in H as [H|(q&s2&H2&H)].
    { destruct (block_to_queue p) as [b|] eqn:Eb; [|done]. apply timed_iff in Eb. unfold q_insert in H.
      estep H; [because; split; [by exists b|lia]|]. rewrite (proj2 (N.ltb_lt _ _)) in H by lia. done. }
    assert (s2 = s) as -> by (destruct (block_to_queue p); by minv H2). clear H2.
    estep H. rewrite fee_for_is in H. estep H; [|einv H]. apply fee_poor in T as [? ?]; [|done|done]. by apply justified_app_r, poor_intro.
  - unfold remove_transmission_protocol in H. do 2 estep H. estep H; [say|]. estep H; [say|].
    estep H; [because; by eapply not_under|]. destruct (trans_there s id x H1 U E0) as [t Ht]. unfold under in Ht. estep H.
    rewrite Ht in H. estep H; [done|]. injection U0 as <-.
    estep H; [because; exists t; split; [done|]; intros Hm%may_cancel_iff; congruence|].
    estep H. destruct (kind_of_protocol _); einv H.
  - unfold reset_timer in H. do 2 estep H. estep H; [say|]. estep H; [say|].
    estep H; [because; by eapply not_under|]. destruct (trans_there s id x H1 U E0) as [t Ht]. unfold under in Ht. estep H.
    rewrite Ht in H. estep H; [done|]. injection U0 as <-.
    estep H; [because; exists t; split; [done|]; intros b0 Eb; by rewrite Eb in *|].
    do 2 (estep H; [because; lia|]). einv H.
  - unfold add_consent in H. do 2 estep H. estep H; [say|].
    estep H; [because; by eapply not_under|]. destruct (trans_there s id x H1 U E) as [t Ht]. unfold under in Ht. estep H.
    rewrite Ht in H. estep H; [done|]. injection U0 as <-. estep H.
    estep H; [because; exists t; split; [done|]; intros l k Ha%asks_iff; congruence|]. destruct x0 as [l k]. cbn [fst snd] in H.
    apply err_bind in H as [H|([]&s2&H2&H)].
    { destruct (t_protocol t) as [| | |l0 k0 b0] eqn:Ep; try done. cbn [kind_of_protocol] in H. apply err_end in H. estep H; [|done].
      because. exists t, l0, k0, b0. eexists. split_and!; [done|done|]. by apply (q_get_elem _ _ _ Hnd). }
    assert (s2 = s) as -> by (destruct (t_protocol t); by minv H2). clear H2.
    estep H; [because; exists t, l, k; split_and!; [done|by apply asks_iff|]; rewrite <- memN_iff; congruence|].
    estep H. cbv zeta in H. estep H; [because; unfold consents_of; apply memN_iff; by destruct (memN w _)|]. estep H; [because; done|].
    destruct (nlen _ <? k) eqn:Ek in H; [einv H|]. apply N.ltb_ge in Ek. rewrite nlen_app in Ek. cbn in Ek.
    destruct (trans_nft s id t H1 Ht) as (d'&Hd'&_).
    apply err_bind in H as [H|(im&s2&H2&H)].
    { rewrite block_of_is in H. destruct (t_protocol t) as [| | |l0 k0 b0] eqn:Ep; try done. cbn [block_of] in H. injection U0 as <- <-.
      destruct (b0 <=? s_now s) eqn:Eb; [done|]. apply N.leb_gt in Eb. unfold q_insert in H. estep H.
      - because. exists t, l0, k0, b0. unfold consents_of, nlen in *. split_and!; try done; cbn in *; lia.
      - rewrite (proj2 (N.ltb_lt _ _)) in H by lia. einv H; done. }
    assert (exists q, s2 = s <| s_trans ::= (fun x => x <| t_queue := q |>) |>) as [q ->].
    { destruct (end_block (t_protocol t)) as [b|]; [destruct (b <=? s_now s)|]; minv H2; try (by eexists).
      all: exists (t_queue (s_trans s)); by destruct s as [??????? [] ????]. }
    clear H2. estep H. destruct im; cbn [when] in H; [|einv H].
    unfold transmit_nft in H. einv H; st_cbn_in U1; try st_cbn_in U2; congruence.
Qed.

Lemma fact_trans_refused s w c e : 0 < ed -> reachable s -> wf_call c = true -> is_trans_call c ->
  justified e (trans_table s w c) -> exists e', dispatch (Signed w) c s = (Err e', s).
Proof.
  intros Hed Hs Hw Hc H. destruct (dispatch_cases (Signed w) c s) as [(s'&_&_&Hd)|[e' Hd]]; [|by exists e'].
  exfalso. assert (trans_rule s w c) as Hr by (apply fact_trans_rule; eauto). clear Hd. pose proof (reachable_inv1 s Hs) as H1.
  assert (forall i (P Q : nft_data -> Prop) , with_nft s w i P -> nft_is s i Q -> exists d, owner d = w /\ P d /\ Q d) as Hni.
  { intros i P Q (d&Hd&Ho&HP) (d'&Hd'&HQ). exists d. by assert (d' = d) as -> by congruence. }
  assert (forall i P, with_nft s w i P -> no_nft s i -> False) as Hnn by (unfold no_nft; intros i P (d&Hd&_); congruence).
  assert (forall i t t', under s i t -> under s i t' -> t' = t) as Hun by (unfold under; congruence).
  assert (forall p l k l' k', asks p l k -> asks p l' k' -> l' = l /\ k' = k) as Has.
  { intros p l k l' k' A%asks_iff B%asks_iff. rewrite A in B. by injection B as <- <-. }
  destruct c; try done; cbn [trans_table trans_rule] in H, Hr.
  - destruct Hr as (Hn&Hcn&Hbl&Ha&Ht&Hf). apply justified_app in H as [H|H]; [|by apply poor_spec in H].
    destruct H as (P&H&HP). each_line H; try (destruct (Hni _ _ _ Hn HP) as (d&?&(?&(?&?&?&?&?&?)&?)&?); cbv beta in *; first [done|congruence]).
    + destruct HP as (b&->&Hle). specialize (Hcn b eq_refl). lia.
    + eauto.
    + destruct Hn as (d&_&_&Hx&_). done.
    + destruct HP as (b&Eb&Hle). destruct (Hbl _ Eb). lia.
    + destruct HP as (b&Eb&Hle). destruct (Hbl _ Eb). lia.
    + destruct HP as (l&k&Hlk&HP). destruct (Ha _ _ Hlk). done.
    + destruct HP as (l&Hlk). destruct (Ha _ _ Hlk). lia.
    + destruct HP as (l&k&Hlk&HP). destruct (Ha _ _ Hlk). lia.
    + destruct HP as (l&k&Hlk&HP). destruct (Ha _ _ Hlk). lia.
    + destruct HP as [[b Hb] HP]. specialize (Ht _ Hb). lia.
  - destruct H as (P&H&HP). each_line H.
    + eauto.
    + destruct (Hni _ _ _ Hr HP) as (d&?&_&?). done.
    + destruct Hr as (d&_&_&t&Hu&_). by eapply HP.
    + destruct Hr as (d&_&_&t&Hu&Hm), HP as (t'&Hu'&HP). by rewrite (Hun _ _ _ Hu Hu') in HP.
  - destruct Hr as [Hr [L1 L2]]. destruct H as (P&H&HP). each_line H.
    + eauto.
    + destruct (Hni _ _ _ Hr HP) as (d&?&_&?). done.
    + destruct Hr as (d&_&_&t&b0&Hu&_). by eapply HP.
    + destruct Hr as (d&_&_&t&b0&Hu&Hm), HP as (t'&Hu'&HP). rewrite (Hun _ _ _ Hu Hu') in HP. by eapply HP.
    + lia.
    + lia.
  - destruct Hr as (t&l&k&Hu&Ha&Hin&Hnin&Hlim&Hq&Hroom). destruct H as (P&H&HP). each_line H.
    + unfold no_nft in HP. destruct (trans_nft s _ t H1 Hu) as (d&Hd&_). congruence.
    + by eapply HP.
    + destruct HP as (t'&Hu'&HP). rewrite (Hun _ _ _ Hu Hu') in HP. by eapply HP.
    + destruct HP as (t'&l'&k'&b&b'&Hu'&Ep&Hw'). rewrite (Hun _ _ _ Hu Hu') in Ep. eapply Hq; [by rewrite Ep|done].
    + destruct HP as (t'&l'&k'&Hu'&Ha'&HP). rewrite (Hun _ _ _ Hu Hu') in Ha'. destruct (Has _ _ _ _ _ Ha Ha') as [-> _]. done.
    + done.
    + lia.
    + destruct HP as (t'&l'&k'&b&Hu'&Ep&L1&L2&L3). rewrite (Hun _ _ _ Hu Hu') in Ep.
      assert (asks (t_protocol t) l' k') as Ha' by (apply asks_iff; by rewrite Ep). destruct (Has _ _ _ _ _ Ha Ha') as [_ ->].
      assert (nlen (t_queue (s_trans s)) < trans_limit); [|lia]. eapply Hroom; [by rewrite Ep|done|done].
Qed.
End errs.
