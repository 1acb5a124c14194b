(** Soulbound NFTs: who can hold an engagement on them, and how they move. *)
From Verif Require Export NftHook.
Local Open Scope N_scope.

Section soul.
Context {C : Config}.

Definition soul_nft (d : nft_data) : Prop :=
  is_soulbound (nstate d) = true -> is_rented (nstate d) = false /\
    (is_listed (nstate d) = true \/ is_transmission (nstate d) = true -> creator d = owner d).
Definition soul_step (d d' : nft_data) : Prop :=
  soul_nft d' /\ (owner d' = owner d \/ is_soulbound (nstate d) = false \/ creator d = owner d).

Definition soul_effect (s s' : state) : Prop :=
  forall i d', nfts (s_nft s') !! i = Some d' ->
    match nfts (s_nft s) !! i with Some d => soul_step d d' | None => soul_nft d' end.

Record sinv (s : state) : Prop := {
  so_nft : forall i d, nfts (s_nft s) !! i = Some d -> soul_nft d;
  so_dep : forall id k i d, contracts (s_rent s) !! id = Some k -> secures k i -> nfts (s_nft s) !! i = Some d ->
    is_soulbound (nstate d) = false
}.

Lemma soul_refl d : soul_nft d -> soul_step d d.
Proof. intros H. split; [done|by left]. Qed.

Lemma soul_same s s' : sinv s -> nfts (s_nft s') = nfts (s_nft s) -> soul_effect s s'.
Proof. intros HS E i d' Hd. rewrite E in Hd. rewrite Hd. apply soul_refl. by eapply (so_nft s HS). Qed.

Lemma soul_one s s' i d d' : sinv s -> nfts (s_nft s) !! i = Some d ->
  nfts (s_nft s') = <[i := d']> (nfts (s_nft s)) -> (soul_nft d -> soul_step d d') -> soul_effect s s'.
Proof.
  intros HS Hd E H j x Hx. rewrite E in Hx. destruct (decide (j = i)) as [->|].
  - rewrite lookup_insert in Hx. injection Hx as <-. rewrite Hd. apply H. by eapply (so_nft s HS).
  - rewrite lookup_insert_ne in Hx by done. rewrite Hx. apply soul_refl. by eapply (so_nft s HS).
Qed.
Lemma soul_new s s' i d' : sinv s -> nfts (s_nft s) !! i = None -> soul_nft d' ->
  nfts (s_nft s') = <[i := d']> (nfts (s_nft s)) -> soul_effect s s'.
Proof.
  intros HS Hd H E j x Hx. rewrite E in Hx. destruct (decide (j = i)) as [->|].
  - rewrite lookup_insert in Hx. injection Hx as <-. by rewrite Hd.
  - rewrite lookup_insert_ne in Hx by done. rewrite Hx. apply soul_refl. by eapply (so_nft s HS).
Qed.
Lemma soul_del s s' i : sinv s -> nfts (s_nft s') = delete i (nfts (s_nft s)) -> soul_effect s s'.
Proof.
  intros HS E j x Hx. rewrite E in Hx. apply lookup_delete_Some in Hx as [_ Hx]. rewrite Hx.
  apply soul_refl. by eapply (so_nft s HS).
Qed.

Lemma unlocked d : soulbound_locked d = false -> is_soulbound (nstate d) = true -> creator d = owner d.
Proof.
  unfold soulbound_locked. intros H E. rewrite E in H. cbn in H. apply negb_false_iff, N.eqb_eq in H. done.
Qed.

Lemma listed_alone s i d : inv1 s -> nfts (s_nft s) !! i = Some d -> is_listed (nstate d) = true ->
  is_transmission (nstate d) = false.
Proof.
  intros HI Hd Hl. pose proof (i_view s HI i) as Hv. unfold view_ok in Hv. rewrite Hd in Hv. destruct Hv.
  unfold engagements in v_one. rewrite Hl in v_one. destruct (is_transmission (nstate d)); [|done].
  clear - v_one; cbn in v_one; lia.
Qed.
End soul.

Ltac soul i d :=
  eapply (soul_one _ _ i d); [assumption|eassumption|st_cbn; reflexivity|];
  let Hs := fresh "Hs" in intros Hs; unfold soul_step, soul_nft in *; st_cbn;
  let K := fresh "K" in
  assert (K : is_soulbound (nstate d) = true -> soulbound_locked d = false -> creator d = owner d)
    by (intros; by apply unlocked);
  destruct (is_soulbound (nstate d)) eqn:?; [specialize (Hs eq_refl); specialize (K eq_refl)|clear Hs K];
  intuition congruence.

Section calls.
Context {C : Config}.

Lemma soul_call_nft s o c s' : inv1 s -> sinv s -> pallet_of c = PNft -> exec_call o c s = (Ok tt, s') -> soul_effect s s'.
Proof.
  intros HI HS Hp He.
  assert (Hn : nfts (s_nft s) !! next_nft (s_nft s) = None) by (apply (i_next s HI); lia).
  destruct c; try discriminate Hp; clear Hp; cbn [exec_call] in He.
  all: first [ unfold signed in He; destruct o; try discriminate He
             | unfold root in He; destruct o; try discriminate He ].
  - minv He; subst; (eapply (soul_new _ _ (next_nft (s_nft s))); [done|done| |st_cbn; reflexivity]); done.
  - apply (soul_del _ _ id); [done|]. minv He; subst; done.
  - minv He. subst. soul id x.
  - minv He; subst; soul id x.
  - minv He. subst. soul id x.
  - minv He. subst. by apply soul_same.
  - minv He; subst; by apply soul_same.
  - minv He; subst; by apply soul_same.
  - minv He; subst; by apply soul_same.
  - minv He; subst; by apply soul_same.
  - minv He. subst. soul id x0.
  - minv He. subst. soul id x.
  - unfold create_secret_nft in He. mstep He. mstep He. apply bind_ok in He as ([]&s1&H1&He).
    apply create_nft_nfts in H1 as [En Ex]. mstep He. minv He.
    rewrite Ex, En, N.add_sub, lookup_insert in U. injection U as <-. subst s'.
    eapply (soul_new _ _ (next_nft (s_nft s))); [done|done| |st_cbn; rewrite Ex, En, N.add_sub, insert_insert; reflexivity]. done.
  - unfold add_secret_shard in He. do 6 mstep He. mstep He. mstep He.
    assert (nfts (s_nft s') = <[id := if snd x1 then put_syncing_secret false x0 else x0]> (nfts (s_nft s))) as En.
    { minv He; subst; done. }
    clear He. eapply (soul_one _ _ id x0); [done|done|exact En|]. intros Hs. by destruct (snd x1); [split; [done|by left]|apply soul_refl].
  - minv He. subst. by apply soul_same.
  - minv He. subst. soul id x.
  - unfold create_capsule in He. mstep He. mstep He. apply bind_ok in He as ([]&s1&H1&He).
    apply create_nft_nfts in H1 as [En Ex]. mstep He. minv He.
    rewrite Ex, En, N.add_sub, lookup_insert in U. injection U as <-. subst s'.
    eapply (soul_new _ _ (next_nft (s_nft s))); [done|done| |st_cbn; rewrite Ex, En, N.add_sub, insert_insert; reflexivity]. done.
  - minv He. subst. soul id x.
  - minv He. subst. by apply soul_same.
  - unfold add_capsule_shard in He. do 6 mstep He. mstep He. mstep He.
    assert (nfts (s_nft s') = <[id := if snd x1 then put_syncing_capsule false x0 else x0]> (nfts (s_nft s))) as En.
    { minv He; subst; done. }
    clear He. eapply (soul_one _ _ id x0); [done|done|exact En|]. intros Hs. by destruct (snd x1); [split; [done|by left]|apply soul_refl].
  - minv He. subst. soul id x.
  - minv He. subst. by apply soul_same.
Qed.

Lemma soul_call_market s o c s' : inv1 s -> sinv s -> pallet_of c = PMarket -> exec_call o c s = (Ok tt, s') -> soul_effect s s'.
Proof.
  intros HI HS Hp He. destruct c; try discriminate Hp; clear Hp; cbn [exec_call] in He.
  all: first [ unfold signed in He; destruct o; try discriminate He
             | unfold root in He; destruct o; try discriminate He ].
  all: try (minv He; subst; by apply soul_same).
  - minv He; subst; st_cbn_in U1; simplify_eq; soul id x.
  - minv He; subst; st_cbn_in U0; simplify_eq; soul id x.
  - minv He; subst; (edestruct (sale_nft s id) as (d&Hd&Hl&Ho); [exact HI|eassumption|]); replace d with x in * by congruence;
    pose proof (listed_alone s id x HI Hd Hl); soul id x.
Qed.

Lemma soul_call_auction s o c s' : inv1 s -> sinv s -> pallet_of c = PAuction -> exec_call o c s = (Ok tt, s') -> soul_effect s s'.
Proof.
  intros HI HS Hp He. destruct c; try discriminate Hp; clear Hp; cbn [exec_call] in He.
  all: first [ unfold signed in He; destruct o; try discriminate He
             | unfold root in He; destruct o; try discriminate He ].
  all: try (minv He; subst; by apply soul_same).
  - minv He; subst; soul id x.
  - minv He; subst; soul id x.
  - minv He; subst; (edestruct (auction_nft s id) as (d&Hd&Hl&Ho); [exact HI|eassumption|]); replace d with x in * by congruence;
    pose proof (listed_alone s id x HI Hd Hl); soul id x.
  - minv He; subst; (edestruct (auction_nft s id) as (d&Hd&Hl&Ho); [exact HI|eassumption|]); replace d with x in * by congruence;
    pose proof (listed_alone s id x HI Hd Hl); soul id x.
Qed.

Lemma soul_call_trans s o c s' : inv1 s -> sinv s -> pallet_of c = PTrans -> exec_call o c s = (Ok tt, s') -> soul_effect s s'.
Proof.
  intros HI HS Hp He. destruct c; try discriminate Hp; clear Hp; cbn [exec_call] in He.
  all: first [ unfold signed in He; destruct o; try discriminate He
             | unfold root in He; destruct o; try discriminate He ].
  all: try (minv He; subst; by apply soul_same).
  - minv He; subst; soul id x.
  - minv He; subst; soul id x.
  - minv He; subst; try discriminate; try (by apply soul_same).
    all: st_cbn_in U3; simplify_eq.
    all: assert (is_listed (nstate x) = false) by (destruct (is_listed (nstate x)) eqn:Hl; [|done]; pose proof (listed_alone s id x HI U Hl); congruence).
    all: soul id x.
Qed.
End calls.
