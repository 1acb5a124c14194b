(** An NFT that changes hands is free afterwards. *)
From Verif Require Export Engaged NftFacts2 BlockFacts.
Local Open Scope N_scope.

Section free.
Context {C : Config}.

Definition free_effect (s s' : state) : Prop :=
  forall i d d', nfts (s_nft s) !! i = Some d -> nfts (s_nft s') !! i = Some d' -> owner d' <> owner d -> engagements d' = 0.

Lemma fre_same s s' : nfts (s_nft s') = nfts (s_nft s) -> free_effect s s'.
Proof. intros E i d d' Hd Hd'. rewrite E in Hd'. congruence. Qed.
Lemma fre_one s s' i d d' : nfts (s_nft s) !! i = Some d -> nfts (s_nft s') = <[i := d']> (nfts (s_nft s)) ->
  (owner d' <> owner d -> engagements d' = 0) -> free_effect s s'.
Proof.
  intros Hd E H j x x' Hx Hx' Hne. rewrite E in Hx'. destruct (decide (j = i)) as [->|].
  - rewrite lookup_insert in Hx'. injection Hx' as <-. assert (x = d) as -> by congruence. auto.
  - rewrite lookup_insert_ne in Hx' by done. congruence.
Qed.
Lemma fre_new s s' i d' : nfts (s_nft s) !! i = None -> nfts (s_nft s') = <[i := d']> (nfts (s_nft s)) -> free_effect s s'.
Proof.
  intros Hd E j x x' Hx Hx' Hne. rewrite E in Hx'. rewrite lookup_insert_ne in Hx' by congruence. congruence.
Qed.
Lemma one_of s i d : inv1 s -> nfts (s_nft s) !! i = Some d -> engagements d <= 1.
Proof. intros HI Hd. pose proof (i_view s HI i) as V. unfold view_ok in V. rewrite Hd in V. by apply v_one in V. Qed.
(** What is left when the only engagement ends. *)
Lemma unlisted_zero d w : engagements d <= 1 -> is_listed (nstate d) = true -> engagements (put_listed false (d <| owner := w |>)) = 0.
Proof. intros H1 H2. destruct (only_listed d H1 H2) as (E1&E2&E3&E4&E5). by apply free_zero. Qed.
Lemma unlisted_zero' d w : engagements d <= 1 -> is_listed (nstate d) = true -> engagements (put_listed false d <| owner := w |>) = 0.
Proof. intros H1 H2. destruct (only_listed d H1 H2) as (E1&E2&E3&E4&E5). by apply free_zero. Qed.
Lemma unrented_zero d w : engagements d <= 1 -> is_rented (nstate d) = true -> engagements (put_rented false (d <| owner := w |>)) = 0.
Proof. intros H1 H2. destruct (only_rented d H1 H2) as (E1&E2&E3&E4&E5). by apply free_zero. Qed.
Lemma zero_owner d w : engagements d = 0 -> engagements (d <| owner := w |>) = 0.
Proof. done. Qed.
End free.

Ltac fre i d :=
  eapply (fre_one _ _ i d); [eassumption|st_cbn; reflexivity|];
  let Hn := fresh "Hn" in intros Hn;
  first [ by destruct Hn | by apply free_zero | idtac ].

Section calls.
Context {C : Config}.

Lemma fre_call_nft s o c s' : inv1 s -> pallet_of c = PNft -> exec_call o c s = (Ok tt, s') -> free_effect s s'.
Proof.
  intros HI Hp He.
  assert (Hn : nfts (s_nft s) !! next_nft (s_nft s) = None) by (apply (i_next s HI); lia).
  destruct c; try discriminate Hp; clear Hp; cbn [exec_call] in He.
  all: first [ unfold signed in He; destruct o; try discriminate He
             | unfold root in He; destruct o; try discriminate He ].
  - minv He; subst; (eapply (fre_new _ _ (next_nft (s_nft s))); [done|st_cbn; reflexivity]).
  - assert (nfts (s_nft s') = delete id (nfts (s_nft s))) as E by (minv He; subst; done).
    intros i x x' Hx Hx' Hne. rewrite E in Hx'. apply lookup_delete_Some in Hx' as [_ ?]. congruence.
  - minv He. subst. fre id x.
  - minv He; subst; fre id x.
  - minv He. subst. fre id x.
  - minv He. subst. by apply fre_same.
  - minv He; subst; by apply fre_same.
  - minv He; subst; by apply fre_same.
  - minv He; subst; by apply fre_same.
  - minv He; subst; by apply fre_same.
  - minv He. subst. fre id x0.
  - minv He. subst. fre id x.
  - unfold create_secret_nft in He. mstep He. mstep He. apply bind_ok in He as ([]&s1&H1&He).
    apply create_nft_nfts in H1 as [En Ex]. mstep He. minv He.
    rewrite Ex, En, N.add_sub, lookup_insert in U. injection U as <-. subst s'.
    eapply (fre_new _ _ (next_nft (s_nft s))); [done|st_cbn; rewrite Ex, En, N.add_sub, insert_insert; reflexivity].
  - unfold add_secret_shard in He. do 6 mstep He. mstep He. mstep He.
    assert (nfts (s_nft s') = <[id := if snd x1 then put_syncing_secret false x0 else x0]> (nfts (s_nft s))) as En.
    { minv He; subst; done. }
    clear He. eapply (fre_one _ _ id x0); [done|exact En|]. intros H. by destruct (snd x1).
  - minv He. subst. by apply fre_same.
  - minv He. subst. fre id x.
  - unfold create_capsule in He. mstep He. mstep He. apply bind_ok in He as ([]&s1&H1&He).
    apply create_nft_nfts in H1 as [En Ex]. mstep He. minv He.
    rewrite Ex, En, N.add_sub, lookup_insert in U. injection U as <-. subst s'.
    eapply (fre_new _ _ (next_nft (s_nft s))); [done|st_cbn; rewrite Ex, En, N.add_sub, insert_insert; reflexivity].
  - minv He. subst. fre id x.
  - minv He. subst. by apply fre_same.
  - unfold add_capsule_shard in He. do 6 mstep He. mstep He. mstep He.
    assert (nfts (s_nft s') = <[id := if snd x1 then put_syncing_capsule false x0 else x0]> (nfts (s_nft s))) as En.
    { minv He; subst; done. }
    clear He. eapply (fre_one _ _ id x0); [done|exact En|]. intros H. by destruct (snd x1).
  - minv He. subst. fre id x.
  - minv He. subst. by apply fre_same.
Qed.

Lemma fre_call_market s o c s' : inv1 s -> pallet_of c = PMarket -> exec_call o c s = (Ok tt, s') -> free_effect s s'.
Proof.
  intros HI Hp He. destruct c; try discriminate Hp; clear Hp; cbn [exec_call] in He.
  all: first [ unfold signed in He; destruct o; try discriminate He
             | unfold root in He; destruct o; try discriminate He ].
  all: try (minv He; subst; by apply fre_same).
  - minv He; subst; st_cbn_in U1; simplify_eq; fre id x.
  - minv He; subst; st_cbn_in U0; simplify_eq; fre id x.
  - assert (is_Some (sales (s_mkt s) !! id)) as [sl Hsl] by (minv He; eauto).
    destruct (sale_nft s id sl HI Hsl) as (y&Hy&Hl&_).
    minv He; subst; fre id x.
    all: assert (y = x) as -> by congruence; first [by apply unlisted_zero; [by eapply one_of|]|by apply unlisted_zero'; [by eapply one_of|]].
Qed.

Lemma fre_call_auction s o c s' : inv1 s -> pallet_of c = PAuction -> exec_call o c s = (Ok tt, s') -> free_effect s s'.
Proof.
  intros HI Hp He. destruct c; try discriminate Hp; clear Hp; cbn [exec_call] in He.
  all: first [ unfold signed in He; destruct o; try discriminate He
             | unfold root in He; destruct o; try discriminate He ].
  all: try (minv He; subst; by apply fre_same).
  - minv He; subst; fre id x.
  - minv He; subst; fre id x.
  - assert (is_Some (auctions (s_auc s) !! id)) as [a Ha] by (minv He; eauto).
    destruct (auction_nft s id a HI Ha) as (y&Hy&Hl&_).
    minv He; subst; fre id x.
    all: assert (y = x) as -> by congruence; first [by apply unlisted_zero; [by eapply one_of|]|by apply unlisted_zero'; [by eapply one_of|]].
  - assert (is_Some (auctions (s_auc s) !! id)) as [a Ha] by (minv He; eauto).
    destruct (auction_nft s id a HI Ha) as (y&Hy&Hl&_).
    minv He; subst; fre id x.
    all: assert (y = x) as -> by congruence; first [by apply unlisted_zero; [by eapply one_of|]|by apply unlisted_zero'; [by eapply one_of|]].
Qed.

Lemma fre_call_trans s o c s' : inv1 s -> pallet_of c = PTrans -> exec_call o c s = (Ok tt, s') -> free_effect s s'.
Proof.
  intros HI Hp He. destruct c; try discriminate Hp; clear Hp; cbn [exec_call] in He.
  all: first [ unfold signed in He; destruct o; try discriminate He
             | unfold root in He; destruct o; try discriminate He ].
  all: try (minv He; subst; by apply fre_same).
  - minv He; subst; fre id x.
  - minv He; subst; fre id x.
  - assert (is_Some (transs (s_trans s) !! id)) as [t Ht] by (minv He; subst; eauto).
    destruct (trans_nft s id t HI Ht) as (y&Hy&Hf).
    minv He; subst; try discriminate; try (by apply fre_same).
    all: st_cbn_in U3; simplify_eq.
    all: fre id x.
    all: destruct (only_transmission x (one_of s id x HI ltac:(assumption)) ltac:(assumption)) as (G1&G2&G3&G4&G5); by apply free_zero.
Qed.

Lemma fre_start s id rentee k s1 s' :
  take_rent_and_cancellation_fee rentee k s = (Ok tt, s1) -> start_contract id rentee k s1 = (Ok tt, s') -> free_effect s s'.
Proof.
  intros H1 H2 i d d' Hd Hd' Hn. apply take_fees_free in H1. apply start_contract_run in H2 as (q&_&->). st_cbn_in Hd'.
  destruct (H1 i) as [E|(y&b&(z&Hz&H0)&Hy&E)]; [congruence|]. rewrite E in Hd'. injection Hd' as <-.
  assert (z = y) as -> by congruence. by apply zero_owner.
Qed.

Lemma fre_ends s id k s' : inv1 s -> contracts (s_rent s) !! id = Some k -> ends_nfts s id k s' -> free_effect s s'.
Proof.
  intros HI Hk He i d d' Hd Hd' Hn. specialize (He i). rewrite Hd in He. destruct He as (b&x&Hx&Hor&Hb).
  assert (x = d') as -> by congruence. destruct Hb as [->|(Hne&_&Ho&_)].
  - destruct Hn. by destruct Hor as [[_ ->]|[_ ->]].
  - destruct Hor as [[_ ->]|[? _]]; [|done]. apply zero_owner, (pot_unengaged s i d HI Hd). rewrite Ho. apply rent_pot_in.
Qed.

Lemma fre_call_rent s o c s' : inv1 s -> pallet_of c = PRent -> exec_call o c s = (Ok tt, s') -> free_effect s s'.
Proof.
  intros HI Hp He. destruct c; try discriminate Hp; clear Hp; cbn [exec_call] in He.
  all: unfold signed in He; destruct o; try discriminate He.
  - apply create_contract_run in He as (b&n1&q&e0&Hd&Ho&Hr&_&Hn1&_&->).
    intros i x x' Hx Hx' Hne. st_cbn_in Hx'. destruct (decide (i = id)) as [->|Hi].
    { rewrite lookup_insert in Hx'. injection Hx' as <-. assert (x = e0) as -> by congruence. done. }
    rewrite lookup_insert_ne in Hx' by done.
    destruct Hn1 as [[-> _]|(k&y&_&Hy&Hyo&Hyr&->)]; [congruence|]. apply rentable_unengaged in Hyr.
    destruct (decide (i = k)) as [->|Hk]; [|rewrite lookup_insert_ne in Hx' by done; congruence].
    rewrite lookup_insert in Hx'. injection Hx' as <-. by apply zero_owner.
  - unfold cancel_contract in He. do 6 mstep He.
    apply bind_ok in He as ([]&s1&H1&H). mstep H. subst s'.
    match type of H1 with _ ?q = _ => set (s0 := q) in *; assert (HI0 : inv1 s0) end.
    { subst s0. destruct HI as [G1 G2 G3 G4]. split; st_cbn; try done.
      - intros j. specialize (G2 j). unfold view_ok in *. st_cbn.
        destruct (nfts (s_nft s) !! j); [|done]. destruct G2; split; try done.
        intros y Hy. destruct (v_con y Hy) as (?&?&Hr&?). split; [done|]. split; [done|].
        split; [|done]. intros Hr'. specialize (Hr Hr').
        destruct (decide (j = id)) as [->|]; [by rewrite lookup_delete|by rewrite lookup_delete_ne].
      - intros i l Hl. apply lookup_delete_Some in Hl as [_ Hl]. by eapply G3. }
    destruct (handle_finished_nfts s0 id s1 HI0 H1) as (k&Hk&Hends&Hc&_).
    exact (fre_ends s0 id k s1 HI0 Hk Hends).
  - unfold revoke_contract in He. do 5 mstep He.
    apply bind_ok in He as ([]&s0&HW&Hq).
    assert (s0 = s) as -> by (minv HW; done). clear HW. rename x into k. rename x0 into rentee.
    set (f1 := if r_renter k =? who then r_rentee_cf k else r_renter_cf k) in *.
    set (f2 := if r_renter k =? who then r_renter_cf k else r_rentee_cf k) in *.
    set (dm := if r_renter k =? who then rentee else r_renter k) in *.
    assert (Hf1 : f1 = r_renter_cf k \/ (f1 = r_rentee_cf k /\ is_Some (r_rentee k))).
    { subst f1. destruct (r_renter k =? who); eauto. }
    assert (Hf2 : f2 = r_renter_cf k \/ (f2 = r_rentee_cf k /\ is_Some (r_rentee k))).
    { subst f2. destruct (r_renter k =? who); eauto. }
    apply bind_ok in Hq as ([]&s1&H1&H). apply return_fee_run in H1 as (b1&Hs1&Hx1).
    apply bind_ok in H as ([]&s2&H2&H).
    assert (exists b2, s2 = s1 <| s_bal := b2 |> <| s_nft ::= fun n => n <| nfts ::=
      match cf_nft f2 with Some j => alter (fun x => x <| owner := dm |>) j | None => fun m => m end |> |>) as (b2&Hs2).
    { destruct (cf_flexible f2) as [full|] eqn:Hfl.
      - mstep H2. apply return_flexible_run in H2 as [b2 ->]. exists b2.
        destruct f2; try done. cbn [cf_nft]. by destruct s1 as [??? [] ????????].
      - apply return_fee_run in H2 as (b2&->&_). by exists b2. }
    set (P := fun j => exists role, deposit_nft k role = Some j).
    assert (Hm : moved_to P dm (nfts (s_nft s)) (nfts (s_nft s2))).
    { subst s2 s1. st_cbn. eapply moved_to_trans; apply moved_to_alter; intros j Hj;
        [eapply (deposit_of k f1)|eapply (deposit_of k f2)]; done. }
    do 6 mstep H. st_cbn_in U1. subst s'. intros i d d' Hd Hd' Hn. st_cbn_in Hd'.
    destruct (decide (i = id)) as [->|Hi].
    { rewrite lookup_insert in Hd'. injection Hd' as <-.
      destruct (contract_nft s id k HI U) as (y&Hy&Hry&_). assert (y = d) as -> by congruence.
      destruct (only_rented d (one_of s id d HI Hd) Hry) as (G1&G2&G3&G4&G5).
      destruct (Hm id) as [Ez|(z&_&Hz&Ez)].
      - assert (x = d) as -> by congruence. by apply free_zero.
      - assert (z = d) as -> by congruence. assert (x = d <| owner := dm |>) as -> by congruence. by apply free_zero. }
    rewrite lookup_insert_ne in Hd' by done.
    destruct (Hm i) as [Ez|(z&[role Hr]&Hz&Ez)]; [congruence|]. assert (z = d) as -> by congruence. rewrite Ez in Hd'. injection Hd' as <-.
    destruct (deposit_place s id k role i d HI U Hr Hd) as [Ho|(->&_)]; [|done].
    apply zero_owner, (pot_unengaged s i d HI Hd). rewrite Ho. apply rent_pot_in.
  - unfold rent in He. do 7 mstep He.
    apply bind_ok in He as ([]&s1&H1&H). apply bind_ok in H as ([]&s2&H2&H). mstep H. subst s'.
    exact (fre_start s id who x s1 s2 H1 H2).
  - minv He; subst; by apply fre_same.
  - unfold accept_rent_offer in He. do 6 mstep He.
    apply bind_ok in He as ([]&s1&H1&H). apply bind_ok in H as ([]&s2&H2&H). mstep H. subst s'.
    exact (fre_start s id rentee x s1 s2 H1 H2).
  - minv He; subst; by apply fre_same.
  - minv He; subst; by apply fre_same.
  - minv He; subst; by apply fre_same.
Qed.

Lemma fre_call s o c s' : inv1 s -> is_mandate c = false -> exec_call o c s = (Ok tt, s') -> free_effect s s'.
Proof.
  intros HI Hm He. pose proof (call_kept o c s s' Hm He) as Hk.
  destruct (pallet_of c) eqn:Hp; unfold kept in Hk; destruct_and? Hk.
  all: try (by eapply fre_call_nft); try (by eapply fre_call_market); try (by eapply fre_call_auction); try (by eapply fre_call_trans);
    try (by eapply fre_call_rent).
  all: try (apply fre_same; congruence).
  all: by destruct c.
Qed.
End calls.

Section steps.
Context {C : Config}.

Lemma zero_registries s i d : inv1 s -> nfts (s_nft s) !! i = Some d -> engagements d = 0 ->
  sales (s_mkt s) !! i = None /\ auctions (s_auc s) !! i = None /\ contracts (s_rent s) !! i = None /\
  transs (s_trans s) !! i = None /\ delegated (s_nft s) !! i = None.
Proof.
  intros HI Hd H0. apply unengaged_flags in H0 as (E1&E2&E3&E4&_&_). pose proof (i_view s HI i) as V. unfold view_ok in V. rewrite Hd in V. destruct V.
  rewrite E1 in v_listed. rewrite E2 in v_deleg. rewrite E3 in v_rented. rewrite E4 in v_trans.
  symmetry in v_listed. apply orb_false_iff in v_listed as [? ?]. split_and!; by apply isS_false.
Qed.

Lemma block_mkt s : s_mkt (next_block s) = s_mkt s /\ delegated (s_nft (next_block s)) = delegated (s_nft s).
Proof. destruct (block_only_due s) as [_ (_&H&_) E]. split; [done|]. by rewrite E. Qed.

Lemma fre_block s : reachable s -> reachable (next_block s) -> free_effect s (next_block s).
Proof.
  intros Hs Hs' i d d' Hd Hd' Hne. pose proof (reachable_inv1 s Hs) as HI. pose proof (reachable_inv1 _ Hs') as HI'.
  pose proof (block_hrel s HI) as [_ Hcon _ _ Hn]. destruct (block_mkt s) as [Em _].
  specialize (Hn i). rewrite Hd in Hn. destruct Hn as (x&Hx&Ht&Hor). assert (x = d') as -> by congruence.
  destruct Hor as [?|[Hmv (S1&S2&S3)]]; [done|]. destruct Ht as (_&_&_&_&_&T1&_&_&T2&T3).
  assert (Hgoal : is_delegated (nstate d) = false -> is_syncing_secret (nstate d) = false -> is_syncing_capsule (nstate d) = false ->
    sales (s_mkt s) !! i = None -> contracts (s_rent (next_block s)) !! i = None -> engagements d' = 0).
  { intros E1 E2 E3 E4 E5. pose proof (i_view _ HI' i) as V. unfold view_ok in V. rewrite Hd' in V. destruct V.
    rewrite S1, Em, E4 in v_listed. rewrite S2 in v_trans. rewrite E5 in v_rented. cbn in v_listed, v_trans, v_rented. apply free_zero; congruence. }
  pose proof (one_of s i d HI Hd) as H1. pose proof (i_view s HI i) as V. unfold view_ok in V. rewrite Hd in V. destruct V.
  assert (Hcn : is_rented (nstate d) = false -> contracts (s_rent (next_block s)) !! i = None).
  { intros E. rewrite E in v_rented. eapply sub_None; [exact Hcon|]. by apply isS_false. }
  destruct Hmv as [(a&amt&Ha&_)|[(t&Ht&_)|(id&k&Hk&Hsec&Ho&_)]].
  - destruct (auction_nft s i a HI Ha) as (y&Hy&Hl&_). assert (y = d) as -> by congruence.
    destruct (only_listed d H1 Hl) as (E1&E2&E3&E4&E5). apply Hgoal; auto.
    rewrite Ha in v_sale_auc. apply isS_false. by rewrite andb_true_r in v_sale_auc.
  - destruct (trans_nft s i t HI Ht) as (y&Hy&Hl). assert (y = d) as -> by congruence.
    destruct (only_transmission d H1 Hl) as (E1&E2&E3&E4&E5). apply Hgoal; auto.
    rewrite E1 in v_listed. symmetry in v_listed. apply orb_false_iff in v_listed as [? _]. by apply isS_false.
  - assert (H0 : engagements d = 0). { apply (pot_unengaged s i d HI Hd). rewrite Ho. apply rent_pot_in. }
    apply unengaged_flags in H0 as (E1&E2&E3&E4&E5&E6). apply Hgoal; auto.
    rewrite E1 in v_listed. symmetry in v_listed. apply orb_false_iff in v_listed as [? _]. by apply isS_false.
Qed.

Lemma fact_free_after s a i d d' : reachable s -> action_ok a ->
  nfts (s_nft s) !! i = Some d -> nfts (s_nft (step s a)) !! i = Some d' -> owner d' <> owner d ->
  unengaged d' /\
  sales (s_mkt (step s a)) !! i = None /\ auctions (s_auc (step s a)) !! i = None /\ contracts (s_rent (step s a)) !! i = None /\
  transs (s_trans (step s a)) !! i = None /\ delegated (s_nft (step s a)) !! i = None.
Proof.
  intros Hs Ha Hd Hd' Hne. assert (Hs' : reachable (step s a)) by (by apply reach_step).
  assert (H0 : engagements d' = 0).
  { revert Hd Hd' Hne. revert i d d'. change (free_effect s (step s a)). apply step_cases.
    - by apply fre_same.
    - intros ev t H. exact H.
    - intros c s' Hm He. by eapply fre_call; [apply reachable_inv1| |].
    - intros o c s' _ Hm _ He. by eapply fre_call; [apply reachable_inv1| |].
    - intros ->. by apply fre_block.
    - intros e s' _ He. apply fre_same. apply env_kept in He. unfold env_kept_from in He. destruct_and! He. congruence. }
  split; [by apply unengaged_flags in H0|]. by apply (zero_registries _ i d' (reachable_inv1 _ Hs')).
Qed.
End steps.
