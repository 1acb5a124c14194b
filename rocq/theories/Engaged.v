(** An engaged NFT keeps its owner in every call but those that end its engagement. *)
From Verif Require Export Soul2.
Local Open Scope N_scope.

Section engaged.
Context {C : Config}.

(** The calls that may hand out or burn the engaged NFT [i] with data [d]. *)
Definition hands_out (c : call) (i : N) (d : nft_data) : Prop :=
  match c with
  | C_burn_nft j => j = i /\ (is_syncing_secret (nstate d) = true \/ is_syncing_capsule (nstate d) = true)
  | C_buy_nft j _ | C_buy_it_now j _ | C_end_auction j | C_add_consent j | C_revoke_contract j => j = i
  | _ => False
  end.

Definition engaged_effect (c : call) (s s' : state) : Prop :=
  forall i d, nfts (s_nft s) !! i = Some d -> engagements d <> 0 -> ~ hands_out c i d ->
    exists d', nfts (s_nft s') !! i = Some d' /\ owner d' = owner d.

Lemma eng_same c s s' : nfts (s_nft s') = nfts (s_nft s) -> engaged_effect c s s'.
Proof. intros E i d Hd _ _. rewrite E. eauto. Qed.
Lemma eng_one c s s' i d d' : nfts (s_nft s) !! i = Some d -> nfts (s_nft s') = <[i := d']> (nfts (s_nft s)) ->
  (engagements d <> 0 -> ~ hands_out c i d -> owner d' = owner d) -> engaged_effect c s s'.
Proof.
  intros Hd E H j x Hx Hn Hh. rewrite E. destruct (decide (j = i)) as [->|].
  - rewrite lookup_insert. assert (x = d) as -> by congruence. eauto.
  - rewrite lookup_insert_ne by done. eauto.
Qed.
Lemma eng_new c s s' i d' : nfts (s_nft s) !! i = None -> nfts (s_nft s') = <[i := d']> (nfts (s_nft s)) -> engaged_effect c s s'.
Proof.
  intros Hd E j x Hx Hn Hh. rewrite E. rewrite lookup_insert_ne by congruence. eauto.
Qed.
Lemma free_zero d : is_listed (nstate d) = false -> is_delegated (nstate d) = false -> is_rented (nstate d) = false ->
  is_transmission (nstate d) = false -> is_syncing_secret (nstate d) = false -> is_syncing_capsule (nstate d) = false -> engagements d = 0.
Proof. intros E1 E2 E3 E4 E5 E6. unfold engagements. by rewrite E1, E2, E3, E4, E5, E6. Qed.
End engaged.

Ltac eng i d :=
  eapply (eng_one _ _ _ i d); [eassumption|st_cbn; reflexivity|]; cbn [hands_out];
  let Hn := fresh "Hn" in let Hh := fresh "Hh" in intros Hn Hh;
  first [ reflexivity | by destruct Hh | by destruct Hn; apply free_zero | idtac ].

Section calls.
Context {C : Config}.

Lemma eng_call_nft s o c s' : inv1 s -> pallet_of c = PNft -> exec_call o c s = (Ok tt, s') -> engaged_effect c s s'.
Proof.
  intros HI Hp He.
  assert (Hn : nfts (s_nft s) !! next_nft (s_nft s) = None) by (apply (i_next s HI); lia).
  destruct c; try discriminate Hp; clear Hp; cbn [exec_call] in He.
  all: first [ unfold signed in He; destruct o; try discriminate He
             | unfold root in He; destruct o; try discriminate He ].
  - minv He; subst; (eapply (eng_new _ _ _ (next_nft (s_nft s))); [done|st_cbn; reflexivity]).
  - assert (exists d, nfts (s_nft s) !! id = Some d /\ (engagements d <> 0 -> hands_out (C_burn_nft id) id d) /\ nfts (s_nft s') = delete id (nfts (s_nft s))) as (d&Hd&H0&E).
    { assert (Hz : forall d, is_listed (nstate d) = false -> is_delegated (nstate d) = false -> is_rented (nstate d) = false ->
        is_transmission (nstate d) = false -> engagements d <> 0 -> hands_out (C_burn_nft id) id d).
      { intros d E1 E2 E3 E4 Hd. split; [done|]. destruct (is_syncing_secret (nstate d)) eqn:E5; [by left|]. destruct (is_syncing_capsule (nstate d)) eqn:E6; [by right|].
        destruct Hd. by apply free_zero. }
      minv He; subst; exists x; (split; [done|]; split; [by apply Hz|done]). }
    intros i x Hx Hx0 Hh. rewrite E, lookup_delete_ne; [eauto|]. intros <-. assert (x = d) as -> by congruence. auto.
  - minv He. subst. eng id x.
  - minv He; subst; eng id x.
  - minv He. subst. eng id x.
  - minv He. subst. by apply eng_same.
  - minv He; subst; by apply eng_same.
  - minv He; subst; by apply eng_same.
  - minv He; subst; by apply eng_same.
  - minv He; subst; by apply eng_same.
  - minv He. subst. eng id x0.
  - minv He. subst. eng id x.
  - unfold create_secret_nft in He. mstep He. mstep He. apply bind_ok in He as ([]&s1&H1&He).
    apply create_nft_nfts in H1 as [En Ex]. mstep He. minv He.
    rewrite Ex, En, N.add_sub, lookup_insert in U. injection U as <-. subst s'.
    eapply (eng_new _ _ _ (next_nft (s_nft s))); [done|st_cbn; rewrite Ex, En, N.add_sub, insert_insert; reflexivity].
  - unfold add_secret_shard in He. do 6 mstep He. mstep He. mstep He.
    assert (nfts (s_nft s') = <[id := if snd x1 then put_syncing_secret false x0 else x0]> (nfts (s_nft s))) as En.
    { minv He; subst; done. }
    clear He. eapply (eng_one _ _ _ id x0); [done|exact En|]. intros _ _. by destruct (snd x1).
  - minv He. subst. by apply eng_same.
  - minv He. subst. eng id x.
  - unfold create_capsule in He. mstep He. mstep He. apply bind_ok in He as ([]&s1&H1&He).
    apply create_nft_nfts in H1 as [En Ex]. mstep He. minv He.
    rewrite Ex, En, N.add_sub, lookup_insert in U. injection U as <-. subst s'.
    eapply (eng_new _ _ _ (next_nft (s_nft s))); [done|st_cbn; rewrite Ex, En, N.add_sub, insert_insert; reflexivity].
  - minv He. subst. eng id x.
  - minv He. subst. by apply eng_same.
  - unfold add_capsule_shard in He. do 6 mstep He. mstep He. mstep He.
    assert (nfts (s_nft s') = <[id := if snd x1 then put_syncing_capsule false x0 else x0]> (nfts (s_nft s))) as En.
    { minv He; subst; done. }
    clear He. eapply (eng_one _ _ _ id x0); [done|exact En|]. intros _ _. by destruct (snd x1).
  - minv He. subst. eng id x.
  - minv He. subst. by apply eng_same.
Qed.

Lemma eng_call_market s o c s' : pallet_of c = PMarket -> exec_call o c s = (Ok tt, s') -> engaged_effect c s s'.
Proof.
  intros Hp He. destruct c; try discriminate Hp; clear Hp; cbn [exec_call] in He.
  all: first [ unfold signed in He; destruct o; try discriminate He
             | unfold root in He; destruct o; try discriminate He ].
  all: try (minv He; subst; by apply eng_same).
  - minv He; subst; st_cbn_in U1; simplify_eq; eng id x.
  - minv He; subst; st_cbn_in U0; simplify_eq; eng id x.
  - minv He; subst; eng id x.
Qed.

Lemma eng_call_auction s o c s' : pallet_of c = PAuction -> exec_call o c s = (Ok tt, s') -> engaged_effect c s s'.
Proof.
  intros Hp He. destruct c; try discriminate Hp; clear Hp; cbn [exec_call] in He.
  all: first [ unfold signed in He; destruct o; try discriminate He
             | unfold root in He; destruct o; try discriminate He ].
  all: try (minv He; subst; by apply eng_same).
  - minv He; subst; eng id x.
  - minv He; subst; eng id x.
  - minv He; subst; eng id x.
  - minv He; subst; eng id x.
Qed.

Lemma eng_call_trans s o c s' : pallet_of c = PTrans -> exec_call o c s = (Ok tt, s') -> engaged_effect c s s'.
Proof.
  intros Hp He. destruct c; try discriminate Hp; clear Hp; cbn [exec_call] in He.
  all: first [ unfold signed in He; destruct o; try discriminate He
             | unfold root in He; destruct o; try discriminate He ].
  all: try (minv He; subst; by apply eng_same).
  - minv He; subst; eng id x.
  - minv He; subst; eng id x.
  - minv He; subst; try discriminate; try (by apply eng_same).
    all: st_cbn_in U3; simplify_eq.
    all: eng id x.
Qed.

Lemma take_fees_free rentee c s s' :
  take_rent_and_cancellation_fee rentee c s = (Ok tt, s') ->
  moved (fun j => exists d, nfts (s_nft s) !! j = Some d /\ engagements d = 0) (nfts (s_nft s)) (nfts (s_nft s')).
Proof.
  intros H. unfold take_rent_and_cancellation_fee in H.
  apply bind_map_err in H. do 1 mstep H. apply bind_map_err in H. mstep H.
  set (sb := s <| s_bal := b |> <| s_bal := b0 |>) in *.
  set (P := fun j => exists d, nfts (s_nft s) !! j = Some d /\ engagements d = 0).
  assert (Hchk : forall oi e1 e2 e3 (q : unit -> M unit) r, bind (check_fee_nft rentee oi e1 e2 e3) q sb = (Ok r, s') ->
    (forall k, oi = Some k -> P k) /\ q tt sb = (Ok r, s')).
  { intros oi e1 e2 e3 q r Hq. unfold check_fee_nft in Hq. minv Hq.
    - split; [|done]. intros k Hk. rewrite O in Hk. injection Hk as <-. exists x. split; [done|]. by apply rentable_unengaged.
    - split; [|done]. congruence. }
  destruct (Hchk _ _ _ _ _ _ H) as [Hrf H0]. destruct (Hchk _ _ _ _ _ _ H0) as [Hcf H3]. clear Hchk H H0.
  apply bind_ok in H3 as ([]&s1&H1&H).
  assert (Hone : forall oi a e t t', (forall k, oi = Some k -> P k) ->
    on_some oi (fun i => map_err e (change_nft_ownership i a)) t = (Ok tt, t') ->
    moved P (nfts (s_nft t)) (nfts (s_nft t'))).
  { intros oi a e t t' HP G. apply on_some_ok in G as [(j&Hj&G)|[_ <-]]; [|by apply moved_refl].
    unfold map_err, change_nft_ownership, bind, get_nft, gets, unwrap in G.
    destruct (nfts (s_nft t) !! j) as [d|] eqn:Ed; [|done]. injection G as <-. st_cbn.
    intros k. destruct (decide (k = j)) as [->|]; [|left; by rewrite lookup_insert_ne].
    right. exists d, a. rewrite lookup_insert. auto. }
  apply Hone in H1; [|done]. apply Hone in H; [|done]. eapply moved_trans; [|exact H]. exact H1.
Qed.

Lemma eng_start c s id rentee k s1 s' :
  take_rent_and_cancellation_fee rentee k s = (Ok tt, s1) -> start_contract id rentee k s1 = (Ok tt, s') -> engaged_effect c s s'.
Proof.
  intros H1 H2 i d Hd Hn _. apply take_fees_free in H1. apply start_contract_run in H2 as (q&_&->). st_cbn.
  destruct (H1 i) as [->|(y&b&(z&Hz&H0)&Hy&E)]; [eauto|]. congruence.
Qed.

Lemma eng_ends c s id k s' : inv1 s -> contracts (s_rent s) !! id = Some k -> ends_nfts s id k s' -> engaged_effect c s s'.
Proof.
  intros HI Hk He i d Hd Hn _. specialize (He i). rewrite Hd in He. destruct He as (b&d'&Hd'&Hor&Hb). exists d'. split; [done|].
  destruct Hb as [->|(_&_&Ho&_)].
  - by destruct Hor as [[_ ->]|[_ ->]].
  - destruct Hn. eapply (pot_unengaged s i d HI Hd). rewrite Ho. apply rent_pot_in.
Qed.

Lemma eng_call_rent s o c s' : inv1 s -> pallet_of c = PRent -> exec_call o c s = (Ok tt, s') -> engaged_effect c s s'.
Proof.
  intros HI Hp He. destruct c; try discriminate Hp; clear Hp; cbn [exec_call] in He.
  all: unfold signed in He; destruct o; try discriminate He.
  - apply create_contract_run in He as (b&n1&q&e0&Hd&Ho&Hr&_&Hn1&_&->).
    intros i x Hx Hx0 _. apply rentable_unengaged in Hr. st_cbn. rewrite lookup_insert_ne by congruence.
    destruct Hn1 as [[-> _]|(k&y&_&Hy&Hyo&Hyr&->)]; [eauto|]. apply rentable_unengaged in Hyr.
    rewrite lookup_insert_ne by congruence. eauto.
  - unfold cancel_contract in He. do 6 mstep He.
    apply bind_ok in He as ([]&s1&H1&H). mstep H. subst s'.
    match type of H1 with _ ?q = _ => set (s0 := q) in *; assert (HI0 : inv1 s0) end.
    { subst s0. destruct HI as [G1 G2 G3 G4]. split; st_cbn; try done.
      - intros j. specialize (G2 j). unfold view_ok in *. st_cbn.
        destruct (nfts (s_nft s) !! j); [|done]. destruct G2; split; try done.
        intros y Hy. destruct (v_con y Hy) as (?&?&Hr&?). split; [done|]. split; [done|].
        split; [|done]. intros Hr'. specialize (Hr Hr').
        destruct (decide (j = id)) as [->|]; [by rewrite lookup_delete|by rewrite lookup_delete_ne].
      - intros i l Hl. apply lookup_delete_Some in Hl as [_ Hl]. by eapply G3. }
    destruct (handle_finished_nfts s0 id s1 HI0 H1) as (k&Hk&Hends&Hc&_).
    exact (eng_ends _ s0 id k s1 HI0 Hk Hends).
  - unfold revoke_contract in He. do 5 mstep He.
    apply bind_ok in He as ([]&s0&HW&Hq).
    assert (s0 = s) as -> by (minv HW; done). clear HW. rename x into k. rename x0 into rentee.
    set (f1 := if r_renter k =? who then r_rentee_cf k else r_renter_cf k) in *.
    set (f2 := if r_renter k =? who then r_renter_cf k else r_rentee_cf k) in *.
    set (dm := if r_renter k =? who then rentee else r_renter k) in *.
    assert (Hf1 : f1 = r_renter_cf k \/ (f1 = r_rentee_cf k /\ is_Some (r_rentee k))).
    { subst f1. destruct (r_renter k =? who); eauto. }
    assert (Hf2 : f2 = r_renter_cf k \/ (f2 = r_rentee_cf k /\ is_Some (r_rentee k))).
    { subst f2. destruct (r_renter k =? who); eauto. }
    apply bind_ok in Hq as ([]&s1&H1&H). apply return_fee_run in H1 as (b1&Hs1&Hx1).
    apply bind_ok in H as ([]&s2&H2&H).
    assert (exists b2, s2 = s1 <| s_bal := b2 |> <| s_nft ::= fun n => n <| nfts ::=
      match cf_nft f2 with Some j => alter (fun x => x <| owner := dm |>) j | None => fun m => m end |> |>) as (b2&Hs2).
    { destruct (cf_flexible f2) as [full|] eqn:Hfl.
      - mstep H2. apply return_flexible_run in H2 as [b2 ->]. exists b2.
        destruct f2; try done. cbn [cf_nft]. by destruct s1 as [??? [] ????????].
      - apply return_fee_run in H2 as (b2&->&_). by exists b2. }
    set (P := fun j => exists role, deposit_nft k role = Some j).
    assert (Hm : moved_to P dm (nfts (s_nft s)) (nfts (s_nft s2))).
    { subst s2 s1. st_cbn. eapply moved_to_trans; apply moved_to_alter; intros j Hj;
        [eapply (deposit_of k f1)|eapply (deposit_of k f2)]; done. }
    do 6 mstep H. st_cbn_in U1. subst s'. intros i d Hd Hn Hh. cbn [hands_out] in Hh. st_cbn. rewrite lookup_insert_ne by done.
    destruct (Hm i) as [->|(z&[role Hr]&Hz&E1)]; [eauto|]. exfalso.
    destruct (deposit_place s id k role i d HI U Hr Hd) as [Ho|(->&_)]; [|done].
    destruct Hn. eapply (pot_unengaged s i d HI Hd). rewrite Ho. apply rent_pot_in.
  - unfold rent in He. do 7 mstep He.
    apply bind_ok in He as ([]&s1&H1&H). apply bind_ok in H as ([]&s2&H2&H). mstep H. subst s'.
    exact (eng_start _ s id who x s1 s2 H1 H2).
  - minv He; subst; by apply eng_same.
  - unfold accept_rent_offer in He. do 6 mstep He.
    apply bind_ok in He as ([]&s1&H1&H). apply bind_ok in H as ([]&s2&H2&H). mstep H. subst s'.
    exact (eng_start _ s id rentee x s1 s2 H1 H2).
  - minv He; subst; by apply eng_same.
  - minv He; subst; by apply eng_same.
  - minv He; subst; by apply eng_same.
Qed.

Lemma eng_call s o c s' : inv1 s -> is_mandate c = false -> exec_call o c s = (Ok tt, s') -> engaged_effect c s s'.
Proof.
  intros HI Hm He. pose proof (call_kept o c s s' Hm He) as Hk.
  destruct (pallet_of c) eqn:Hp; unfold kept in Hk; destruct_and? Hk.
  all: try (by eapply eng_call_nft); try (by eapply eng_call_market); try (by eapply eng_call_auction); try (by eapply eng_call_trans);
    try (by eapply eng_call_rent).
  all: try (apply eng_same; congruence).
  all: by destruct c.
Qed.
End calls.
