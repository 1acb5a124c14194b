(** Soulbound NFTs: rent calls, hooks and the invariant. *)
From Verif Require Export Soul.
Local Open Scope N_scope.

Section soul2.
Context {C : Config}.

Lemma rentable_soul d : rentable_state (nstate d) = true -> is_soulbound (nstate d) = false.
Proof.
  unfold rentable_state. intros H. repeat (apply andb_true_iff in H as [H ?]).
  by match goal with K : negb (is_soulbound _) = true |- _ => apply negb_true_iff in K end.
Qed.

(** NFTs touched by a rent call are not soulbound. *)
Lemma soul_rented s s' : sinv s ->
  (forall j d', nfts (s_nft s') !! j = Some d' -> exists d b, nfts (s_nft s) !! j = Some d /\
     (d' = d \/ (is_soulbound (nstate d) = false /\ (d' = d <| owner := b |> \/ exists f, d' = put_rented f (d <| owner := b |>))))) ->
  soul_effect s s'.
Proof.
  intros HS H j d' Hd'. destruct (H j d' Hd') as (d&b&Hd&Hor). rewrite Hd.
  destruct Hor as [->|[Hs Hor]]; [apply soul_refl; by eapply (so_nft s HS)|].
  split; [|by right; left]. destruct Hor as [->|[f ->]]; unfold soul_nft; cbn; congruence.
Qed.

Lemma take_fees_soul rentee c s s' :
  take_rent_and_cancellation_fee rentee c s = (Ok tt, s') ->
  moved (fun j => exists d, nfts (s_nft s) !! j = Some d /\ is_soulbound (nstate d) = false) (nfts (s_nft s)) (nfts (s_nft s')) /\
  (forall j d, cf_nft (r_rentee_cf c) = Some j -> nfts (s_nft s) !! j = Some d -> is_soulbound (nstate d) = false) /\
  s_rent s' = s_rent s.
Proof.
  intros H. unfold take_rent_and_cancellation_fee in H.
  apply bind_map_err in H. do 1 mstep H. apply bind_map_err in H. mstep H.
  set (sb := s <| s_bal := b |> <| s_bal := b0 |>) in *.
  set (P := fun j => exists d, nfts (s_nft s) !! j = Some d /\ is_soulbound (nstate d) = false).
  assert (Hchk : forall oi e1 e2 e3 (q : unit -> M unit) r, bind (check_fee_nft rentee oi e1 e2 e3) q sb = (Ok r, s') ->
    (forall k, oi = Some k -> P k) /\ q tt sb = (Ok r, s')).
  { intros oi e1 e2 e3 q r Hq. unfold check_fee_nft in Hq. minv Hq.
    - split; [|done]. intros k Hk. rewrite O in Hk. injection Hk as <-. exists x. split; [done|]. by apply rentable_soul.
    - split; [|done]. congruence. }
  destruct (Hchk _ _ _ _ _ _ H) as [Hrf H0]. destruct (Hchk _ _ _ _ _ _ H0) as [Hcf H3]. clear Hchk H H0.
  apply bind_ok in H3 as ([]&s1&H1&H).
  assert (Hone : forall oi a e t t', (forall k, oi = Some k -> P k) ->
    on_some oi (fun i => map_err e (change_nft_ownership i a)) t = (Ok tt, t') ->
    moved P (nfts (s_nft t)) (nfts (s_nft t')) /\ s_rent t' = s_rent t).
  { intros oi a e t t' HP G. apply on_some_ok in G as [(j&Hj&G)|[_ <-]]; [|by split; [apply moved_refl|]].
    unfold map_err, change_nft_ownership, bind, get_nft, gets, unwrap in G.
    destruct (nfts (s_nft t) !! j) as [d|] eqn:Ed; [|done]. injection G as <-. st_cbn. split; [|done].
    intros k. destruct (decide (k = j)) as [->|]; [|left; by rewrite lookup_insert_ne].
    right. exists d, a. rewrite lookup_insert. auto. }
  apply Hone in H1 as [M1 N1]; [|done]. apply Hone in H as [M2 N2]; [|done]. split_and!.
  - eapply moved_trans; [|exact M2]. exact M1.
  - intros j d Hj Hd. destruct (Hcf j Hj) as (d0&Hd0&?). congruence.
  - by rewrite N2, N1.
Qed.

Lemma soul_start s id rentee k s1 s' : sinv s ->
  take_rent_and_cancellation_fee rentee k s = (Ok tt, s1) ->
  start_contract id rentee k s1 = (Ok tt, s') -> contracts (s_rent s) !! id = Some k ->
  soul_effect s s' /\
  (forall id' k' i d, contracts (s_rent s') !! id' = Some k' -> secures k' i -> nfts (s_nft s) !! i = Some d -> is_soulbound (nstate d) = false).
Proof.
  intros HS H1 H2 Hk. apply take_fees_soul in H1 as (M1&Hcf&N1). apply start_contract_run in H2 as (q&_&->). split.
  - apply soul_rented; [done|]. st_cbn. intros j d' Hd'. destruct (M1 j) as [E|(y&b&(z&Hz&Hs)&Hy&E)].
    + rewrite E in Hd'. exists d', 0. auto.
    + exists y, b. split; [done|]. right. split; [congruence|]. left. congruence.
  - st_cbn. rewrite N1. intros id' k' i d Hk' Hs Hd. destruct (decide (id' = id)) as [->|].
    + rewrite lookup_insert in Hk'. injection Hk' as <-. destruct Hs as [Hs|[_ Hs]]; cbn in Hs.
      * eapply (so_dep s HS id k i d); eauto. by left.
      * eapply (Hcf i d); [|done]. by rewrite Hs.
    + rewrite lookup_insert_ne in Hk' by done. by eapply (so_dep s HS).
Qed.

(** Deposits stay free of soulbound NFTs. *)
Definition dep_effect (s s' : state) : Prop :=
  forall id k i d, contracts (s_rent s') !! id = Some k -> secures k i -> nfts (s_nft s) !! i = Some d -> is_soulbound (nstate d) = false.

Lemma ends_soul s id k s' : sinv s -> inv1 s -> contracts (s_rent s) !! id = Some k -> ends_nfts s id k s' -> soul_effect s s'.
Proof.
  intros HS HI Hk He. apply soul_rented; [done|]. intros j d' Hd'. specialize (He j).
  destruct (nfts (s_nft s) !! j) as [d|] eqn:Hd; [|congruence].
  destruct He as (b&d2&Hd2&Hor&Hb). rewrite Hd' in Hd2. injection Hd2 as <-. exists d, b. split; [done|].
  destruct Hor as [[Hne ->]|[-> ->]].
  - destruct Hb as [->|(_&Hs&_)].
    + left. by destruct d.
    + right. split; [by eapply (so_dep s HS)|by left].
  - right. split; [|right; by exists false].
    destruct (contract_nft s id k HI Hk) as (y&Hy&Hr&_). assert (y = d) as -> by congruence.
    destruct (is_soulbound (nstate d)) eqn:E; [|done]. destruct (so_nft s HS id d Hd E). congruence.
Qed.

Lemma soul_call_rent s o c s' : inv1 s -> sinv s -> pallet_of c = PRent -> exec_call o c s = (Ok tt, s') ->
  soul_effect s s' /\ dep_effect s s'.
Proof.
  intros HI HS Hp He. destruct c; try discriminate Hp; clear Hp; cbn [exec_call] in He.
  all: unfold signed in He; destruct o; try discriminate He.
  - apply create_contract_run in He as (b&n1&q&e0&Hd&Ho&Hr&_&Hn1&_&->). split.
    + apply soul_rented; [done|]. st_cbn. intros j d' Hd'. destruct (decide (j = id)) as [->|].
      * rewrite lookup_insert in Hd'. injection Hd' as <-. exists e0, (owner e0). split; [done|]. right.
        split; [by apply rentable_soul|]. right. exists true. by destruct e0.
      * rewrite lookup_insert_ne in Hd' by done. destruct Hn1 as [[-> _]|(k&x&_&Hx&Hxo&Hxr&->)].
        -- exists d', 0. auto.
        -- destruct (decide (j = k)) as [->|].
           ++ rewrite lookup_insert in Hd'. injection Hd' as <-. exists x, rent_pot. split; [done|]. right.
              split; [by apply rentable_soul|by left].
           ++ rewrite lookup_insert_ne in Hd' by done. exists d', 0. auto.
    + intros id' k' i x. st_cbn. intros Hk' Hs Hx. destruct (decide (id' = id)) as [->|].
      * rewrite lookup_insert in Hk'. injection Hk' as <-. destruct Hs as [Hs|[Hf _]]; [|done]. cbn in Hs. subst.
        destruct Hn1 as [[_ ?]|(k&y&Hk&Hy&_&Hyr&_)]; [done|]. cbn in Hk. injection Hk as <-.
        replace x with y by congruence. by apply rentable_soul.
      * rewrite lookup_insert_ne in Hk' by done. by eapply (so_dep s HS).
  - unfold cancel_contract in He. do 6 mstep He.
    apply bind_ok in He as ([]&s1&H1&H). mstep H. subst s'.
    match type of H1 with _ ?q = _ => set (s0 := q) in *; assert (HI0 : inv1 s0) end.
    { subst s0. destruct HI as [G1 G2 G3 G4]. split; st_cbn; try done.
      - intros j. specialize (G2 j). unfold view_ok in *. st_cbn.
        destruct (nfts (s_nft s) !! j); [|done]. destruct G2; split; try done.
        intros y Hy. destruct (v_con y Hy) as (?&?&Hr&?). split; [done|]. split; [done|].
        split; [|done]. intros Hr'. specialize (Hr Hr').
        destruct (decide (j = id)) as [->|]; [by rewrite lookup_delete|by rewrite lookup_delete_ne].
      - intros i l Hl. apply lookup_delete_Some in Hl as [_ Hl]. by eapply G3. }
    destruct (handle_finished_nfts s0 id s1 HI0 H1) as (k&Hk&Hends&Hc&_). split.
    + assert (sinv s0) by (destruct HS; split; done).
      pose proof (ends_soul s0 id k s1 H HI0 Hk Hends) as Hse. exact Hse.
    + intros id' k' i x9. st_cbn. rewrite Hc. intros Hk' Hs Hx. apply lookup_delete_Some in Hk' as [_ Hk'].
      by eapply (so_dep s HS).
  - pose proof He as He0. unfold revoke_contract in He. do 5 mstep He.
    apply bind_ok in He as ([]&s0&HW&Hq).
    assert (s0 = s) as -> by (minv HW; done). clear HW. rename x into k. rename x0 into rentee.
    set (f1 := if r_renter k =? who then r_rentee_cf k else r_renter_cf k) in *.
    set (f2 := if r_renter k =? who then r_renter_cf k else r_rentee_cf k) in *.
    set (dm := if r_renter k =? who then rentee else r_renter k) in *.
    assert (Hf1 : f1 = r_renter_cf k \/ (f1 = r_rentee_cf k /\ is_Some (r_rentee k))).
    { subst f1. destruct (r_renter k =? who); eauto. }
    assert (Hf2 : f2 = r_renter_cf k \/ (f2 = r_rentee_cf k /\ is_Some (r_rentee k))).
    { subst f2. destruct (r_renter k =? who); eauto. }
    apply bind_ok in Hq as ([]&s1&H1&H). apply return_fee_run in H1 as (b1&Hs1&Hx1).
    apply bind_ok in H as ([]&s2&H2&H).
    assert (exists b2, s2 = s1 <| s_bal := b2 |> <| s_nft ::= fun n => n <| nfts ::=
      match cf_nft f2 with Some j => alter (fun x => x <| owner := dm |>) j | None => fun m => m end |> |>) as (b2&Hs2).
    { destruct (cf_flexible f2) as [full|] eqn:Hfl.
      - mstep H2. apply return_flexible_run in H2 as [b2 ->]. exists b2.
        destruct f2; try done. cbn [cf_nft]. by destruct s1 as [??? [] ????????].
      - apply return_fee_run in H2 as (b2&->&_). by exists b2. }
    set (P := fun j => exists role, deposit_nft k role = Some j).
    assert (Hm : moved_to P dm (nfts (s_nft s)) (nfts (s_nft s2))).
    { subst s2 s1. st_cbn. eapply moved_to_trans; apply moved_to_alter; intros j Hj;
        [eapply (deposit_of k f1)|eapply (deposit_of k f2)]; done. }
    do 6 mstep H. st_cbn_in U1. subst s'.
    destruct (contract_nft s id k HI U) as (y&Hy&Hr&_).
    assert (Hys : is_soulbound (nstate y) = false).
    { destruct (is_soulbound (nstate y)) eqn:E'; [|done]. destruct (so_nft s HS id y Hy E'). congruence. }
    split.
    + apply soul_rented; [done|]. st_cbn. intros j d' Hd'.
      assert (Hpj : forall z, nfts (s_nft s) !! j = Some z -> P j -> is_soulbound (nstate z) = false).
      { intros z Hz [role Hrole]. eapply (so_dep s HS id k j z); eauto. by eapply secures_deposit. }
      destruct (decide (j = id)) as [->|].
      * rewrite lookup_insert in Hd'. injection Hd' as <-. destruct (Hm id) as [E1|(z&Hp&Hz&E1)].
        -- assert (x = y) as -> by congruence. exists y, (owner y). split; [done|]. right. split; [done|].
           right. exists false. by destruct y.
        -- exists z, dm. split; [done|]. right. split; [by apply Hpj|]. right. exists false. congruence.
      * rewrite lookup_insert_ne in Hd' by done. destruct (Hm j) as [E1|(z&Hp&Hz&E1)].
        -- exists d', 0. split; [congruence|by left].
        -- exists z, dm. split; [done|]. right. split; [by apply Hpj|]. left. congruence.
    + intros id' k' i z. st_cbn. intros Hk' Hs Hz. apply lookup_delete_Some in Hk' as [_ Hk'].
      subst s2 s1. by eapply (so_dep s HS).
  - unfold rent in He. do 7 mstep He.
    apply bind_ok in He as ([]&s1&H1&H). apply bind_ok in H as ([]&s2&H2&H). mstep H. subst s'.
    destruct (soul_start s id who x s1 s2 HS H1 H2 U) as [? ?]. split; done.
  - minv He; subst; (split; [by apply soul_same|]); intros ? ? ? ?; by eapply (so_dep s HS).
  - unfold accept_rent_offer in He. do 6 mstep He.
    apply bind_ok in He as ([]&s1&H1&H). apply bind_ok in H as ([]&s2&H2&H). mstep H. subst s'.
    destruct (soul_start s id rentee x s1 s2 HS H1 H2 U) as [? ?]. split; done.
  - minv He; subst; (split; [by apply soul_same|]); intros ? ? ? ?; by eapply (so_dep s HS).
  - minv He; subst; (split; [by apply soul_same|]); intros id' k' i z; st_cbn; intros Hk' Hs Hz;
    (destruct (decide (id' = id)) as [->|]; [|rewrite lookup_insert_ne in Hk' by done; by eapply (so_dep s HS)];
     rewrite lookup_insert in Hk'; injection Hk' as <-; by eapply (so_dep s HS id x i z)).
  - minv He; subst; (split; [by apply soul_same|]); intros id' k' i z; st_cbn; intros Hk' Hs Hz;
    (destruct (decide (id' = id)) as [->|]; [|rewrite lookup_insert_ne in Hk' by done; by eapply (so_dep s HS)];
     rewrite lookup_insert in Hk'; injection Hk' as <-; by eapply (so_dep s HS id x i z)).
Qed.

Lemma soul_call s o c s' : inv1 s -> sinv s -> is_mandate c = false -> exec_call o c s = (Ok tt, s') ->
  soul_effect s s' /\ dep_effect s s'.
Proof.
  intros HI HS Hm He. pose proof (call_kept o c s s' Hm He) as Hk.
  destruct (pallet_of c) eqn:Hp; try (by eapply soul_call_rent); unfold kept in Hk; destruct_and? Hk.
  all: try (split; [|intros ? ? ? ? K; match goal with E : s_rent _ = s_rent _ |- _ => rewrite E in K end; by eapply (so_dep s HS)]).
  all: try (by eapply soul_call_nft); try (by eapply soul_call_market); try (by eapply soul_call_auction); try (by eapply soul_call_trans).
  all: try (apply soul_same; [done|]; congruence).
  all: by destruct c.
Qed.

Lemma soul_hook s h : inv1 s -> sinv s -> soul_effect s (snd (run_hook h s)) /\ dep_effect s (snd (run_hook h s)).
Proof.
  intros HI HS. set (t := snd (run_hook h s)). pose proof (hook_hrel s h HI) as HR. fold t in HR.
  pose proof (inv1_hook s h HI) as HT. fold t in HT.
  assert (Em : s_mkt t = s_mkt s). { pose proof (hook_kept h s) as Hk. fold t in Hk. unfold kept in Hk. destruct h; cbn in Hk; tauto. }
  split.
  - intros i d' Hd'. pose proof (h_nft _ _ HR i) as Hn.
    destruct (nfts (s_nft s) !! i) as [d|] eqn:Hd; [|congruence].
    destruct Hn as (d2&Hd2&Ht&Ho). rewrite Hd' in Hd2. injection Hd2 as <-.
    pose proof (so_nft s HS i d Hd) as Hs. unfold same_traits in Ht.
    destruct Ht as (T1&_&_&_&T2&_). split.
    + intros Hb. rewrite T2 in Hb. destruct (Hs Hb) as [Hr Hl]. split.
      * destruct (is_rented (nstate d')) eqn:E; [|done]. exfalso.
        pose proof (i_view t HT i) as Hv. unfold view_ok in Hv. rewrite Hd' in Hv. destruct Hv. rewrite E in v_rented.
        destruct (contracts (s_rent t) !! i) as [k|] eqn:Hk; [|done].
        destruct (contract_nft s i k HI) as (y&Hy&Hyr&_); [by eapply lookup_weaken, (h_con _ _ HR)|]. congruence.
      * intros Hf. rewrite T1. pose proof (i_view t HT i) as Hv. unfold view_ok in Hv. rewrite Hd' in Hv. destruct Hv.
        destruct Hf as [Hf|Hf].
        -- rewrite Hf in v_listed. rewrite Em in *. destruct (sales (s_mkt s) !! i) as [sl|] eqn:Es.
           ++ destruct (v_sale _ eq_refl) as (Hse&_). destruct (sale_nft s i sl HI Es) as (y&Hy&Hyl&Hyo). simplify_eq.
              rewrite Hl by eauto. congruence.
           ++ destruct (auctions (s_auc t) !! i) as [a|] eqn:Ea; [|done].
              destruct (auction_nft s i a HI) as (y&Hy&Hyl&Hyo); [by eapply lookup_weaken, (h_auc _ _ HR)|].
              destruct (auction_nft t i a HT Ea) as (z&Hz&_&Hzo). simplify_eq. rewrite Hl by eauto. congruence.
        -- rewrite Hf in v_trans. destruct (transs (s_trans t) !! i) as [a|] eqn:Ea; [|done].
           destruct (trans_nft s i a HI) as (y&Hy&Hyl); [by eapply lookup_weaken, (h_trans _ _ HR)|].
           simplify_eq. destruct Ho as [->|[_ (_&Hset&_)]]; [auto|congruence].
    + destruct Ho as [?|[Hm _]]; [by left|]. right. destruct (is_soulbound (nstate d)) eqn:Hb; [|by left].
      destruct (Hs Hb) as [Hr Hl]. right. destruct Hm as [(a&amt&Ha&_)|[(x&Hx&_)|(id&k&Hk&Hsec&_)]].
      * destruct (auction_nft s i a HI Ha) as (y&Hy&Hyl&Hyo). simplify_eq. auto.
      * destruct (trans_nft s i x HI Hx) as (y&Hy&Hyl). simplify_eq. auto.
      * pose proof (so_dep s HS id k i d Hk Hsec Hd). congruence.
  - intros id k i d Hk Hs Hd. eapply (so_dep s HS id k i d); eauto. by eapply lookup_weaken, (h_con _ _ HR).
Qed.

Lemma secures_role k j : secures k j -> exists role, deposit_nft k role = Some j.
Proof.
  intros [H|[Hr H]]; [exists true|exists false]; unfold deposit_nft; rewrite H; [done|].
  destruct (r_rentee k); done.
Qed.

Lemma deposit_exists s id k i : inv1 s -> contracts (s_rent s) !! id = Some k -> secures k i ->
  is_Some (nfts (s_nft s) !! i).
Proof.
  intros HI Hk Hs. destruct (secures_role k i Hs) as [role Hr].
  destruct (i_cust s HI id k role i Hk Hr) as [[-> ->]|[(x&Hx&_) _]]; [|eauto].
  destruct (contract_nft s id k HI Hk) as (y&Hy&_). eauto.
Qed.

(** A step that keeps the NFT traits keeps the invariant. *)
Lemma sinv_next s s' : inv1 s -> sinv s ->
  soul_effect s s' /\ dep_effect s s' ->
  (forall i d d', nfts (s_nft s) !! i = Some d -> nfts (s_nft s') !! i = Some d' -> is_soulbound (nstate d') = is_soulbound (nstate d)) ->
  (forall i, nfts (s_nft s) !! i = None -> is_Some (nfts (s_nft s') !! i) -> s_rent s' = s_rent s) -> sinv s'.
Proof.
  intros HI HS [He Hd] Ht Hb. split.
  - intros i d' Hd'. specialize (He i d' Hd'). destruct (nfts (s_nft s) !! i); [|done]. by destruct He.
  - intros id k i d' Hk Hs Hd'. destruct (nfts (s_nft s) !! i) as [d|] eqn:Hdi.
    + rewrite (Ht i d d' Hdi Hd'). by eapply Hd.
    + exfalso. rewrite (Hb i Hdi ltac:(eauto)) in Hk. destruct (deposit_exists s id k i HI Hk Hs). congruence.
Qed.

Lemma sinv_same s s' : s_nft s' = s_nft s -> s_rent s' = s_rent s -> sinv s -> sinv s'.
Proof. intros E1 E2 []. split; rewrite E1; [|rewrite E2]; done. Qed.

(** What a small step can do to an existing NFT. *)
Definition soul_rel (s s' : state) : Prop :=
  next_nft (s_nft s) <= next_nft (s_nft s') /\
  forall i, match nfts (s_nft s) !! i, nfts (s_nft s') !! i with
  | None, Some _ => next_nft (s_nft s) <= i
  | Some d, Some d' => soul_step d d' /\ creator d' = creator d /\ is_soulbound (nstate d') = is_soulbound (nstate d)
  | _, _ => True
  end.

Lemma soul_sstep s s' : inv1 s -> sinv s -> sstep s s' -> soul_rel s s' /\ sinv s'.
Proof.
  intros HI HS Hst.
  assert (Hsame : s_nft s' = s_nft s -> s_rent s' = s_rent s -> soul_rel s s' /\ sinv s').
  { intros E1 E2. split; [|by eapply sinv_same]. unfold soul_rel. rewrite E1. split; [lia|]. intros i.
    destruct (nfts (s_nft s) !! i) eqn:Hd; [|done]. split_and!; try done. apply soul_refl. by eapply (so_nft s HS). }
  destruct Hst as [o c s2 Ha Hw Hm He| | |h|e s2 ? He]; try (by apply Hsame).
  - clear Hsame. destruct (soul_call s o c s2 HI HS Hm He) as [E1 E2]. destruct (nft_call s o c s2 HI Hm He) as (G1&G2&G3&G4).
    assert (Hn : next_nft (s_nft s) <= next_nft (s_nft s2)).
    { destruct (mint_args c) eqn:Em; [destruct G4 as [-> _]; [done|]|rewrite G3 by done]; lia. }
    split.
    + split; [done|]. intros i. destruct (nfts (s_nft s) !! i) as [d|] eqn:Hd.
      * destruct (nfts (s_nft s2) !! i) as [d'|] eqn:Hd'; [|done]. pose proof (E1 i d' Hd') as E. rewrite Hd in E.
        specialize (G1 i d Hd). rewrite Hd' in G1. destruct G1 as (?&_&?&_). done.
      * destruct (nfts (s_nft s2) !! i) as [d'|] eqn:Hd'; [|done]. destruct (G2 i d' Hd Hd') as [-> _]. lia.
    + apply (sinv_next s s2); auto.
      * intros i d d' Hd Hd'. specialize (G1 i d Hd). rewrite Hd' in G1. destruct G1 as (?&_&?&_). done.
      * intros i Hd [d' Hd']. destruct (G2 i d' Hd Hd') as (_&_&_&_&Hma).
        pose proof (call_kept o c s s2 Hm He) as Hk. destruct c; try discriminate Hma; unfold kept in Hk; cbn [pallet_of] in Hk; tauto.
  - clear Hsame. pose proof (soul_hook s h HI HS) as E1. pose proof (hook_hrel s h HI) as HR.
    destruct E1 as [E1 E2]. split.
    + split; [rewrite (h_next _ _ HR); lia|]. intros i. pose proof (h_nft _ _ HR i) as Hn.
      destruct (nfts (s_nft s) !! i) as [d|] eqn:Hd; [|by rewrite Hn].
      destruct Hn as (d'&Hd'&Ht&_). rewrite Hd'. pose proof (E1 i d' Hd') as E. rewrite Hd in E. unfold same_traits in Ht. tauto.
    + apply (sinv_next s _); auto.
      * intros i d d' Hd Hd'. pose proof (h_nft _ _ HR i) as Hn. rewrite Hd in Hn. destruct Hn as (d2&Hd2&Ht&_).
        unfold same_traits in Ht. replace d' with d2 by congruence. tauto.
      * intros i Hd Hd'. pose proof (h_nft _ _ HR i) as Hn. rewrite Hd in Hn. destruct Hd'; congruence.
  - apply env_kept in He. unfold env_kept_from in He. destruct_and! He. by apply Hsame.
Qed.

Lemma sinv_genesis s : genesis s -> sinv s.
Proof. intros (now&era&bal&lk&->&_). split; cbn; intros *; rewrite lookup_empty; done. Qed.

Lemma sreach_sinv s : sreach s -> sinv s.
Proof.
  induction 1 as [s Hs|s o c s' Hs IH Ha Hw Hm He|s ev Hs IH|s Hs IH|s h Hs IH|s e s' Hs IH Ha He].
  - by apply sinv_genesis.
  - eapply (soul_sstep s s'); eauto using sreach_inv1. by eapply ss_call.
  - eapply (soul_sstep s); eauto using sreach_inv1. by eapply ss_event.
  - eapply (soul_sstep s); eauto using sreach_inv1. by eapply ss_tick.
  - eapply (soul_sstep s); eauto using sreach_inv1. by eapply ss_hook.
  - eapply (soul_sstep s); eauto using sreach_inv1. by eapply ss_env.
Qed.

(** A bound NFT keeps its owner as long as it exists. *)
Lemma bound_stable s s' i d d' : reachable s -> later s s' ->
  nfts (s_nft s) !! i = Some d -> bound_to_owner d -> nfts (s_nft s') !! i = Some d' -> owner d' = owner d.
Proof.
  intros Hs Hl Hd Hb Hd'.
  set (P := fun t => i < next_nft (s_nft t) /\ forall x, nfts (s_nft t) !! i = Some x ->
     owner x = owner d /\ creator x = creator d /\ is_soulbound (nstate x) = true).
  assert (HP : P s').
  { eapply (later_stable P); [|exact Hs|exact Hl|].
    - intros t t' Ht Hst [Hn HP]. destruct (soul_sstep t t') as [[Hnn Hr] _];
        [by apply sreach_inv1|by apply sreach_sinv|done|]. split; [lia|]. intros x Hx. specialize (Hr i). rewrite Hx in Hr.
      destruct (nfts (s_nft t) !! i) as [y|] eqn:Hy; [|lia].
      destruct (HP y eq_refl) as (H1&H2&H3). destruct Hr as ([_ Ho]&Hc&Hso).
      assert (owner x = owner y). { destruct Hb as [_ Hb]. destruct Ho as [?|[?|?]]; congruence. }
      split_and!; congruence.
    - split.
      + apply N.nle_gt. intros Hle. apply (i_next s) in Hle; [congruence|]. by apply reachable_inv1.
      + intros x Hx. destruct Hb. split_and!; congruence. }
  by apply HP.
Qed.
End soul2.
