(** Facts behind the rent properties: revoking and its arithmetic. *)
From Verif Require Export RentFacts2 MktFacts.
Local Open Scope N_scope.

Section facts.
Context {C : Config}.

(** ** The completed percentage *)
Lemma div_0_any n : n / 0 = 0.
Proof. by destruct n. Qed.
Lemma completion_is c now pc : percentage_of_completion c now = Some pc ->
  (forall st, r_start c = Some st -> st <= now) -> exists p, completed c now p /\ pc = p * 10000 /\ p <= 100.
Proof.
  unfold percentage_of_completion, completed. destruct (r_start c) as [st|]; [|done]. intros H Hst. specialize (Hst st eq_refl).
  rewrite total_is. unfold sat32. change u32_max with 4294967295 in *. cbv zeta in H.
  set (full := N.min (full_duration (r_duration c)) 4294967295) in *.
  destruct (N.ltb_spec (N.min now 4294967295) (N.min st 4294967295)) as [Hlt|Hge]; [lia|].
  destruct (full =? 0) eqn:E0; [done|]. apply N.eqb_neq in E0. injection H as <-. unfold permill_from_percent.
  rewrite (N.mul_comm _ 100). eexists. split; [eexists; split; reflexivity|]. generalize (N.min (100 * (N.min now 4294967295 - N.min st 4294967295)) 4294967295 / full). lia.
Qed.
Lemma completion_defined c now st : r_start c = Some st -> 0 < total_of (r_duration c) -> is_Some (percentage_of_completion c now).
Proof.
  intros Hs Ht. rewrite total_is in Ht. unfold percentage_of_completion. rewrite Hs. cbv zeta. change u32_max with 4294967295.
  destruct (N.eqb_spec (N.min (full_duration (r_duration c)) 4294967295) 0); [lia|eauto].
Qed.

Lemma fact_completion c now pc st : percentage_of_completion c now = Some pc -> r_start c = Some st -> st <= now ->
  exists p, completed c now p /\ pc = p * 10000 /\ p <= 100.
Proof. intros H Hs Hle. apply completion_is; [done|]. intros st' Hst. congruence. Qed.
Lemma fact_completed_start c st p : r_start c = Some st -> completed c st p -> p = 0.
Proof.
  intros Hs (st'&Hst&->). rewrite Hs in Hst. injection Hst as <-. rewrite N.sub_diag, N.mul_0_r. unfold sat32. rewrite N.min_0_l.
  destruct (N.eq_dec (N.min (total_of (r_duration c)) 4294967295) 0) as [->|Hn]; [by rewrite div_0_any|by rewrite N.div_0_l].
Qed.
Lemma fact_completed_mono c n1 n2 p1 p2 : n1 <= n2 -> completed c n1 p1 -> completed c n2 p2 -> p1 <= p2.
Proof.
  intros Hn (st&Hs&->) (st'&Hs'&->). rewrite Hs in Hs'. injection Hs' as <-. unfold sat32.
  apply N.min_le_compat_l.
  destruct (N.eq_dec (N.min (total_of (r_duration c)) 4294967295) 0) as [->|Hz]; [by rewrite !div_0_any|].
  apply N.div_le_mono; [done|]. lia.
Qed.
(** From the end on the percentage is 100, if hundred times the duration is a 32 bit number. *)
Lemma fact_completed_end c st now p : r_start c = Some st -> 0 < total_of (r_duration c) -> 100 * total_of (r_duration c) <= 4294967295 ->
  now <= 4294967295 -> st + total_of (r_duration c) <= now -> completed c now p -> p = 100.
Proof.
  intros Hs Hpos Hb Hnow Hle (st'&Hs'&->). rewrite Hs in Hs'. injection Hs' as <-. unfold sat32.
  set (t := total_of (r_duration c)) in *. rewrite (N.min_l t), (N.min_l now), (N.min_l st) by lia.
  assert (100 <= N.min (100 * (now - st)) 4294967295 / t); [|lia].
  apply N.div_le_lower_bound; lia.
Qed.
Lemma share_le p x y : p <= 100 -> permill_share (p * 10000) x y -> y <= x.
Proof. unfold permill_share. intros. nia. Qed.
Lemma fact_kept_le c now f x : kept_share c now f x -> x <= token_deposit f.
Proof.
  destruct f; cbn; try lia. intros (p&(st&_&->)&H). eapply share_le; [|exact H]. lia.
Qed.

(** ** Revoking *)
(** What a successful revocation does, in closed form. *)
Lemma revoke_nfts who i s s' : revoke_contract who i s = (Ok tt, s') ->
  exists c t, contracts (s_rent s) !! i = Some c /\ r_rentee c = Some t /\
    let other := if r_renter c =? who then t else r_renter c in
    let give f (m : gmap N nft_data) := match cf_nft f with Some j => alter (fun x => x <| owner := other |>) j m | None => m end in
    let m := give (if r_renter c =? who then r_renter_cf c else r_rentee_cf c)
      (give (if r_renter c =? who then r_rentee_cf c else r_renter_cf c) (nfts (s_nft s))) in
    exists d, m !! i = Some d /\ nfts (s_nft s') = <[i := put_rented false d]> m.
Proof.
  intros H. unfold revoke_contract in H. do 5 mstep H.
  apply bind_ok in H as ([]&s0&HW&Hq). assert (s0 = s) as -> by (minv HW; done). clear HW.
  rename x into c. rename x0 into rentee. exists c, rentee. split; [done|]. split; [done|]. cbv zeta.
  set (f1 := if r_renter c =? who then r_rentee_cf c else r_renter_cf c) in *.
  set (f2 := if r_renter c =? who then r_renter_cf c else r_rentee_cf c) in *.
  set (dm := if r_renter c =? who then rentee else r_renter c) in *.
  apply bind_ok in Hq as ([]&s1&H1&H). apply return_fee_run in H1 as (b1&Hs1&Hx1).
  apply bind_ok in H as ([]&s2&H2&H).
  assert (exists b2, s2 = s1 <| s_bal := b2 |> <| s_nft ::= fun n => n <| nfts ::=
    match cf_nft f2 with Some j => alter (fun x => x <| owner := dm |>) j | None => fun m => m end |> |>) as (b2&Hs2).
  { destruct (cf_flexible f2) as [full|] eqn:Hfl.
    - mstep H2. apply return_flexible_run in H2 as [b2 ->]. exists b2.
      destruct f2; try done. cbn [cf_nft]. by destruct s1 as [??? [] ????????].
    - apply return_fee_run in H2 as (b2&->&_). by exists b2. }
  do 6 mstep H. st_cbn_in U1. subst s' s2 s1. st_cbn_in U1. st_cbn. exists x. destruct (cf_nft f1), (cf_nft f2); split; done.
Qed.

Lemma fact_revoke s who i s' : config_ok -> reachable s -> dispatch (Signed who) (C_revoke_contract i) s = (Ok tt, s') ->
  exists c other own theirs share, contracts (s_rent s) !! i = Some c /\ revokes c who other own theirs /\
    kept_share c (s_now s) own share /\ share <= token_deposit own /\
    (forall a, a <> rent_pot \/ ed <= 1 -> free (s_bal s') a + at_acc rent_pot a (deposits_of c) =
       free (s_bal s) a + at_acc who a share + at_acc other a (token_deposit own - share + token_deposit theirs)) /\
    contracts (s_rent s') = delete i (contracts (s_rent s)) /\ (forall b, ~ scheduled s' i b) /\
    (forall j d, nfts (s_nft s) !! j = Some d -> exists o, nfts (s_nft s') !! j = Some (freed i j o d) /\
       (secures c j -> o = other) /\ (~ secures c j -> o = owner d)).
Proof.
  intros HC Hs H. pose proof (reachable_inv1 s Hs) as HI. destruct (reachable_rent s HC Hs) as [HR _].
  apply dispatch_ok in H as [_ H]. cbn [exec_call signed] in H.
  pose proof (revoke_nfts _ _ _ _ H) as (c&t&Hc&Ht&Hn). cbv zeta in Hn. destruct Hn as (d&Hd&En).
  apply rrevoke_ok in H as (c'&t'&b1&b2&Hc'&Ht'&Hw&H). cbv zeta in H. destruct H as (T1&T2&Eb&Er).
  assert (c' = c) as -> by congruence. assert (t' = t) as -> by congruence. clear Hc' Ht'.
  pose proof (r_cok _ _ _ HR _ _ Hc) as Hok.
  set (other := if r_renter c =? who then t else r_renter c) in *.
  set (own := if r_renter c =? who then r_renter_cf c else r_rentee_cf c) in *.
  set (theirs := if r_renter c =? who then r_rentee_cf c else r_renter_cf c) in *.
  assert (Hrev : revokes c who other own theirs).
  { unfold revokes. subst other own theirs. destruct (N.eqb_spec (r_renter c) who) as [<-|Hne]; [left|right].
    - destruct Hw as [[_ Hw]|[? _]]; [|done]. split_and!; done.
    - destruct Hw as [[? _]|[_ ->]]; [congruence|]. split_and!; done. }
  assert (exists share, kept_share c (s_now s) own share /\
    forall a, a <> rent_pot \/ ed <= 1 -> free b2 a + at_acc rent_pot a (deposits_of c) =
       free (s_bal s) a + at_acc who a share + at_acc other a (token_deposit own - share + token_deposit theirs)) as (share&Hsh&Hbal).
  { assert (Hdep : deposits_of c = token_deposit own + token_deposit theirs).
    { unfold deposits_of. rewrite Ht. subst own theirs. destruct (r_renter c =? who); lia. }
    rewrite Hdep. rewrite <- token_amount in T1.
    assert (Hx : forall a, a <> rent_pot \/ ed <= 1 -> a <> rent_pot \/ false = true \/ ed <= 1) by tauto.
    destruct (cf_flexible own) as [full|] eqn:Hfl.
    - destruct own as [x|x|x|] eqn:Eo; try done. injection Hfl as ->. destruct T2 as (pc&bx&Hpc&T2&T3).
      destruct (completion_is _ _ _ Hpc) as (p&Hp&->&Hp100). { intros st Hst. by apply (c_start _ _ Hok). }
      exists (permill_mul (p * 10000) full). split; [exists p; split; [done|apply permill_mul_share]|].
      assert (permill_mul (p * 10000) full <= full) as Hle by (eapply share_le; [exact Hp100|apply permill_mul_share]).
      intros a Ha. pose proof (transfer_exact _ _ _ _ _ _ a (Hx a Ha) T1). pose proof (transfer_exact _ _ _ _ _ _ a (Hx a Ha) T2). pose proof (transfer_exact _ _ _ _ _ _ a (Hx a Ha) T3).
      cbn [token_deposit]. revert Hle. generalize dependent (permill_mul (p * 10000) full). intros sh. intros. unfold at_acc in *.
      repeat match goal with HH : context [decide ?P] |- _ => destruct (decide P) | |- context [decide ?P] => destruct (decide P) end; lia.
    - rewrite <- token_amount in T2. exists 0. split; [by destruct own|].
      intros a Ha. pose proof (transfer_exact _ _ _ _ _ _ a (Hx a Ha) T1). pose proof (transfer_exact _ _ _ _ _ _ a (Hx a Ha) T2). unfold at_acc in *.
      repeat match goal with HH : context [decide ?P] |- _ => destruct (decide P) | |- context [decide ?P] => destruct (decide P) end; lia. }
  exists c, other, own, theirs, share. rewrite Eb. split_and!; try done.
  - by eapply fact_kept_le.
  - by rewrite Er.
  - unfold scheduled. rewrite Er. cbn [contracts queues]. intros b.
    assert (Hst : isS (r_start c) = true). { rewrite (c_run _ _ Hok), Ht. done. }
    pose proof (rok_del_kind _ _ _ i c HR Hc Hst) as Hd'. pose proof (r_fix _ _ _ Hd') as (_&F&_). pose proof (r_subs _ _ _ Hd') as (_&S&_). pose proof (r_av _ _ _ Hd') as (_&A&_).
    intros [Hi|[Hi|Hi]]; [destruct (F _ _ Hi) as (x&Hx&_)|destruct (S _ _ Hi) as (x&Hx&_)|destruct (A _ _ Hi) as (x&Hx&_)]; by rewrite lookup_delete in Hx.
  - assert (Hsec : forall j, secures c j <-> cf_nft own = Some j \/ cf_nft theirs = Some j).
    { intros j. unfold secures. rewrite Ht. subst own theirs. destruct (r_renter c =? who), (r_renter_cf c), (r_rentee_cf c); cbn [cf_nft]; naive_solver. }
    set (give := fun f (m : gmap N nft_data) => match cf_nft f with Some j => alter (fun x => x <| owner := other |>) j m | None => m end) in *.
    change (give own (give theirs (nfts (s_nft s))) !! i = Some d) in Hd. change (nfts (s_nft s') = <[i := put_rented false d]> (give own (give theirs (nfts (s_nft s))))) in En.
    assert (Hg : forall f m j x, m !! j = Some x -> give f m !! j = Some (x <| owner := if decide (cf_nft f = Some j) then other else owner x |>)).
    { intros f m j x Hm. unfold give. destruct (cf_nft f) as [k|]; [|by rewrite Hm; destruct x].
      destruct (decide (k = j)) as [->|Hk]; [rewrite lookup_alter, Hm, decide_True by done; done|].
      rewrite lookup_alter_ne, Hm, decide_False by congruence. by destruct x. }
    intros j x Hj. pose proof (Hg own _ _ _ (Hg theirs _ _ _ Hj)) as Hgg. cbn [owner set] in Hgg.
    exists (if decide (cf_nft own = Some j) then other else if decide (cf_nft theirs = Some j) then other else owner x).
    rewrite Hsec. rewrite En. unfold freed. split.
    + destruct (decide (j = i)) as [->|Hne].
      * rewrite lookup_insert. rewrite Hgg in Hd. injection Hd as <-. done.
      * rewrite lookup_insert_ne by done. rewrite Hgg. done.
    + split; repeat case_decide; tauto.
Qed.
End facts.
