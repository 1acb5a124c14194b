(** What one call can do to an NFT record: rent calls, and all calls together. *)
From Verif Require Export NftStep.
Local Open Scope N_scope.

Section calls4.
Context {C : Config}.

(** ** Rent *)

(** [m'] is [m] with some NFTs satisfying [P] in the hands of [a]. *)
Definition moved_to (P : N -> Prop) (a : N) (m m' : gmap N nft_data) : Prop :=
  forall j, m' !! j = m !! j \/ exists x, P j /\ m !! j = Some x /\ m' !! j = Some (x <| owner := a |>).
Lemma moved_to_trans P a m1 m2 m3 : moved_to P a m1 m2 -> moved_to P a m2 m3 -> moved_to P a m1 m3.
Proof.
  intros H1 H2 j. destruct (H1 j) as [E1|(x&Hp&E1&E1')]; destruct (H2 j) as [E2|(y&Hp'&E2&E2')].
  - left. congruence.
  - right. exists y. rewrite <- E1. done.
  - right. exists x. rewrite E2. done.
  - right. exists x. rewrite E1' in E2. injection E2 as <-. done.
Qed.
Lemma moved_to_alter (P : N -> Prop) o a m :
  (forall j, o = Some j -> P j) ->
  moved_to P a m (match o with Some j => alter (fun x => x <| owner := a |>) j | None => fun m => m end m).
Proof.
  intros HP. destruct o as [k|]; [|by left]. intros j.
  destruct (decide (j = k)) as [->|]; [|left; by rewrite lookup_alter_ne].
  rewrite lookup_alter. destruct (m !! k) as [x|] eqn:E; [|by left]. right. exists x. auto.
Qed.

(** A rent call only moves NFTs and flips [is_rented]. *)
Lemma effect_rented s o c s' :
  next_nft (s_nft s') = next_nft (s_nft s) -> mint_args c = None ->
  (forall j, nfts (s_nft s) !! j = None -> nfts (s_nft s') !! j = None) ->
  (forall j d, nfts (s_nft s) !! j = Some d -> exists b d', nfts (s_nft s') !! j = Some d' /\
     (d' = d <| owner := b |> \/ exists f, d' = put_rented f (d <| owner := b |>)) /\
     (b = owner d \/ moved_by_call s o c j (owner d) b)) ->
  nft_effect s o c s'.
Proof.
  intros Ex Hm H1 H2. split; [|split; [|split]].
  - intros j d Hd. destruct (H2 j d Hd) as (b&d'&Hd'&Hor&Hb). rewrite Hd'. unfold evolves.
    destruct Hor as [->|[f ->]]; cbn; split_and!; auto.
  - intros j d Hn Hd. rewrite H1 in Hd; done.
  - done.
  - congruence.
Qed.

Lemma effect_create_contract s who id di acc cr fee cf1 cf2 s' :
  create_contract who id di acc cr fee cf1 cf2 s = (Ok tt, s') ->
  nft_effect s (Signed who) (C_create_contract id di acc cr fee cf1 cf2) s'.
Proof.
  intros H. apply create_contract_run in H as (b&n1&q&d&Hd&Ho&_&_&Hn1&_&->).
  apply effect_rented; st_cbn; try done.
  - intros j Hj. rewrite lookup_insert_ne by congruence. destruct Hn1 as [[-> _]|(k&x&_&Hx&_&_&->)]; [done|].
    by rewrite lookup_insert_ne by congruence.
  - intros j y Hy. destruct (decide (j = id)) as [->|].
    + rewrite lookup_insert. exists (owner y), (put_rented true d). rewrite Hd in Hy. injection Hy as ->.
      split; [done|]. split; [right; exists true; by destruct y|by left].
    + rewrite lookup_insert_ne by done. destruct Hn1 as [[-> _]|(k&x&_&Hx&Hxo&_&->)].
      * exists (owner y), y. split; [done|]. split; [left; by destruct y|by left].
      * destruct (decide (j = k)) as [->|].
        -- rewrite lookup_insert. rewrite Hx in Hy. injection Hy as ->. eexists _, _. split; [done|].
           split; [by left|]. right. left. congruence.
        -- rewrite lookup_insert_ne by done. exists (owner y), y. split; [done|]. split; [left; by destruct y|by left].
Qed.

(** Where the deposits of a contract are. *)
Lemma deposit_place s id k role j d : inv1 s -> contracts (s_rent s) !! id = Some k ->
  deposit_nft k role = Some j -> nfts (s_nft s) !! j = Some d ->
  owner d = rent_pot \/ (j = id /\ role = true /\ owner d = r_renter k).
Proof.
  intros HI Hc Hr Hd. destruct (i_cust s HI id k role j Hc Hr) as [[-> ->]|[(x&Hx&Hx') _]].
  - right. destruct (contract_nft s id k HI Hc) as (y&Hy&_&Ho). split_and!; congruence.
  - left. congruence.
Qed.

(** What the end of a contract does to the NFTs. *)
Definition ends_nfts (s : state) (id : N) (k : contract) (s' : state) : Prop :=
  forall j, match nfts (s_nft s) !! j with
  | None => nfts (s_nft s') !! j = None
  | Some d => exists b d', nfts (s_nft s') !! j = Some d' /\
     ((j <> id /\ d' = d <| owner := b |>) \/ (j = id /\ d' = put_rented false (d <| owner := b |>))) /\
     (b = owner d \/ (j <> id /\ secures k j /\ owner d = rent_pot /\ (b = r_renter k \/ r_rentee k = Some b)))
  end.

Lemma handle_finished_nfts s id s' :
  inv1 s -> handle_finished id s = (Ok tt, s') ->
  exists k, contracts (s_rent s) !! id = Some k /\ ends_nfts s id k s' /\
    contracts (s_rent s') = delete id (contracts (s_rent s)) /\ next_nft (s_nft s') = next_nft (s_nft s) /\
    s_auc s' = s_auc s /\ s_trans s' = s_trans s /\ s_mkt s' = s_mkt s.
Proof.
  intros HI H. destruct (handle_finished_cases s id HI) as [(e&b&Hh)|(c&d&b&s1&Hc&Hd&Hh&E)]; rewrite Hh in H; [done|].
  injection H as ->. exists c. split; [done|]. split; [|subst s'; st_cbn; split_and!; done].
  intros j. subst s'. st_cbn.
  assert (Hm : forall (m : gmap N nft_data) x, m !! j = nfts (s_nft s) !! j -> m !! j = Some x -> j <> id ->
     exists y, (match deposit_nft c true with Some j => alter (fun x => x <| owner := r_renter c |>) j | None => fun m => m end m) !! j
       = Some (x <| owner := y |>) /\
       (y = owner x \/ (secures c j /\ owner x = rent_pot /\ y = r_renter c))).
  { intros m x E1 E2 Hne. destruct (deposit_nft c true) as [j1|] eqn:H1.
    - destruct (decide (j1 = j)) as [->|].
      + rewrite lookup_alter, E2. eexists. split; [reflexivity|]. right.
        destruct (deposit_place s id c true j x HI Hc H1) as [?|(?&_)]; [congruence| |done].
        split; [by eapply secures_deposit|]. done.
      + rewrite lookup_alter_ne by done. exists (owner x). split; [rewrite E2; by destruct x|by left].
    - exists (owner x). split; [rewrite E2; by destruct x|by left]. }
  destruct (nfts (s_nft s) !! j) as [x|] eqn:Hx.
  - destruct (decide (j = id)) as [->|Hne].
    + rewrite lookup_insert. exists (owner x), (put_rented false x). replace d with x by congruence.
      split; [done|]. split; [right; split; [done|]; by destruct x|by left].
    + rewrite lookup_insert_ne by done. destruct (Hm (nfts (s_nft s)) x) as (y&Hy&Hor); [congruence..|].
      destruct (deposit_nft c false) as [j2|] eqn:H2.
      * destruct (deposit_false_rentee c j2 H2) as [r Hr]. rewrite Hr.
        destruct (decide (j2 = j)) as [->|].
        -- rewrite lookup_alter, Hy. exists r, (x <| owner := r |>). split; [done|]. split; [by left|]. right.
           destruct (deposit_place s id c false j x HI Hc H2 Hx) as [?|(?&_)]; [|done].
           split_and!; auto. by eapply secures_deposit.
        -- rewrite lookup_alter_ne by done. exists y, (x <| owner := y |>). split; [done|]. split; [by left|].
           destruct Hor as [?|(?&?&?)]; [by left|]. right. split_and!; auto.
      * exists y, (x <| owner := y |>). split; [done|]. split; [by left|].
        destruct Hor as [?|(?&?&?)]; [by left|]. right. split_and!; auto.
  - rewrite lookup_insert_ne by congruence.
    destruct (deposit_nft c false) as [j2|] eqn:H2.
    + destruct (deposit_false_rentee c j2 H2) as [r Hr]. rewrite Hr.
      assert (j2 <> j) by (intros ->; destruct (deposit_exists s id c false j d HI Hc Hd H2); congruence).
      rewrite lookup_alter_ne by done. destruct (deposit_nft c true) as [j1|] eqn:H1; [|done].
      assert (j1 <> j) by (intros ->; destruct (deposit_exists s id c true j d HI Hc Hd H1); congruence).
      by rewrite lookup_alter_ne.
    + destruct (deposit_nft c true) as [j1|] eqn:H1; [|done].
      assert (j1 <> j) by (intros ->; destruct (deposit_exists s id c true j d HI Hc Hd H1); congruence).
      by rewrite lookup_alter_ne.
Qed.

Lemma effect_cancel_contract s who id s' :
  inv1 s -> cancel_contract who id s = (Ok tt, s') -> nft_effect s (Signed who) (C_cancel_contract id) s'.
Proof.
  intros HI H. unfold cancel_contract in H. do 6 mstep H.
  apply bind_ok in H as ([]&s1&H1&H). mstep H. subst s'.
  match type of H1 with _ ?q = _ => set (s0 := q) in *; assert (HI0 : inv1 s0) end.
  { subst s0. destruct HI as [G1 G2 G3 G4]. split; st_cbn; try done.
    - intros j. specialize (G2 j). unfold view_ok in *. st_cbn.
      destruct (nfts (s_nft s) !! j); [|done]. destruct G2; split; try done.
      intros y Hy. destruct (v_con y Hy) as (?&?&Hr&?). split; [done|]. split; [done|].
      split; [|done]. intros Hr'. specialize (Hr Hr').
      destruct (decide (j = id)) as [->|]; [by rewrite lookup_delete|by rewrite lookup_delete_ne].
    - intros i l Hl. apply lookup_delete_Some in Hl as [_ Hl]. by eapply G3. }
  destruct (handle_finished_nfts s0 id s1 HI0 H1) as (k&Hk&He&_&Hn&_).
  change (contracts (s_rent s0)) with (contracts (s_rent s)) in *. change (s_nft s0) with (s_nft s) in *.
  apply effect_rented; st_cbn; try done.
  - intros j Hj. specialize (He j). change (s_nft s0) with (s_nft s) in *. by rewrite Hj in He.
  - intros j d Hd. specialize (He j). change (s_nft s0) with (s_nft s) in *. rewrite Hd in He.
    destruct He as (b&d'&Hd'&Hor&Hb). exists b, d'. split; [done|]. split; [destruct Hor as [[_ ?]|[_ ?]]; eauto|].
    destruct Hb as [?|(_&?&?&?)]; [by left|]. right. do 4 right. left. eexists _, id, k. split_and!; eauto.
Qed.

Lemma effect_revoke_contract s who id s' :
  inv1 s -> revoke_contract who id s = (Ok tt, s') -> nft_effect s (Signed who) (C_revoke_contract id) s'.
Proof.
  intros HI H. unfold revoke_contract in H. do 5 mstep H.
  apply bind_ok in H as ([]&s0&HW&Hq).
  assert (s0 = s) as -> by (minv HW; done). clear HW.
  rename x into c. rename x0 into rentee.
  set (f1 := if r_renter c =? who then r_rentee_cf c else r_renter_cf c) in *.
  set (f2 := if r_renter c =? who then r_renter_cf c else r_rentee_cf c) in *.
  set (dm := if r_renter c =? who then rentee else r_renter c) in *.
  assert (Hf1 : f1 = r_renter_cf c \/ (f1 = r_rentee_cf c /\ is_Some (r_rentee c))).
  { subst f1. destruct (r_renter c =? who); eauto. }
  assert (Hf2 : f2 = r_renter_cf c \/ (f2 = r_rentee_cf c /\ is_Some (r_rentee c))).
  { subst f2. destruct (r_renter c =? who); eauto. }
  apply bind_ok in Hq as ([]&s1&H1&H). apply return_fee_run in H1 as (b1&Hs1&Hx1).
  apply bind_ok in H as ([]&s2&H2&H).
  assert (exists b2, s2 = s1 <| s_bal := b2 |> <| s_nft ::= fun n => n <| nfts ::=
    match cf_nft f2 with Some j => alter (fun x => x <| owner := dm |>) j | None => fun m => m end |> |>) as (b2&Hs2).
  { destruct (cf_flexible f2) as [full|] eqn:Hfl.
    - mstep H2. apply return_flexible_run in H2 as [b2 ->]. exists b2.
      destruct f2; try done. cbn [cf_nft]. by destruct s1 as [??? [] ????????].
    - apply return_fee_run in H2 as (b2&->&_). by exists b2. }
  set (P := fun j => exists role, deposit_nft c role = Some j).
  assert (Hm : moved_to P dm (nfts (s_nft s)) (nfts (s_nft s2))).
  { subst s2 s1. st_cbn. eapply moved_to_trans; apply moved_to_alter; intros j Hj;
      [eapply (deposit_of c f1)|eapply (deposit_of c f2)]; done. }
  do 6 mstep H. st_cbn_in U1. subst s'.
  assert (Hmv : forall j y, nfts (s_nft s) !! j = Some y -> P j ->
    dm = owner y \/ moved_by_call s (Signed who) (C_revoke_contract id) j (owner y) dm).
  { intros j y Hy [role Hr]. destruct (deposit_place s id c role j y HI U Hr Hy) as [Hp|(->&_&Ho)].
    - right. do 4 right. left. eexists _, id, c. split_and!; eauto; [by eapply secures_deposit|].
      subst dm. destruct (r_renter c =? who); [right; done|by left].
    - subst dm. destruct (N.eqb_spec (r_renter c) who) as [Hw|]; [|by left]. right. left. congruence. }
  apply effect_rented; st_cbn; try (by subst s2 s1).
  - intros j Hj. destruct (Hm j) as [E1|(y&_&Hy&_)]; [|congruence].
    rewrite lookup_insert_ne by congruence. congruence.
  - intros j y Hy. assert (exists b, nfts (s_nft s2) !! j = Some (y <| owner := b |>) /\
      (b = owner y \/ moved_by_call s (Signed who) (C_revoke_contract id) j (owner y) b)) as (b&Hb&Hb').
    { destruct (Hm j) as [E1|(z&Hp&Hz&E1)].
      - exists (owner y). split; [rewrite E1, Hy; by destruct y|by left].
      - replace z with y in * by congruence. exists dm. split; [done|]. by apply Hmv. }
    destruct (decide (j = id)) as [->|].
    + rewrite lookup_insert. rewrite Hb in U1. injection U1 as <-. exists b. eexists. split; [done|].
      split; [right; by exists false|done].
    + rewrite lookup_insert_ne by done. exists b. eexists. split; [done|]. split; [by left|done].
Qed.

Lemma take_fees_moved rentee c s s' :
  take_rent_and_cancellation_fee rentee c s = (Ok tt, s') ->
  moved (fun j => exists d, nfts (s_nft s) !! j = Some d /\ owner d = rentee) (nfts (s_nft s)) (nfts (s_nft s')) /\
  next_nft (s_nft s') = next_nft (s_nft s).
Proof.
  intros H. unfold take_rent_and_cancellation_fee in H.
  apply bind_map_err in H. do 1 mstep H. apply bind_map_err in H. mstep H.
  set (sb := s <| s_bal := b |> <| s_bal := b0 |>) in *.
  set (P := fun j => exists d, nfts (s_nft s) !! j = Some d /\ owner d = rentee).
  assert (Hchk : forall oi e1 e2 e3 (q : unit -> M unit) r, bind (check_fee_nft rentee oi e1 e2 e3) q sb = (Ok r, s') ->
    (forall k, oi = Some k -> P k) /\ q tt sb = (Ok r, s')).
  { intros oi e1 e2 e3 q r Hq. unfold check_fee_nft in Hq. minv Hq.
    - split; [|done]. intros k Hk. rewrite O in Hk. injection Hk as <-. exists x. split; done.
    - split; [|done]. congruence. }
  destruct (Hchk _ _ _ _ _ _ H) as [Hrf H0]. destruct (Hchk _ _ _ _ _ _ H0) as [Hcf H3]. clear Hchk H H0.
  apply bind_ok in H3 as ([]&s1&H1&H).
  assert (Hone : forall oi a e t t', (forall k, oi = Some k -> P k) ->
    on_some oi (fun i => map_err e (change_nft_ownership i a)) t = (Ok tt, t') ->
    moved P (nfts (s_nft t)) (nfts (s_nft t')) /\ next_nft (s_nft t') = next_nft (s_nft t)).
  { intros oi a e t t' HP G. apply on_some_ok in G as [(j&Hj&G)|[_ <-]]; [|by split; [apply moved_refl|]].
    unfold map_err, change_nft_ownership, bind, get_nft, gets, unwrap in G.
    destruct (nfts (s_nft t) !! j) as [d|] eqn:Ed; [|done]. injection G as <-. st_cbn. split; [|done].
    intros k. destruct (decide (k = j)) as [->|]; [|left; by rewrite lookup_insert_ne].
    right. exists d, a. rewrite lookup_insert. auto. }
  apply Hone in H1 as [M1 N1]; [|done]. apply Hone in H as [M2 N2]; [|done]. split; [|by rewrite N2, N1].
  eapply moved_trans; [|exact M2]. exact M1.
Qed.

Lemma effect_start s o c id rentee k s1 s' :
  take_rent_and_cancellation_fee rentee k s = (Ok tt, s1) ->
  start_contract id rentee k s1 = (Ok tt, s') -> mint_args c = None ->
  (forall j to, moved_by_call s o c j rentee to) -> nft_effect s o c s'.
Proof.
  intros H1 H2 Hm Hmv. apply take_fees_moved in H1 as [M1 N1]. apply start_contract_run in H2 as (q&_&->).
  apply effect_rented; st_cbn; try done.
  - intros j Hj. destruct (M1 j) as [->|(y&?&_&Hy&_)]; congruence.
  - intros j d Hd. destruct (M1 j) as [->|(y&b&(z&Hz&Ho)&Hy&E)].
    + exists (owner d), d. split; [done|]. split; [left; by destruct d|by left].
    + exists b, (y <| owner := b |>). replace y with d by congruence. replace z with d in * by congruence.
      split; [rewrite E; congruence|]. split; [by left|]. right. rewrite Ho. apply Hmv.
Qed.

Lemma effect_events s o c s' f : nft_effect s o c s' -> nft_effect s o c (s' <| s_events ::= f |>).
Proof. done. Qed.

Lemma effect_rent s o c s' :
  inv1 s -> pallet_of c = PRent -> exec_call o c s = (Ok tt, s') -> nft_effect s o c s'.
Proof.
  intros HI Hp He. destruct c; try discriminate Hp; clear Hp; cbn [exec_call] in He.
  all: unfold signed in He; destruct o; try discriminate He.
  - by apply effect_create_contract.
  - by apply effect_cancel_contract.
  - by apply effect_revoke_contract.
  - unfold rent in He. do 7 mstep He.
    apply bind_ok in He as ([]&s1&H1&H). apply bind_ok in H as ([]&s2&H2&H). mstep H. subst s'.
    apply effect_events. eapply effect_start; [done..|]. intros. by left.
  - minv He; subst; by apply effect_same.
  - unfold accept_rent_offer in He. do 6 mstep He.
    apply bind_ok in He as ([]&s1&H1&H). apply bind_ok in H as ([]&s2&H2&H). mstep H. subst s'.
    apply effect_events. eapply effect_start; [done..|]. intros. do 5 right. eexists _, _, _.
    split_and!; [done|done|congruence|done|].
    unfold memN in E0. apply existsb_exists in E0 as (y&Hy&Ey). apply N.eqb_eq in Ey as ->. by apply elem_of_list_In.
  - minv He; subst; by apply effect_same.
  - minv He; subst; by apply effect_same.
  - minv He; subst; by apply effect_same.
Qed.

(** Every call of the pallets, bar the governance mandate. *)
Lemma nft_call s o c s' :
  inv1 s -> is_mandate c = false -> exec_call o c s = (Ok tt, s') -> nft_effect s o c s'.
Proof.
  intros HI Hm He. destruct (pallet_of c) eqn:Hp.
  all: try (by eapply effect_nft); try (by eapply effect_market); try (by eapply effect_auction);
       try (by eapply effect_rent); try (by eapply effect_trans).
  all: pose proof (call_kept o c s s' Hm He) as Hk; rewrite Hp in Hk; unfold kept in Hk.
  all: try (destruct Hk as (_&_&Hk&_); apply effect_same; [by rewrite Hk..|]; by destruct c).
  by destruct c.
Qed.
End calls4.
