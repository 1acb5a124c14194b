(** The NFT invariant is preserved by the rent pallet. *)
From Verif Require Export InvNft3.
Local Open Scope N_scope.

Section rent.
Context {C : Config}.

Lemma engagements_owner d a : engagements (d <| owner := a |>) = engagements d.
Proof. done. Qed.

Lemma unengaged_flags d : engagements d = 0 ->
  is_listed (nstate d) = false /\ is_delegated (nstate d) = false /\ is_rented (nstate d) = false /\
  is_transmission (nstate d) = false /\ is_syncing_secret (nstate d) = false /\ is_syncing_capsule (nstate d) = false.
Proof.
  unfold engagements. intros H.
  repeat split; apply not_true_is_false; intros E'; rewrite E' in H; cbn [N.b2n] in H; clear - H; lia.
Qed.

Lemma rentable_unengaged d : rentable_state (nstate d) = true -> engagements d = 0.
Proof.
  unfold rentable_state, engagements. rewrite !andb_true_iff, !negb_true_iff.
  intros ((((((-> & ->) & _) & ->) & ->) & ->) & ->). done.
Qed.
Lemma rentable_not_rented d : rentable_state (nstate d) = true -> is_rented (nstate d) = false.
Proof. intros H%rentable_unengaged%unengaged_flags. tauto. Qed.

(** A free NFT may change hands. *)
Lemma vok_move mk cm d os oa oc ot od sd ss cd cs oo a :
  vok mk cm d os oa oc ot od sd ss cd cs oo -> engagements d = 0 ->
  vok mk cm (d <| owner := a |>) os oa oc ot od sd ss cd cs oo.
Proof.
  intros H He. destruct (unengaged_flags d He) as (F1&F2&F3&F4&F5&F6). destruct H.
  split; try done.
  - intros x ->. cbn in v_listed. congruence.
  - intros x ->. rewrite F1 in v_listed. cbn in v_listed. rewrite orb_true_r in v_listed. done.
  - intros x ->. cbn in v_rented. congruence.
Qed.

Lemma deposit_role c role j : deposit_nft c role = Some j -> exists f, cf_nft f = Some j /\
  (f = r_renter_cf c /\ role = true \/ f = r_rentee_cf c /\ role = false /\ isS (r_rentee c) = true).
Proof.
  unfold deposit_nft. destruct role; [eauto 6|]. destruct (r_rentee c); [|done]. eauto 6.
Qed.

(** An NFT in the pot is not engaged. *)
Lemma pot_unengaged s j d : inv1 s -> nfts (s_nft s) !! j = Some d -> owner d ∈ pots -> engagements d = 0.
Proof.
  intros HI Hj Hp. pose proof (i_view s HI j) as Hv. unfold view_ok in Hv. rewrite Hj in Hv.
  by apply (v_pot _ _ _ _ _ _ _ _ _ _ _ _ _ Hv).
Qed.

(** A contract goes away and the NFTs it held are handed out. *)
Lemma inv1_release s s' id c d a :
  inv1 s -> contracts (s_rent s) !! id = Some c -> nfts (s_nft s) !! id = Some d ->
  nfts (s_nft s') !! id = Some (put_rented false (d <| owner := a |>)) ->
  (forall j, j <> id ->
     nfts (s_nft s') !! j = nfts (s_nft s) !! j \/
     exists role x b, deposit_nft c role = Some j /\ nfts (s_nft s) !! j = Some x /\
                      nfts (s_nft s') !! j = Some (x <| owner := b |>)) ->
  contracts (s_rent s') = delete id (contracts (s_rent s)) ->
  (forall i l, offers (s_rent s') !! i = Some l -> offers (s_rent s) !! i = Some l) ->
  (exists n, s_nft s' = s_nft s <| nfts := n |>) ->
  s_mkt s' = s_mkt s -> s_auc s' = s_auc s -> s_trans s' = s_trans s ->
  inv1 s'.
Proof.
  intros HI Hc Hd Hd' Hn Hcs Ho [n Hs] e1 e2 e3.
  assert (forall j role, j <> id -> deposit_nft c role = Some j ->
    exists x, nfts (s_nft s) !! j = Some x /\ owner x = rent_pot /\ engagements x = 0) as Hdep.
  { intros j role Hj Hr. destruct (i_cust s HI id c role j Hc Hr) as [[_ ->]|[(x&Hx&Hx') _]]; [done|].
    exists x. split; [done|]. split; [done|]. eapply pot_unengaged; [done..|].
    rewrite Hx'. apply rent_pot_in. }
  pose proof HI as [H1 H2 H3 H4].
  assert (forall j, isS (nfts (s_nft s') !! j) = isS (nfts (s_nft s) !! j)) as HisS.
  { intros j. destruct (decide (j = id)) as [->|Hj]; [by rewrite Hd', Hd|].
    destruct (Hn j Hj) as [->|(?&?&?&_&->&->)]; done. }
  split.
  - intros j Hj. rewrite Hs in Hj. cbn in Hj. specialize (H1 j Hj). specialize (HisS j).
    rewrite H1 in HisS. by apply isS_false.
  - intros j. specialize (H2 j). unfold view_ok in *. rewrite Hcs, e1, e2, e3.
    rewrite Hs. cbn [delegated secret_data secret_shards capsule_data capsule_shards nfts set].
    replace n with (nfts (s_nft s')) by (rewrite Hs; done).
    destruct (decide (j = id)) as [->|Hj].
    + rewrite Hd', lookup_delete. rewrite Hd, Hc in H2. 
      destruct H2; cbn [isS] in v_rented; flag_facts. clear Hdep Hn H1 H3 H4 HisS. split; st_cbn; rwE; try done.
      1,2: unfold engagements in *; st_cbn; rwE; cbn [N.b2n] in *; rwE_in v_one; cbn [N.b2n] in v_one; clear - v_one; lia.
      all: intros l Hl; destruct (v_sshards l Hl); congruence || destruct (v_cshards l Hl); congruence.
    + rewrite lookup_delete_ne by done.
      assert (Hv : forall y, vok (mkts (s_mkt s)) (commissions (s_auc s) !! j) y (sales (s_mkt s) !! j)
        (auctions (s_auc s) !! j) (contracts (s_rent s) !! j) (transs (s_trans s) !! j)
        (delegated (s_nft s) !! j) (secret_data (s_nft s) !! j) (secret_shards (s_nft s) !! j)
        (capsule_data (s_nft s) !! j) (capsule_shards (s_nft s) !! j) (offers (s_rent s) !! j) ->
        vok (mkts (s_mkt s)) (commissions (s_auc s) !! j) y (sales (s_mkt s) !! j)
        (auctions (s_auc s) !! j) (contracts (s_rent s) !! j) (transs (s_trans s) !! j)
        (delegated (s_nft s) !! j) (secret_data (s_nft s) !! j) (secret_shards (s_nft s) !! j)
        (capsule_data (s_nft s) !! j) (capsule_shards (s_nft s) !! j) (offers (s_rent s') !! j)).
      { clear - Ho. intros y []. split; try done. intros x Hx. destruct (v_con x Hx) as (?&?&Hr&?).
        split; [done|]. split; [done|]. split; [|done]. intros Hr'. specialize (Hr Hr').
        destruct (offers (s_rent s') !! j) as [l|] eqn:El; [|done]. apply Ho in El. congruence. }
      destruct (Hn j Hj) as [->|(role&x&b&Hr&Hx&->)].
      * destruct (nfts (s_nft s) !! j); [|done]. by apply Hv.
      * rewrite Hx in H2. destruct (Hdep j role Hj Hr) as (x'&Hx'&_&He). rewrite Hx in Hx'. simplify_eq.
        by apply vok_move; [apply Hv|].
  - intros i l Hl. apply Ho in Hl. by eapply H3.
  - intros id' c' role j Hc' Hr. rewrite Hcs in Hc'.
    apply lookup_delete_Some in Hc' as [Hne Hc'].
    destruct (H4 id' c' role j Hc' Hr) as [?|[(x&Hx&Hx') Hu]]; [by left|].
    right. split.
    + assert (j <> id) as Hj.
      { intros ->. rewrite Hd in Hx. simplify_eq.
        destruct (unengaged_flags x) as (_&_&F&_); [eapply pot_unengaged; [exact HI|done|]; rewrite Hx'; apply rent_pot_in|].
        destruct (contract_nft s id c HI Hc) as (y&Hy&Hy'&_). simplify_eq. congruence. }
      destruct (Hn j Hj) as [->|(role'&y&b&Hr'&Hy&Hy')]; [eauto|].
      destruct (Hu id c role' Hc Hr') as [-> _]. done.
    + intros id2 c2 role2 Hc2 Hr2. rewrite Hcs in Hc2. apply lookup_delete_Some in Hc2 as [_ Hc2].
      by eapply Hu.
Qed.


(** The NFT id of a successful [change_nft_ownership]. *)
Lemma change_owner_run j a s d :
  nfts (s_nft s) !! j = Some d ->
  change_nft_ownership j a s = (Ok tt, s <| s_nft ::= fun n => n <| nfts ::= <[j := d <| owner := a |>]> |> |>).
Proof. intros H. unfold change_nft_ownership, bind, get_nft, gets, unwrap. rewrite H. done. Qed.

Lemma deposit_exists s id c role j d :
  inv1 s -> contracts (s_rent s) !! id = Some c -> nfts (s_nft s) !! id = Some d ->
  deposit_nft c role = Some j -> is_Some (nfts (s_nft s) !! j).
Proof.
  intros HI Hc Hd Hr. destruct (i_cust s HI id c role j Hc Hr) as [[_ ->]|[(x&Hx&_) _]]; eauto.
Qed.

Lemma deposits_differ s id c j1 j2 :
  inv1 s -> contracts (s_rent s) !! id = Some c ->
  deposit_nft c true = Some j1 -> deposit_nft c false = Some j2 -> j1 <> j2.
Proof.
  intros HI Hc H1 H2 ->.
  destruct (i_cust s HI id c false j2 Hc H2) as [[? _]|[_ Hu]]; [done|].
  by destruct (Hu id c true Hc H1).
Qed.

Lemma rentee_deposit_ne s id c j :
  inv1 s -> contracts (s_rent s) !! id = Some c -> deposit_nft c false = Some j -> j <> id.
Proof.
  intros HI Hc H2 ->.
  destruct (i_cust s HI id c false id Hc H2) as [[? _]|[(x&Hx&Hx') _]]; [done|].
  destruct (contract_nft s id c HI Hc) as (y&Hy&Hy'&_). simplify_eq.
  destruct (unengaged_flags x) as (_&_&F&_); [|congruence].
  eapply pot_unengaged; [exact HI|done|]. rewrite Hx'. apply rent_pot_in.
Qed.

(** [handle_finished] either stops at a failing token transfer, having moved tokens only, or
    finishes. *)
Lemma insert_alter_like {V} (m : gmap N V) j v f : m !! j = Some v -> <[j := f v]> m = alter f j m.
Proof.
  intros H. apply map_eq. intros i. destruct (decide (i = j)) as [->|].
  - rewrite lookup_insert, lookup_alter, H. done.
  - rewrite lookup_insert_ne, lookup_alter_ne by done. done.
Qed.

Lemma nft_upd_ext s f g : f (nfts (s_nft s)) = g (nfts (s_nft s)) ->
  s <| s_nft ::= fun n => n <| nfts ::= f |> |> = s <| s_nft ::= fun n => n <| nfts ::= g |> |>.
Proof. intros H. unfold set; st_cbn. by rewrite H. Qed.

Lemma handle_finished_cases s id :
  inv1 s ->
  (exists e b, handle_finished id s = (Err e, s <| s_bal := b |>)) \/
  (exists c d b s', contracts (s_rent s) !! id = Some c /\ nfts (s_nft s) !! id = Some d /\
     handle_finished id s = (Ok tt, s') /\
     s' = s <| s_bal := b |>
            <| s_nft ::= fun n => n <| nfts ::= fun m => <[id := put_rented false d]>
                 (match deposit_nft c false, r_rentee c with
                  | Some j, Some r => alter (fun x => x <| owner := r |>) j
                  | _, _ => fun m => m end
                 (match deposit_nft c true with
                  | Some j => alter (fun x => x <| owner := r_renter c |>) j
                  | _ => fun m => m end m)) |> |>
            <| s_rent ::= fun r => r <| contracts ::= delete id |> |>).
Proof.
  intros HI.
  assert (Hbal : s = s <| s_bal := s_bal s |>) by (by destruct s).
  destruct (contracts (s_rent s) !! id) as [c|] eqn:Hc.
  2: { left. eexists _, (s_bal s). rewrite <- Hbal. unfold handle_finished, get_contract, bind, gets, unwrap. rewrite Hc. done. }
  destruct (nfts (s_nft s) !! id) as [d|] eqn:Hd.
  2: { left. eexists _, (s_bal s). rewrite <- Hbal. unfold handle_finished, get_contract, get_nft, bind, gets, unwrap. rewrite Hc, Hd. done. }
  destruct (transfer_b rent_pot (r_renter c) (cf_amount (r_renter_cf c)) false (s_bal s)) as [b|e] eqn:Hb1.
  2: { left. eexists _, (s_bal s). rewrite <- Hbal. unfold handle_finished, get_contract, get_nft, bind, gets, unwrap. rewrite Hc, Hd.
       unfold transfer at 1, lift_bal at 1. rewrite Hb1. done. }
  assert (forall b, inv1 (s <| s_bal := b |>)) as Hb by (intros b'; frame).
  assert (exists b' r, (on_some (r_rentee c) (fun rentee => transfer rent_pot rentee (cf_amount (r_rentee_cf c)) false)) (s <| s_bal := b |>) = (r, s <| s_bal := b' |>)) as (b'&r&Hr).
  { destruct (r_rentee c) as [n|]; cbn [on_some]; [|by eexists b, _].
    unfold transfer, lift_bal. destruct (transfer_b rent_pot n _ _ _) as [b'|e]; [|by eexists b, _].
    eexists b', _. reflexivity. }
  destruct r as [[]|e].
  2: { left. eexists _, b'. unfold handle_finished, get_contract, get_nft, bind, gets, unwrap. rewrite Hc, Hd.
       unfold transfer at 1, lift_bal at 1. rewrite Hb1, Hr. done. }
  right. exists c, d, b'. specialize (Hb b'). set (s1 := s <| s_bal := b' |>) in *.
  assert (contracts (s_rent s1) !! id = Some c) as Hc1 by done.
  assert (nfts (s_nft s1) !! id = Some d) as Hd1 by done.
  eexists. split; [done|]. split; [done|]. split; [|reflexivity].
  unfold handle_finished, get_contract, get_nft, bind, gets, unwrap. rewrite Hc, Hd.
  unfold transfer at 1, lift_bal at 1. rewrite Hb1, Hr.
  replace (on_some (cf_nft (r_renter_cf c)) (fun i => change_nft_ownership i (r_renter c)))
    with (on_some (deposit_nft c true) (fun i => change_nft_ownership i (r_renter c))) by done.
  replace (on_some (r_rentee c) (fun rentee => on_some (cf_nft (r_rentee_cf c)) (fun i => change_nft_ownership i rentee)))
    with (on_some (deposit_nft c false) (fun i => on_some (r_rentee c) (fun rentee => change_nft_ownership i rentee))).
  2: { unfold deposit_nft. destruct (r_rentee c); cbn [on_some]; [|done]. by destruct (cf_nft _). }
  assert (exists s2, on_some (deposit_nft c true) (fun i => change_nft_ownership i (r_renter c)) s1 = (Ok tt, s2) /\
    s2 = s1 <| s_nft ::= fun n => n <| nfts ::= match deposit_nft c true with
                  | Some j => alter (fun x => x <| owner := r_renter c |>) j
                  | _ => fun m => m end |> |>) as (s2&Hs2&Hs2').
  { destruct (deposit_nft c true) as [j|] eqn:Hj; cbn [on_some].
    - destruct (deposit_exists s1 id c true j d Hb Hc1 Hd1 Hj) as [x Hx].
      rewrite (change_owner_run _ _ _ _ Hx). eexists. split; [done|].
      pose proof (insert_alter_like _ _ _ (fun x => x <| owner := r_renter c |>) Hx) as E.
      apply nft_upd_ext, E.
    - eexists. split; [done|]. by destruct s1 as [??? [] ????????]. }
  rewrite Hs2. subst s2.
  destruct (deposit_nft c false) as [j|] eqn:Hj; cbn [on_some].
  - destruct (r_rentee c) as [rt|] eqn:Hrt; [|unfold deposit_nft in Hj; by rewrite Hrt in Hj]. cbn [on_some].
    destruct (deposit_exists s1 id c false j d Hb Hc1 Hd1 Hj) as [x Hx].
    match goal with |- context [change_nft_ownership j rt ?q] => assert (exists y, nfts (s_nft q) !! j = Some y) as [y Hy] end.
    { st_cbn. destruct (deposit_nft c true) as [j1|] eqn:Hj1; [|eauto].
      rewrite lookup_alter_ne by (by eapply deposits_differ; [exact Hb|exact Hc1|..]). eauto. }
    rewrite (change_owner_run _ _ _ _ Hy).
    pose proof (insert_alter_like _ _ _ (fun x => x <| owner := rt |>) Hy) as E.
    erewrite nft_upd_ext by exact E. done.
  - done.
Qed.


Lemma deposit_false_rentee c j : deposit_nft c false = Some j -> exists r, r_rentee c = Some r.
Proof. unfold deposit_nft. destruct (r_rentee c); [eauto|done]. Qed.

Lemma inv1_pres_handle_finished id : pres inv1 (handle_finished id).
Proof.
  intros s HI. destruct (handle_finished_cases s id HI) as [(e&b&->)|(c&d&b&s'&Hc&Hd&->&->)].
  { frame. }
  destruct (contract_nft s id c HI Hc) as (d0&Hd0&_&_). simplify_eq.
  eapply (inv1_release s _ id c d (owner d)); st_cbn; try done.
  - rewrite lookup_insert. by destruct d.
  - intros j Hj. rewrite lookup_insert_ne by done.
    destruct (deposit_nft c false) as [j2|] eqn:H2.
    + destruct (deposit_false_rentee c j2 H2) as [r Hr]. rewrite Hr.
      destruct (decide (j = j2)) as [->|].
      * rewrite lookup_alter. right.
        destruct (deposit_exists s id c false j2 d HI Hc Hd H2) as [x Hx].
        exists false, x, r. split; [done|]. split; [done|].
        destruct (deposit_nft c true) as [j1|] eqn:H1.
        -- rewrite lookup_alter_ne by (by eapply deposits_differ). by rewrite Hx.
        -- by rewrite Hx.
      * rewrite lookup_alter_ne by done.
        destruct (deposit_nft c true) as [j1|] eqn:H1; [|by left].
        destruct (decide (j = j1)) as [->|]; [|left; by rewrite lookup_alter_ne].
        right. destruct (deposit_exists s id c true j1 d HI Hc Hd H1) as [x Hx].
        exists true, x, (r_renter c). rewrite lookup_alter, Hx. done.
    + destruct (deposit_nft c true) as [j1|] eqn:H1; [|by left].
      destruct (decide (j = j1)) as [->|]; [|left; by rewrite lookup_alter_ne].
      right. destruct (deposit_exists s id c true j1 d HI Hc Hd H1) as [x Hx].
      exists true, x, (r_renter c). rewrite lookup_alter, Hx. done.
  - eexists. reflexivity.
Qed.

Lemma inv1_cancel_contract s who id s' :
  inv1 s -> cancel_contract who id s = (Ok tt, s') -> inv1 s'.
Proof.
  intros HI H. unfold cancel_contract in H. do 6 mstep H.
  apply bind_ok in H as ([]&s1&H1&H). mstep H. subst s'.
  match type of H1 with _ ?q = _ => set (s0 := q) in *; assert (HI0 : inv1 s0) end.
  { subst s0. destruct HI as [G1 G2 G3 G4]. split; st_cbn; try done.
    - intros j. specialize (G2 j). unfold view_ok in *. st_cbn.
      destruct (nfts (s_nft s) !! j); [|done]. destruct G2; split; try done.
      intros y Hy. destruct (v_con y Hy) as (?&?&Hr&?). split; [done|]. split; [done|].
      split; [|done]. intros Hr'. specialize (Hr Hr').
      destruct (decide (j = id)) as [->|]; [by rewrite lookup_delete|by rewrite lookup_delete_ne].
    - intros i l Hl. apply lookup_delete_Some in Hl as [_ Hl]. by eapply G3. }
  pose proof (inv1_pres_handle_finished id s0 HI0) as HI1. rewrite H1 in HI1. cbn [snd] in HI1. frame.
Qed.

(** A token payment or an NFT hand-over of [return_cancellation_fee]. *)
Lemma return_fee_run f a s s' :
  return_cancellation_fee f a s = (Ok tt, s') ->
  exists b, s' = s <| s_bal := b |> <| s_nft ::= fun n => n <| nfts ::=
    match cf_nft f with Some j => alter (fun x => x <| owner := a |>) j | None => fun m => m end |> |> /\
    forall j, cf_nft f = Some j -> is_Some (nfts (s_nft s) !! j).
Proof.
  intros H. unfold return_cancellation_fee in H. do 2 mstep H.
  - exists b. unfold change_nft_ownership in H. do 3 mstep H. subst s'. rewrite O. split.
    + unfold set_nft. st_cbn_in U. apply (nft_upd_ext (s <| s_bal := b |>)). st_cbn.
      by rewrite <- (insert_alter_like _ _ _ (fun y => y <| owner := a |>) U).
    + intros j [= <-]. eauto.
  - exists b. rewrite O. subst s'. split; [|done]. by destruct s as [??? [] ????????].
Qed.

Lemma return_flexible_run o a p full s s' :
  return_flexible_fee o a p full s = (Ok tt, s') -> exists b, s' = s <| s_bal := b |>.
Proof. intros H. minv H. subst. eexists. reflexivity. Qed.

(** [m'] is [m] with some NFTs satisfying [P] in other hands. *)
Definition moved (P : N -> Prop) (m m' : gmap N nft_data) : Prop :=
  forall j, m' !! j = m !! j \/ exists x b, P j /\ m !! j = Some x /\ m' !! j = Some (x <| owner := b |>).
Lemma moved_refl P m : moved P m m.
Proof. intros j. by left. Qed.
Lemma moved_trans P m1 m2 m3 : moved P m1 m2 -> moved P m2 m3 -> moved P m1 m3.
Proof.
  intros H1 H2 j. destruct (H1 j) as [E1|(x&b&Hp&E1&E1')]; destruct (H2 j) as [E2|(y&b'&Hp'&E2&E2')].
  - left. congruence.
  - right. exists y, b'. rewrite <- E1. done.
  - right. exists x, b. rewrite E2. done.
  - right. exists x, b'. rewrite E1' in E2. injection E2 as <-. done.
Qed.
Lemma moved_alter (P : N -> Prop) o a m :
  (forall j, o = Some j -> P j) ->
  moved P m (match o with Some j => alter (fun x => x <| owner := a |>) j | None => fun m => m end m).
Proof.
  intros HP. destruct o as [k|]; [|apply moved_refl]. intros j.
  destruct (decide (j = k)) as [->|]; [|left; by rewrite lookup_alter_ne].
  rewrite lookup_alter. destruct (m !! k) as [x|] eqn:E; [|by left]. right. exists x, a. auto.
Qed.
Lemma moved_lookup P m m' j d : moved P m m' -> m !! j = Some d -> exists a, m' !! j = Some (d <| owner := a |>).
Proof.
  intros H Hd. destruct (H j) as [->|(x&b&_&E&->)]; [|exists b; congruence].
  exists (owner d). rewrite Hd. by destruct d.
Qed.

Lemma deposit_of c f j : (f = r_renter_cf c \/ (f = r_rentee_cf c /\ is_Some (r_rentee c))) ->
  cf_nft f = Some j -> exists role, deposit_nft c role = Some j.
Proof. intros [->|[-> [r Hr]]] H; [by exists true|exists false]. unfold deposit_nft. by rewrite Hr. Qed.

Lemma inv1_revoke_contract s who id s' :
  inv1 s -> revoke_contract who id s = (Ok tt, s') -> inv1 s'.
Proof.
  intros HI H. unfold revoke_contract in H. do 5 mstep H.
  apply bind_ok in H as ([]&s0&HW&Hq).
  assert (s0 = s) as -> by (minv HW; done). clear HW.
  rename x into c. rename x0 into rentee.
  set (f1 := if r_renter c =? who then r_rentee_cf c else r_renter_cf c) in *.
  set (f2 := if r_renter c =? who then r_renter_cf c else r_rentee_cf c) in *.
  set (dm := if r_renter c =? who then rentee else r_renter c) in *.
  assert (Hf1 : f1 = r_renter_cf c \/ (f1 = r_rentee_cf c /\ is_Some (r_rentee c))).
  { subst f1. destruct (r_renter c =? who); eauto. }
  assert (Hf2 : f2 = r_renter_cf c \/ (f2 = r_rentee_cf c /\ is_Some (r_rentee c))).
  { subst f2. destruct (r_renter c =? who); eauto. }
  apply bind_ok in Hq as ([]&s1&H1&H). apply return_fee_run in H1 as (b1&Hs1&Hx1).
  apply bind_ok in H as ([]&s2&H2&H).
  assert (exists b2, s2 = s1 <| s_bal := b2 |> <| s_nft ::= fun n => n <| nfts ::=
    match cf_nft f2 with Some j => alter (fun x => x <| owner := dm |>) j | None => fun m => m end |> |>) as (b2&Hs2).
  { destruct (cf_flexible f2) as [full|] eqn:Hfl.
    - mstep H2. apply return_flexible_run in H2 as [b2 ->]. exists b2.
      destruct f2; try done. cbn [cf_nft]. by destruct s1 as [??? [] ????????].
    - apply return_fee_run in H2 as (b2&->&_). by exists b2. }
  set (P := fun j => exists role, deposit_nft c role = Some j).
  assert (Hm : moved P (nfts (s_nft s)) (nfts (s_nft s2))).
  { subst s2 s1. st_cbn. eapply moved_trans; apply moved_alter; intros j Hj;
      [eapply (deposit_of c f1)|eapply (deposit_of c f2)]; done. }
  destruct (contract_nft s id c HI U) as (d&Hd&_&_).
  destruct (moved_lookup P _ _ id d Hm Hd) as [a Ha].
  do 6 mstep H. st_cbn_in U1. rewrite Ha in U1. injection U1 as <-. subst s'.
  eapply (inv1_release s _ id c d a); try done; st_cbn.
  - by rewrite lookup_insert.
  - intros j Hj. rewrite lookup_insert_ne by done.
    destruct (Hm j) as [->|(y&b&[role Hr]&Hy&->)]; [by left|]. right. exists role, y, b. done.
  - subst s2 s1. done.
  - subst s2 s1. done.
  - subst s2 s1. eexists. reflexivity.
  - subst s2 s1. done.
  - subst s2 s1. done.
  - subst s2 s1. done.
Qed.

(** The NFTs an ordinary account can hand over. *)
Definition handable (s : state) (j : N) : Prop :=
  exists d, nfts (s_nft s) !! j = Some d /\ owner d ∉ pots /\ engagements d = 0.

Lemma handable_no_deposit s j id c role :
  inv1 s -> handable s j -> contracts (s_rent s) !! id = Some c -> deposit_nft c role = Some j -> False.
Proof.
  intros HI (d&Hd&Hp&He) Hc Hr.
  destruct (i_cust s HI id c role j Hc Hr) as [[_ ->]|[(x&Hx&Hx') _]].
  - destruct (contract_nft s id c HI Hc) as (y&Hy&Hy'&_). simplify_eq.
    apply unengaged_flags in He. destruct He as (_&_&?&_). congruence.
  - simplify_eq. rewrite Hx' in Hp. apply Hp, rent_pot_in.
Qed.

Lemma moved_isS P m m' j : moved P m m' -> isS (m' !! j) = isS (m !! j).
Proof. intros H. destruct (H j) as [->|(?&?&_&->&->)]; done. Qed.

(** Moving NFTs of ordinary accounts keeps every NFT view. *)
Lemma moved_view s n' j :
  inv1 s -> moved (handable s) (nfts (s_nft s)) n' ->
  view_ok (s <| s_nft ::= fun x => x <| nfts := n' |> |>) j.
Proof.
  intros HI Hm. pose proof (i_view s HI j) as Hv. unfold view_ok in *. st_cbn.
  destruct (Hm j) as [->|(x&b&(d&Hd&_&He)&Hx&->)]; [done|].
  rewrite Hx in Hv, Hd. injection Hd as ->. by apply vok_move.
Qed.
Lemma moved_pot s n' j d :
  moved (handable s) (nfts (s_nft s)) n' -> nfts (s_nft s) !! j = Some d -> owner d = rent_pot ->
  n' !! j = Some d.
Proof.
  intros Hm Hd Ho. destruct (Hm j) as [->|(x&b&(y&Hy&Hp&_)&Hx&_)]; [done|].
  exfalso. simplify_eq. rewrite Ho in Hp. apply Hp, rent_pot_in.
Qed.

Lemma inv1_start s s' id c rentee now n' :
  inv1 s -> contracts (s_rent s) !! id = Some c -> r_rentee c = None -> rentee ∉ pots ->
  moved (handable s) (nfts (s_nft s)) n' ->
  (forall k, cf_nft (r_rentee_cf c) = Some k -> handable s k /\
     exists x, n' !! k = Some x /\ owner x = rent_pot) ->
  s_nft s' = s_nft s <| nfts := n' |> ->
  contracts (s_rent s') = <[id := c <| r_rentee := Some rentee |> <| r_start := Some now |>]> (contracts (s_rent s)) ->
  offers (s_rent s') = delete id (offers (s_rent s)) ->
  s_mkt s' = s_mkt s -> s_auc s' = s_auc s -> s_trans s' = s_trans s ->
  inv1 s'.
Proof.
  intros HI Hc Hr Hp Hm Hk en ec eo e1 e2 e3.
  split.
  - intros j Hj. rewrite en in *. st_cbn_in Hj. st_cbn.
    pose proof (i_next s HI j Hj) as Hn. apply isS_false. rewrite (moved_isS _ _ _ j Hm), Hn. done.
  - intros j. pose proof (moved_view s n' j HI Hm) as Hv. unfold view_ok in *.
    rewrite ec, eo, en, e1, e2, e3. st_cbn. st_cbn_in Hv.
    destruct (decide (j = id)) as [->|Hj].
    + rewrite lookup_insert, lookup_delete. rewrite Hc in Hv.
      destruct (n' !! id); [|by destruct Hv]. destruct Hv. split; try done.
      intros x [= <-]. cbn. destruct (v_con c eq_refl) as (?&?&?&?).
      split; [done|]. split; [done|]. split; [done|]. intros r [= <-]. done.
    + rewrite lookup_insert_ne, lookup_delete_ne by done. done.
  - intros i l Hl. rewrite eo in Hl. apply lookup_delete_Some in Hl as [_ Hl]. by eapply (i_offers s HI).
  - rewrite ec, en. st_cbn. intros id1 c1 role1 j Hc1 Hr1.
    set (c' := c <| r_rentee := Some rentee |> <| r_start := Some now |>) in *.
    assert (Hold : forall id2 c2 role2, <[id := c']> (contracts (s_rent s)) !! id2 = Some c2 ->
      deposit_nft c2 role2 = Some j ->
      (id2 = id /\ role2 = false /\ cf_nft (r_rentee_cf c) = Some j) \/
      exists c3, contracts (s_rent s) !! id2 = Some c3 /\ deposit_nft c3 role2 = Some j /\ (id2 = id -> role2 = true)).
    { intros id2 c2 role2 H2 H3. destruct (decide (id2 = id)) as [->|Hne].
      - rewrite lookup_insert in H2. injection H2 as <-. destruct role2.
        + right. exists c. eauto.
        + left. cbn in H3. eauto.
      - rewrite lookup_insert_ne in H2 by done. right. exists c2. split; [done|]. split; [done|]. done. }
    destruct (Hold id1 c1 role1 Hc1 Hr1) as [(->&->&Hcf)|(c3&Hc3&Hr3&Hrole)].
    + right. destruct (Hk j Hcf) as [Hh (x&Hx&Hx')]. split; [eauto|].
      intros id2 c2 role2 H2 H3. destruct (Hold id2 c2 role2 H2 H3) as [(->&->&_)|(c4&Hc4&Hr4&_)]; [done|].
      exfalso. by eapply (handable_no_deposit s j id2 c4 role2).
    + destruct (i_cust s HI id1 c3 role1 j Hc3 Hr3) as [?|[(x&Hx&Hx') Hu]]; [by left|].
      right. split; [exists x; split; [by eapply moved_pot|done]|].
      intros id2 c2 role2 H2 H3. destruct (Hold id2 c2 role2 H2 H3) as [(->&->&Hcf)|(c4&Hc4&Hr4&_)].
      * exfalso. destruct (Hk j Hcf) as [Hh _]. by eapply (handable_no_deposit s j id1 c3 role1).
      * by eapply Hu.
Qed.

Lemma take_fees_run rentee c s s' :
  take_rent_and_cancellation_fee rentee c s = (Ok tt, s') -> rentee ∉ pots -> r_renter c ∉ pots ->
  exists b n', s' = s <| s_bal := b |> <| s_nft ::= fun x => x <| nfts := n' |> |> /\
    moved (handable s) (nfts (s_nft s)) n' /\
    (forall k, cf_nft (r_rentee_cf c) = Some k -> handable s k /\
       exists x, n' !! k = Some x /\ owner x = rent_pot).
Proof.
  intros H Hp Hp'. unfold take_rent_and_cancellation_fee in H.
  apply bind_map_err in H. do 1 mstep H. apply bind_map_err in H. mstep H.
  set (sb := s <| s_bal := b |> <| s_bal := b0 |>) in *.
  assert (Hchk : forall oi e1 e2 e3 (q : unit -> M unit) r, bind (check_fee_nft rentee oi e1 e2 e3) q sb = (Ok r, s') ->
    (forall k, oi = Some k -> handable s k) /\ q tt sb = (Ok r, s')).
  { intros oi e1 e2 e3 q r Hq. unfold check_fee_nft in Hq. minv Hq.
    - split; [|done]. intros k Hk. rewrite O in Hk. injection Hk as <-. exists x. split; [done|]. subst rentee. split; [done|].
      by apply rentable_unengaged.
    - split; [|done]. congruence. }
  apply Hchk in H as [Hrf H]. apply Hchk in H as [Hcf H]. clear Hchk.
  apply bind_ok in H as ([]&s1&H1&H).
  assert (exists n1, s1 = sb <| s_nft ::= fun x => x <| nfts := n1 |> |> /\
     moved (handable s) (nfts (s_nft s)) n1) as (n1&->&Hm1).
  { apply on_some_ok in H1 as [(j&Hj&H1)|[_ <-]].
    - unfold map_err, change_nft_ownership, bind, get_nft, gets, unwrap in H1.
      destruct (nfts (s_nft sb) !! j) as [d|] eqn:Ed; [|done]. injection H1 as <-.
      eexists. split; [reflexivity|]. intros k. destruct (decide (k = j)) as [->|].
      + right. exists d, (r_renter c). change (nfts (s_nft sb)) with (nfts (s_nft s)) in *.
        rewrite lookup_insert. auto.
      + left. by rewrite lookup_insert_ne.
    - exists (nfts (s_nft sb)). split; [by destruct sb as [??? [] ????????]|]. apply moved_refl. }
  apply on_some_ok in H as [(j&Hj&H)|[Hj <-]].
  - unfold map_err, change_nft_ownership, bind, get_nft, gets, unwrap in H. st_cbn_in H.
    destruct (n1 !! j) as [d|] eqn:Ed; [|done]. injection H as <-.
    exists b0, (<[j := d <| owner := rent_pot |>]> n1). split; [reflexivity|]. split.
    + eapply moved_trans; [exact Hm1|]. intros k. destruct (decide (k = j)) as [->|].
      * right. exists d, rent_pot. rewrite lookup_insert. auto.
      * left. by rewrite lookup_insert_ne.
    + intros k Hk. rewrite Hk in Hj. injection Hj as ->. split; [by apply Hcf|].
      rewrite lookup_insert. eexists. split; [done|]. done.
  - exists b0, n1. split; [reflexivity|]. split; [done|]. intros k Hk. congruence.
Qed.

Lemma start_contract_run id rentee c s s' :
  start_contract id rentee c s = (Ok tt, s') ->
  exists q, queues_insert id (s_now s + duration_or_period (r_duration c)) (kind_of (r_duration c))
              (queues_remove id QAvail (queues (s_rent s))) = Some q /\
    s' = s <| s_rent ::= fun r => r <| queues := q |> <| offers ::= delete id |>
        <| contracts ::= <[id := c <| r_rentee := Some rentee |> <| r_start := Some (s_now s) |>]> |> |>.
Proof. intros H. minv H. exists x. split; [done|]. subst. reflexivity. Qed.

Lemma renter_not_pot s id c : inv1 s -> contracts (s_rent s) !! id = Some c -> r_renter c ∉ pots.
Proof.
  intros HI Hc. destruct (contract_nft s id c HI Hc) as (d&Hd&_&<-).
  eapply engaged_not_pot; eauto.
Qed.

Lemma inv1_rent s who id cb s' :
  inv1 s -> who ∉ pots -> rent who id cb s = (Ok tt, s') -> inv1 s'.
Proof.
  intros HI Hw H. unfold rent in H. do 7 mstep H.
  apply bind_ok in H as ([]&s1&H1&H). apply bind_ok in H as ([]&s2&H2&H).
  apply take_fees_run in H1 as (b&n'&->&Hm&Hk); [|done|by eapply renter_not_pot].
  apply start_contract_run in H2 as (q&_&->). mstep H. subst s'.
  eapply (inv1_start s _ id x who (s_now s) n'); try done.
Qed.

Lemma inv1_accept_rent_offer s who id a s' :
  inv1 s -> accept_rent_offer who id a s = (Ok tt, s') -> inv1 s'.
Proof.
  intros HI H. unfold accept_rent_offer in H. do 6 mstep H.
  apply bind_ok in H as ([]&s1&H1&H). apply bind_ok in H as ([]&s2&H2&H).
  pose proof (i_view s HI id) as Hv. unfold view_ok in Hv. rewrite U, U0 in Hv.
  destruct (contract_nft s id x HI U) as (d&Hd&_&_). rewrite Hd in Hv.
  destruct (v_con _ _ _ _ _ _ _ _ _ _ _ _ _ Hv _ eq_refl) as (_&_&Ho&_).
  assert (Hn : r_rentee x = None).
  { destruct (r_rentee x); [|done]. by specialize (Ho eq_refl). }
  assert (Ha : a ∉ pots).
  { pose proof (i_offers s HI id _ U0) as Hf. rewrite Forall_forall in Hf. apply Hf.
    unfold memN in E0. apply existsb_exists in E0 as (y&Hy&Ey). apply N.eqb_eq in Ey as ->.
    by apply elem_of_list_In. }
  apply take_fees_run in H1 as (b&n'&->&Hm&Hk); [|done|by eapply renter_not_pot].
  apply start_contract_run in H2 as (q&_&->). mstep H. subst s'.
  eapply (inv1_start s _ id x a (s_now s) n'); try done.
Qed.

Lemma inv1_make_rent_offer s who id cb s' :
  inv1 s -> who ∉ pots -> make_rent_offer who id cb s = (Ok tt, s') -> inv1 s'.
Proof.
  intros HI Hw H. assert (exists l, s' = s <| s_rent ::= fun r => r <| offers ::= <[id := l ++ [who]]> |> |>
      <| s_events ::= cons (Ev_ContractOfferCreated id who) |> /\ l = default [] (offers (s_rent s) !! id) /\
      exists c, contracts (s_rent s) !! id = Some c /\ r_start c = None) as (l&->&Hl&(c&Hc&Hs)).
  { minv H. all: eexists; split; [exact H|]; split; [done|]; eauto. }
  destruct (contract_nft s id c HI Hc) as (d&Hd&_&_).
  destruct HI as [H1 H2 H3 H4]. split; st_cbn; try done.
  - intros j. specialize (H2 j). unfold view_ok in *. st_cbn.
    destruct (decide (j = id)) as [->|Hj]; [|by rewrite lookup_insert_ne].
    rewrite lookup_insert. rewrite Hd in *. rewrite Hc in *. destruct H2. split; try done.
    intros x [= <-]. destruct (v_con c eq_refl) as (?&Hss&?&?). rewrite Hs in Hss. cbn in Hss.
    rewrite <- Hss. split; [done|]. split; [by rewrite Hs|]. done.
  - intros i l' Hl'. destruct (decide (i = id)) as [->|Hj].
    + rewrite lookup_insert in Hl'. injection Hl' as <-. apply Forall_app. split; [|by repeat constructor].
      subst l. destruct (offers (s_rent s) !! id) eqn:E; cbn; [by eapply H3|constructor].
    + rewrite lookup_insert_ne in Hl' by done. by eapply H3.
Qed.

Lemma inv1_retract_rent_offer s who id s' :
  inv1 s -> retract_rent_offer who id s = (Ok tt, s') -> inv1 s'.
Proof.
  intros HI H. minv H. subst s'.
  destruct HI as [H1 H2 H3 H4]. split; st_cbn; try done.
  - intros j. specialize (H2 j). unfold view_ok in *. st_cbn.
    destruct (decide (j = id)) as [->|Hj]; [|by rewrite lookup_insert_ne].
    rewrite lookup_insert. rewrite U in H2. destruct (nfts (s_nft s) !! id); [|done].
    destruct H2. split; try done. intros y Hy. destruct (v_con y Hy) as (?&?&Hn&?).
    split; [done|]. split; [done|]. split; [|done]. intros Hr. by specialize (Hn Hr).
  - intros i l' Hl'. destruct (decide (i = id)) as [->|Hj].
    + rewrite lookup_insert in Hl'. injection Hl' as <-. apply Forall_delete. by eapply H3.
    + rewrite lookup_insert_ne in Hl' by done. by eapply H3.
Qed.

(** New terms of a contract with the same parties and deposits. *)
Lemma inv1_contract_upd s s' id c c' :
  inv1 s -> contracts (s_rent s) !! id = Some c ->
  contracts (s_rent s') = <[id := c']> (contracts (s_rent s)) ->
  r_renter c' = r_renter c -> r_rentee c' = r_rentee c -> r_start c' = r_start c ->
  r_renter_cf c' = r_renter_cf c -> r_rentee_cf c' = r_rentee_cf c ->
  (forall i l, offers (s_rent s') !! i = Some l -> offers (s_rent s) !! i = Some l) ->
  s_nft s' = s_nft s -> s_mkt s' = s_mkt s -> s_auc s' = s_auc s -> s_trans s' = s_trans s ->
  inv1 s'.
Proof.
  intros HI Hc ec f1 f2 f3 f4 f5 Ho e1 e2 e3 e4. destruct HI as [H1 H2 H3 H4].
  assert (Hdep : forall role, deposit_nft c' role = deposit_nft c role).
  { intros []; unfold deposit_nft; rewrite ?f2, ?f4, ?f5; done. }
  split; rewrite ?e1; try done.
  - intros j. specialize (H2 j). unfold view_ok in *. rewrite ec, e1, e2, e3, e4.
    assert (Hoo : offers (s_rent s) !! j = None -> offers (s_rent s') !! j = None).
    { intros Hx. destruct (offers (s_rent s') !! j) eqn:E; [|done]. apply Ho in E. congruence. }
    destruct (decide (j = id)) as [->|Hj].
    + rewrite lookup_insert. rewrite Hc in *.
      destruct (nfts (s_nft s) !! id); [|by destruct H2]. destruct H2. split; try done.
      intros x [= <-]. destruct (v_con c eq_refl) as (?&?&?&?).
      rewrite f1, f2, f3. split_and!; auto.
    + rewrite lookup_insert_ne by done. destruct (nfts (s_nft s) !! j); [|done].
      destruct H2. split; try done. intros x Hx. destruct (v_con x Hx) as (?&?&?&?). split_and!; auto.
  - intros i l Hl. eapply H3, Ho, Hl.
  - rewrite ec. intros id1 c1 role1 j Hc1 Hr1.
    assert (Hold : forall id2 c2 role2, <[id := c']> (contracts (s_rent s)) !! id2 = Some c2 ->
      deposit_nft c2 role2 = Some j -> exists c3, contracts (s_rent s) !! id2 = Some c3 /\ deposit_nft c3 role2 = Some j).
    { intros id2 c2 role2 G1 G2. destruct (decide (id2 = id)) as [->|Hne].
      - rewrite lookup_insert in G1. injection G1 as <-. rewrite Hdep in G2. eauto.
      - rewrite lookup_insert_ne in G1 by done. eauto. }
    destruct (Hold _ _ _ Hc1 Hr1) as (c3&Hc3&Hr3).
    destruct (H4 _ _ _ _ Hc3 Hr3) as [?|[? Hu]]; [by left|right]. split; [done|].
    intros id2 c2 role2 G1 G2. destruct (Hold _ _ _ G1 G2) as (c4&Hc4&Hr4). by eapply Hu.
Qed.

Lemma inv1_change_subscription_terms s who id f p m ch s' :
  inv1 s -> change_subscription_terms who id f p m ch s = (Ok tt, s') -> inv1 s'.
Proof.
  intros HI H. minv H. all: subst s'.
  all: eapply (inv1_contract_upd s _ id x); try done; st_cbn.
  intros i l Hl. by apply lookup_delete_Some in Hl as [_ Hl].
Qed.

Lemma inv1_accept_subscription_terms s who id f p m ch s' :
  inv1 s -> accept_subscription_terms who id f p m ch s = (Ok tt, s') -> inv1 s'.
Proof.
  intros HI H. minv H. all: subst s'.
  all: eapply (inv1_contract_upd s _ id x); done.
Qed.


Lemma create_contract_run s who id di acc cr fee cf1 cf2 s' :
  create_contract who id di acc cr fee cf1 cf2 s = (Ok tt, s') ->
  exists b n1 q d, nfts (s_nft s) !! id = Some d /\ owner d = who /\ rentable_state (nstate d) = true /\
    transfer_b who rent_pot (cf_amount cf1) true (s_bal s) = Ok b /\
    (n1 = nfts (s_nft s) /\ cf_nft cf1 = None \/
     exists j x, cf_nft cf1 = Some j /\ nfts (s_nft s) !! j = Some x /\ owner x = who /\
       rentable_state (nstate x) = true /\ n1 = <[j := x <| owner := rent_pot |>]> (nfts (s_nft s))) /\
    queues_insert id (s_now s + availability_limit) QAvail (queues (s_rent s)) = Some q /\
    s' = s <| s_bal := b |> <| s_nft ::= fun z => z <| nfts := <[id := put_rented true d]> n1 |> |>
        <| s_rent ::= fun r => r <| queues := q |> <| contracts ::= <[id :=
             mkContract None who None (to_duration di) acc cr fee cf1 cf2 (s_now s)]> |> |>
        <| s_events ::= cons (Ev_ContractCreated id who (to_duration di) acc cr fee cf1 cf2) |>.
Proof.
  intros H. unfold create_contract in H. do 13 mstep H.
  all: apply bind_ok in H as ([]&s0&HW&H); assert (s0 = s) as -> by (by minv HW); clear HW.
  all: apply bind_ok in H as ([]&s0&HW&H); assert (s0 = s) as -> by (by minv HW); clear HW.
  minv H.
  - eexists _, _, _, _. split; [exact U|]. split; [exact E0|]. split; [exact E1|]. split; [exact T|].
    split; [right; eauto 8|]. split; [exact U1|]. subst s'. by destruct s as [??? [] ????????].
  - eexists _, _, _, _. split; [exact U|]. split; [exact E0|]. split; [exact E1|]. split; [exact T|].
    split; [left; eauto 8|]. split; [exact U0|]. subst s'. by destruct s as [??? [] ????????].
Qed.

Lemma inv1_create_contract s who id di acc cr fee cf1 cf2 s' :
  inv1 s -> who ∉ pots -> create_contract who id di acc cr fee cf1 cf2 s = (Ok tt, s') -> inv1 s'.
Proof.
  intros HI Hw H. apply create_contract_run in H as (b&n1&q&d&Hd&Ho&Hr&_&Hn1&_&->).
  assert (Hh : forall j x, nfts (s_nft s) !! j = Some x -> owner x = who -> rentable_state (nstate x) = true -> handable s j).
  { intros j x Hx Hxo Hxr. exists x. split; [done|]. rewrite Hxo. split; [done|]. by apply rentable_unengaged. }
  assert (Hm : moved (handable s) (nfts (s_nft s)) n1).
  { destruct Hn1 as [[-> _]|(j&x&_&Hx&Hxo&Hxr&->)]; [apply moved_refl|].
    intros k. destruct (decide (k = j)) as [->|].
    - right. exists x, rent_pot. rewrite lookup_insert. split; [eauto|]. done.
    - left. by rewrite lookup_insert_ne. }
  assert (Hc : contracts (s_rent s) !! id = None).
  { pose proof (i_view s HI id) as Hv. unfold view_ok in Hv. rewrite Hd in Hv.
    apply rentable_not_rented in Hr. pose proof (v_rented _ _ _ _ _ _ _ _ _ _ _ _ _ Hv) as Hvr.
    rewrite Hr in Hvr. by apply isS_false. }
  set (c' := mkContract None who None (to_duration di) acc cr fee cf1 cf2 (s_now s)).
  split; st_cbn.
  - intros j Hj. pose proof (i_next s HI j Hj) as Hn. rewrite lookup_insert_ne.
    + apply isS_false. rewrite (moved_isS _ _ _ j Hm), Hn. done.
    + intros ->. congruence.
  - intros j. destruct (decide (j = id)) as [->|Hj].
    + pose proof (i_view s HI id) as Hv. unfold view_ok in *. st_cbn. rewrite Hd in Hv. rewrite !lookup_insert.
      pose proof (rentable_unengaged _ Hr) as He. pose proof (unengaged_flags _ He) as (F1&F2&F3&F4&F5&F6).
      clear He. vok_solve.
      * intros Hp. rewrite Ho in Hp. contradiction.
      * intros x [= <-]. subst c'. cbn. split_and!; try done.
    + pose proof (moved_view s n1 j HI Hm) as Hv. unfold view_ok in *. st_cbn. st_cbn_in Hv.
      by rewrite !lookup_insert_ne by done.
  - apply (i_offers s HI).
  - intros id1 c1 role1 j Hc1 Hr1.
    assert (Hold : forall id2 c2 role2, <[id := c']> (contracts (s_rent s)) !! id2 = Some c2 ->
      deposit_nft c2 role2 = Some j ->
      (id2 = id /\ role2 = true /\ cf_nft cf1 = Some j) \/
      (id2 <> id /\ contracts (s_rent s) !! id2 = Some c2)).
    { intros id2 c2 role2 H2 H3. destruct (decide (id2 = id)) as [->|Hne].
      - rewrite lookup_insert in H2. injection H2 as <-. left. destruct role2; done.
      - rewrite lookup_insert_ne in H2 by done. auto. }
    assert (Hcf : cf_nft cf1 = Some j -> handable s j /\
       (j <> id -> exists x, <[id := put_rented true d]> n1 !! j = Some x /\ owner x = rent_pot)).
    { intros Hcf. destruct Hn1 as [[_ ?]|(k&x&Hk&Hx&Hxo&Hxr&->)]; [congruence|].
      rewrite Hcf in Hk. injection Hk as <-. split; [eauto|]. intros Hne.
      rewrite lookup_insert_ne, lookup_insert by done. eauto. }
    destruct (Hold id1 c1 role1 Hc1 Hr1) as [(->&->&Hcj)|(Hne&Hc3)].
    + destruct (Hcf Hcj) as [Hhj Hx]. destruct (decide (j = id)) as [->|Hj]; [by left|]. right.
      split; [by apply Hx|]. intros id2 c2 role2 H2 H3.
      destruct (Hold id2 c2 role2 H2 H3) as [(->&->&_)|(_&Hc4)]; [done|].
      exfalso. by eapply (handable_no_deposit s j id2 c2 role2).
    + destruct (i_cust s HI id1 c1 role1 j Hc3 Hr1) as [?|[(x&Hx&Hx') Hu]]; [by left|]. right. split.
      * exists x. split; [|done]. rewrite lookup_insert_ne; [by eapply moved_pot|].
        intros ->. rewrite Hx in Hd. injection Hd as ->. rewrite <- Ho, Hx' in Hw. apply Hw, rent_pot_in.
      * intros id2 c2 role2 H2 H3. destruct (Hold id2 c2 role2 H2 H3) as [(->&->&Hcj)|(_&Hc4)].
        -- exfalso. destruct (Hcf Hcj) as [Hhj _]. by eapply (handable_no_deposit s j id1 c1 role1).
        -- by eapply Hu.
Qed.

End rent.
