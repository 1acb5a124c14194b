(** The invariant tying the NFT flags to the registries of all pallets, and the custody of
    NFT deposits. *)
From Verif Require Export Sreach.
Local Open Scope N_scope.

Definition isS {A} (o : option A) : bool := match o with Some _ => true | None => false end.
Lemma isS_false {A} (o : option A) : isS o = false <-> o = None.
Proof. destruct o; done. Qed.
Lemma isS_true {A} (o : option A) : isS o = true <-> exists a, o = Some a.
Proof. destruct o; cbn; split; eauto; try done. intros [? [=]]. Qed.

Section invnft.
Context {C : Config}.

Definition engagements (d : nft_data) : N :=
  N.b2n (is_listed (nstate d)) + N.b2n (is_delegated (nstate d)) + N.b2n (is_rented (nstate d)) +
  N.b2n (is_transmission (nstate d)) + N.b2n (is_syncing_secret (nstate d)) +
  N.b2n (is_syncing_capsule (nstate d)).

Definition shards_ok (l : list (N * N)) : Prop :=
  l <> [] /\ nlen l < shards_number /\ NoDup (map snd l) /\ exists c, Forall (fun x => fst x = c) l.

(** Everything the registries say about an existing NFT [d]. *)
Record vok (mk : gmap N marketplace) (cm : option (option compound_fee)) (d : nft_data)
    (os : option sale) (oa : option auction) (oc : option contract) (ot : option transmission)
    (od : option N) (sd : option bytes) (ss : option (list (N * N)))
    (cd : option bytes) (cs : option (list (N * N))) (oo : option (list N)) : Prop := {
  v_one : engagements d <= 1;
  v_pot : owner d ∈ pots -> engagements d = 0;
  v_listed : is_listed (nstate d) = isS os || isS oa;
  v_sale_auc : isS os && isS oa = false;
  v_rented : is_rented (nstate d) = isS oc;
  v_trans : is_transmission (nstate d) = isS ot;
  v_deleg : is_delegated (nstate d) = isS od;
  v_secret : is_secret (nstate d) = isS sd;
  v_capsule : is_capsule (nstate d) = isS cd;
  v_ssync : is_syncing_secret (nstate d) = true -> is_secret (nstate d) = true;
  v_csync : is_syncing_capsule (nstate d) = true -> is_capsule (nstate d) = true;
  v_sshards : forall l, ss = Some l -> shards_ok l /\ is_syncing_secret (nstate d) = true;
  v_cshards : forall l, cs = Some l -> shards_ok l /\ is_syncing_capsule (nstate d) = true;
  v_sale : forall x, os = Some x ->
    sale_seller x = owner d /\ is_Some (mk !! sale_mkt x) /\ covers_flat (sale_commission x) (sale_price x) = true;
  v_auc : forall x, oa = Some x ->
    a_creator x = owner d /\ is_Some (mk !! a_mkt x) /\ is_Some cm;
  v_con : forall x, oc = Some x ->
    r_renter x = owner d /\ isS (r_start x) = isS (r_rentee x) /\
    (isS (r_rentee x) = true -> oo = None) /\
    (forall r, r_rentee x = Some r -> r ∉ pots)
}.

(** Nothing is recorded for an NFT that does not exist. *)
Record vno (os : option sale) (oa : option auction) (oc : option contract) (ot : option transmission)
    (od : option N) (sd : option bytes) (ss : option (list (N * N)))
    (cd : option bytes) (cs : option (list (N * N))) : Prop := {
  vn_sale : os = None;
  vn_auc : oa = None;
  vn_con : oc = None;
  vn_trans : ot = None;
  vn_deleg : od = None;
  vn_secret : sd = None;
  vn_sshards : ss = None;
  vn_capsule : cd = None;
  vn_cshards : cs = None
}.

Definition view_ok (s : state) (i : N) : Prop :=
  match nfts (s_nft s) !! i with
  | Some d =>
      vok (mkts (s_mkt s)) (commissions (s_auc s) !! i) d (sales (s_mkt s) !! i)
        (auctions (s_auc s) !! i) (contracts (s_rent s) !! i) (transs (s_trans s) !! i)
        (delegated (s_nft s) !! i) (secret_data (s_nft s) !! i) (secret_shards (s_nft s) !! i)
        (capsule_data (s_nft s) !! i) (capsule_shards (s_nft s) !! i) (offers (s_rent s) !! i)
  | None =>
      vno (sales (s_mkt s) !! i)
        (auctions (s_auc s) !! i) (contracts (s_rent s) !! i) (transs (s_trans s) !! i)
        (delegated (s_nft s) !! i) (secret_data (s_nft s) !! i) (secret_shards (s_nft s) !! i)
        (capsule_data (s_nft s) !! i) (capsule_shards (s_nft s) !! i)
  end.

(** The NFT that a contract holds as deposit of the renter ([true]) or of the rentee. *)
Definition deposit_nft (c : contract) (renter : bool) : option N :=
  if renter then cf_nft (r_renter_cf c)
  else match r_rentee c with Some _ => cf_nft (r_rentee_cf c) | None => None end.

Definition custody (n : gmap N nft_data) (cs : gmap N contract) : Prop :=
  forall id c role j, cs !! id = Some c -> deposit_nft c role = Some j ->
    (role = true /\ j = id) \/
    ((exists d, n !! j = Some d /\ owner d = rent_pot) /\
     forall id' c' role', cs !! id' = Some c' -> deposit_nft c' role' = Some j ->
       id' = id /\ role' = role).

Record inv1 (s : state) : Prop := {
  i_next : forall i, next_nft (s_nft s) <= i -> nfts (s_nft s) !! i = None;
  i_view : forall i, view_ok s i;
  i_offers : forall i l, offers (s_rent s) !! i = Some l -> Forall (fun a => a ∉ pots) l;
  i_cust : custody (nfts (s_nft s)) (contracts (s_rent s))
}.

Lemma only_listed d : engagements d <= 1 -> is_listed (nstate d) = true ->
  is_delegated (nstate d) = false /\ is_rented (nstate d) = false /\ is_transmission (nstate d) = false /\ is_syncing_secret (nstate d) = false /\ is_syncing_capsule (nstate d) = false.
Proof.
  unfold engagements. intros H E. rewrite E in H. cbn [N.b2n] in H.
  repeat split; apply not_true_is_false; intros E'; rewrite E' in H; cbn [N.b2n] in H; clear - H; lia.
Qed.
Lemma only_delegated d : engagements d <= 1 -> is_delegated (nstate d) = true ->
  is_listed (nstate d) = false /\ is_rented (nstate d) = false /\ is_transmission (nstate d) = false /\ is_syncing_secret (nstate d) = false /\ is_syncing_capsule (nstate d) = false.
Proof.
  unfold engagements. intros H E. rewrite E in H. cbn [N.b2n] in H.
  repeat split; apply not_true_is_false; intros E'; rewrite E' in H; cbn [N.b2n] in H; clear - H; lia.
Qed.
Lemma only_rented d : engagements d <= 1 -> is_rented (nstate d) = true ->
  is_listed (nstate d) = false /\ is_delegated (nstate d) = false /\ is_transmission (nstate d) = false /\ is_syncing_secret (nstate d) = false /\ is_syncing_capsule (nstate d) = false.
Proof.
  unfold engagements. intros H E. rewrite E in H. cbn [N.b2n] in H.
  repeat split; apply not_true_is_false; intros E'; rewrite E' in H; cbn [N.b2n] in H; clear - H; lia.
Qed.
Lemma only_transmission d : engagements d <= 1 -> is_transmission (nstate d) = true ->
  is_listed (nstate d) = false /\ is_delegated (nstate d) = false /\ is_rented (nstate d) = false /\ is_syncing_secret (nstate d) = false /\ is_syncing_capsule (nstate d) = false.
Proof.
  unfold engagements. intros H E. rewrite E in H. cbn [N.b2n] in H.
  repeat split; apply not_true_is_false; intros E'; rewrite E' in H; cbn [N.b2n] in H; clear - H; lia.
Qed.
Lemma only_syncing_secret d : engagements d <= 1 -> is_syncing_secret (nstate d) = true ->
  is_listed (nstate d) = false /\ is_delegated (nstate d) = false /\ is_rented (nstate d) = false /\ is_transmission (nstate d) = false /\ is_syncing_capsule (nstate d) = false.
Proof.
  unfold engagements. intros H E. rewrite E in H. cbn [N.b2n] in H.
  repeat split; apply not_true_is_false; intros E'; rewrite E' in H; cbn [N.b2n] in H; clear - H; lia.
Qed.
Lemma only_syncing_capsule d : engagements d <= 1 -> is_syncing_capsule (nstate d) = true ->
  is_listed (nstate d) = false /\ is_delegated (nstate d) = false /\ is_rented (nstate d) = false /\ is_transmission (nstate d) = false /\ is_syncing_secret (nstate d) = false.
Proof.
  unfold engagements. intros H E. rewrite E in H. cbn [N.b2n] in H.
  repeat split; apply not_true_is_false; intros E'; rewrite E' in H; cbn [N.b2n] in H; clear - H; lia.
Qed.

Lemma rent_pot_in : rent_pot ∈ pots.
Proof. unfold pots. set_solver. Qed.

(** NFTs held by the pot stay there: custody survives any change of the NFTs that respects
    that, when the contracts stay. *)
Lemma custody_nfts n n' cs :
  custody n cs ->
  (forall j d, n !! j = Some d -> owner d = rent_pot -> exists d', n' !! j = Some d' /\ owner d' = rent_pot) ->
  custody n' cs.
Proof.
  intros Hc Hn id c role j H1 H2. destruct (Hc id c role j H1 H2) as [?|[(d&Hd&Ho) Hu]]; [by left|].
  right. eauto.
Qed.

End invnft.

(** * Automation for calls that touch one NFT *)

(** Use the known flags of [d] in the facts the invariant gives. *)
Ltac flag_facts := repeat match goal with
  | E : ?o = Some _, V : ?f (nstate ?d) = isS ?o |- _ => rewrite E in V; cbn [isS] in V
  | E : ?o = Some _, V : ?f (nstate ?d) = isS ?o || _ |- _ => rewrite E in V; cbn [isS orb] in V
  | E : ?o = Some _, V : ?f (nstate ?d) = _ || isS ?o |- _ =>
      rewrite E in V; cbn [isS] in V; rewrite orb_true_r in V
  | V : engagements ?d <= 1, E : is_listed (nstate ?d) = true |- _ =>
      lazymatch goal with _ : is_rented (nstate d) = false, _ : is_transmission (nstate d) = false |- _ => fail | _ => idtac end;
      destruct (only_listed d V E) as (?&?&?&?&?)
  | V : engagements ?d <= 1, E : is_delegated (nstate ?d) = true |- _ =>
      lazymatch goal with _ : is_rented (nstate d) = false, _ : is_transmission (nstate d) = false |- _ => fail | _ => idtac end;
      destruct (only_delegated d V E) as (?&?&?&?&?)
  | V : engagements ?d <= 1, E : is_rented (nstate ?d) = true |- _ =>
      lazymatch goal with _ : is_listed (nstate d) = false, _ : is_transmission (nstate d) = false |- _ => fail | _ => idtac end;
      destruct (only_rented d V E) as (?&?&?&?&?)
  | V : engagements ?d <= 1, E : is_transmission (nstate ?d) = true |- _ =>
      lazymatch goal with _ : is_rented (nstate d) = false, _ : is_delegated (nstate d) = false |- _ => fail | _ => idtac end;
      destruct (only_transmission d V E) as (?&?&?&?&?)
  | V : engagements ?d <= 1, E : is_syncing_secret (nstate ?d) = true |- _ =>
      lazymatch goal with _ : is_rented (nstate d) = false, _ : is_transmission (nstate d) = false |- _ => fail | _ => idtac end;
      destruct (only_syncing_secret d V E) as (?&?&?&?&?)
  | V : engagements ?d <= 1, E : is_syncing_capsule (nstate ?d) = true |- _ =>
      lazymatch goal with _ : is_rented (nstate d) = false, _ : is_transmission (nstate d) = false |- _ => fail | _ => idtac end;
      destruct (only_syncing_capsule d V E) as (?&?&?&?&?)
  | E : is_listed (nstate ?d) = false, V : is_listed (nstate ?d) = isS _ || isS _ |- _ =>
      rewrite E in V; symmetry in V; apply orb_false_iff in V;
      let V' := fresh V in destruct V as [V V']; apply isS_false in V; apply isS_false in V'
  | E : ?f (nstate ?d) = false, V : ?f (nstate ?d) = isS _ |- _ =>
      rewrite E in V; symmetry in V; apply isS_false in V
  | E : ?f (nstate ?d) = true, V : ?f (nstate ?d) = isS _ |- _ =>
      rewrite E in V; symmetry in V; apply isS_true in V; let a := fresh "a" in destruct V as [a V]
  | E : ?f (nstate ?d) = false, V : ?g (nstate ?d) = true -> ?f (nstate ?d) = true |- _ =>
      assert (g (nstate d) = false) by (apply not_true_is_false; intros HH; specialize (V HH); congruence); clear V
  | E : ?g (nstate ?d) = false, V : forall l, ?o = Some l -> _ /\ ?g (nstate ?d) = true |- _ =>
      assert (o = None) by (destruct o eqn:?; [destruct (V _ eq_refl); congruence|reflexivity]); clear V
  | E : ?o = Some _, V : isS ?o && isS _ = false |- _ =>
      rewrite E in V; cbn [isS andb] in V; apply isS_false in V
  | E : ?o = Some _, V : isS _ && isS ?o = false |- _ =>
      rewrite E, andb_true_r in V; apply isS_false in V
  end.
Ltac rwE := repeat match goal with
  | E : ?x = true |- context [?x] => rewrite E
  | E : ?x = false |- context [?x] => rewrite E
  | E : ?x = None |- context [?x] => rewrite E
  | E : ?x = Some _ |- context [isS ?x] => rewrite E
  end.
Ltac rwE_in H := repeat match goal with
  | E : ?x = true |- _ => rewrite E in H
  | E : ?x = false |- _ => rewrite E in H
  end.
Ltac vok_solve :=
  match goal with H : vok _ _ _ _ _ _ _ _ _ _ _ _ _ |- _ => destruct H; flag_facts end;
  split; st_cbn;
  try match goal with V : engagements _ <= 1 |- engagements _ <= 1 =>
    unfold engagements in *; st_cbn; rwE; rwE_in V; cbn [N.b2n] in V |- *; clear - V; lia end;
  try match goal with V : _ -> engagements _ = 0 |- _ -> engagements _ = 0 =>
    let H := fresh in intros H; first [specialize (V H)|contradiction|clear V];
    unfold engagements in *; st_cbn; rwE; cbn [N.b2n] in *; first [clear - V; lia|clear; lia] end;
  try assumption; rwE; try done; try (intros; discriminate);
  try match goal with V : forall l, ?m !! ?i = Some l -> shards_ok l /\ _ |- forall l, ?m !! ?i = Some l -> _ =>
    intros ? Hl; destruct (V _ Hl); congruence end;
  try (intros; simplify_eq; eauto; fail).

Ltac inv1_local i :=
  let H1 := fresh "H1" in let H2 := fresh "H2" in let H3 := fresh "H3" in let H4 := fresh "H4" in
  match goal with HI : inv1 _ |- _ => destruct HI as [H1 H2 H3 H4] end;
  split; st_cbn;
  [ try assumption;
    let j := fresh "j" in let Hj := fresh "Hj" in
    intros j Hj; specialize (H1 j Hj); destruct (decide (j = i)); simplify_map_eq; try done
  | let j := fresh "j" in
    intros j; specialize (H2 j); unfold view_ok in *; st_cbn;
    destruct (decide (j = i)) as [->|]; simplify_map_eq; try assumption;
    try vok_solve
  | try assumption
  | try assumption; try (eapply custody_nfts; [exact H4|];
    let j := fresh "j" in let d := fresh "d" in let Hj := fresh "Hj" in let Ho := fresh "Ho" in
    intros j d Hj Ho; destruct (decide (j = i)) as [->|]; simplify_map_eq; eauto;
    try match goal with Hw : ?a ∉ pots, Ho : ?a = rent_pot |- _ =>
       exfalso; apply Hw; rewrite Ho; apply rent_pot_in end)
  ].
