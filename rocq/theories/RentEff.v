(** The effects of ending and renewing contracts, one at a time and in sequence. *)
From Verif Require Export RentSolv SpecRent AucFacts.
Local Open Scope N_scope.

Section eff.
Context {C : Config}.

Lemma token_amount f : token_deposit f = cf_amount f.
Proof. by destruct f. Qed.
Lemma token_tokens f : token_fee f = tokens f.
Proof. by destruct f. Qed.
Lemma deposits_rdue c : deposits_of c = rdue c.
Proof. unfold deposits_of, rdue. rewrite !token_amount. by destruct (r_rentee c). Qed.
Lemma held_rescrow s : held_deposits s = rescrow (contracts (s_rent s)).
Proof. unfold held_deposits, rescrow. f_equal. apply map_fmap_ext. intros i c _. apply deposits_rdue. Qed.
Lemma period_is d : period_of d = duration_or_period d.
Proof. by destruct d. Qed.
Lemma total_is d : total_of d = full_duration d.
Proof. by destruct d. Qed.
Lemma terms_is d : terms_open d <-> terms_changed d = true.
Proof. destruct d; done. Qed.
Lemma over_is c now : over c now <-> has_ended c now = true.
Proof.
  unfold over, has_ended. rewrite total_is. destruct (r_start c) as [st|].
  - destruct (N.ltb_spec now st).
    + split; [intros (st'&[= <-]&Hl); lia|done].
    + rewrite N.leb_le. split; [intros (st'&[= <-]&Hl); lia|intros Hl; exists st; split; [done|lia]].
  - split; [by intros (?&?&_)|done].
Qed.

Lemma pot_not_rented s i c j d : inv1 s -> contracts (s_rent s) !! i = Some c -> nfts (s_nft s) !! i = Some d -> owner d = rent_pot -> j = i -> False.
Proof.
  intros HI Hc Hd Ho _. destruct (contract_nft s i c HI Hc) as (y&Hy&Hy'&_). simplify_eq.
  destruct (unengaged_flags d) as (_&_&F&_); [|congruence]. eapply pot_unengaged; [exact HI|done|]. rewrite Ho. apply rent_pot_in.
Qed.
(** Contracts do not share deposits, nor deposit each other's NFTs. *)
Lemma deposit_apart s i c j i' c' : inv1 s -> contracts (s_rent s) !! i = Some c -> secures c j ->
  contracts (s_rent s) !! i' = Some c' -> i' <> i -> j <> i' /\ ~ secures c' j.
Proof.
  intros HI Hc Hj Hc' Hne. apply secures_role in Hj as [role Hr].
  pose proof (i_cust s HI i c role j Hc Hr) as H. split.
  - intros ->. destruct H as [[_ ?]|[(d&Hd&Ho) _]]; [done|]. by eapply (pot_not_rented s i' c' i').
  - intros [role' Hr']%secures_role. destruct H as [[_ ->]|[_ Hu]].
    + destruct (i_cust s HI i' c' role' i Hc' Hr') as [[_ ?]|[(d&Hd&Ho) _]]; [done|]. by eapply (pot_not_rented s i c i).
    + destruct (Hu _ _ _ Hc' Hr'). done.
Qed.

Lemma effects_nil s : rent_effects s [] s.
Proof. split; try done; [by intros i ?%elem_of_nil|constructor|by intros i c ?%elem_of_nil]. Qed.

Lemma sum_of_app l1 l2 : sum_of (l1 ++ l2) = sum_of l1 + sum_of l2.
Proof. unfold sum_of. induction l1 as [|x l1 IH]; [done|]. cbn. rewrite IH. lia. Qed.
Lemma map_ext_in' {A B} (f g : A -> B) l : (forall x, x ∈ l -> f x = g x) -> map f l = map g l.
Proof. intros H. apply map_ext_in. intros x Hx. apply H. by apply elem_of_list_In. Qed.

Lemma effects_app s l1 s1 l2 s' : inv1 s -> (forall i, i ∈ l1 -> i ∉ l2) ->
  rent_effects s l1 s1 -> rent_effects s1 l2 s' -> rent_effects s (l1 ++ l2) s'.
Proof.
  intros HI Hd [O1 I1 D1 B1 E1 R1] [O2 I2 D2 B2 E2 R2].
  assert (Hd' : forall i, i ∈ l2 -> i ∉ l1) by (intros i H2 H1; by eapply Hd).
  assert (Ht : forall i, i ∈ l1 -> contracts (s_rent s') !! i = contracts (s_rent s1) !! i) by (intros; apply O2; auto).
  assert (Hh : forall i, i ∈ l2 -> contracts (s_rent s1) !! i = contracts (s_rent s) !! i) by (intros; apply O1; auto).
  assert (He1 : forall i c, i ∈ l1 -> ended s s' i c -> ended s s1 i c) by (intros i c Hi [? E]; split; [done|by rewrite <- Ht]).
  assert (He2 : forall i c, i ∈ l2 -> ended s s' i c -> ended s1 s' i c) by (intros i c Hi [E ?]; split; [by rewrite Hh|done]).
  assert (He1' : forall i c, i ∈ l1 -> ended s s1 i c -> ended s s' i c) by (intros i c Hi [? E]; split; [done|by rewrite Ht]).
  assert (He2' : forall i c, i ∈ l2 -> ended s1 s' i c -> ended s s' i c) by (intros i c Hi [E ?]; split; [by rewrite <- Hh|done]).
  split.
  - intros i [H1 H2]%not_elem_of_app. rewrite O2, O1 by done. done.
  - intros i [H|H]%elem_of_app.
    + rewrite Ht by done. by apply I1.
    + rewrite <- Hh by done. by apply I2.
  - apply NoDup_app. split; [done|]. split; done.
  - intros a Ha. specialize (B1 a Ha). specialize (B2 a Ha). rewrite !map_app, !sum_of_app.
    rewrite (map_ext_in' (pays_by s s' a) (pays_by s s1 a) l1), (map_ext_in' (gets_by s s' a) (gets_by s s1 a) l1),
      (map_ext_in' (pays_by s s' a) (pays_by s1 s' a) l2), (map_ext_in' (gets_by s s' a) (gets_by s1 s' a) l2); [lia|..].
    all: intros i Hi; unfold pays_by, gets_by; first [rewrite (Ht i Hi)|rewrite (Hh i Hi)]; done.
  - intros i c [H|H]%elem_of_app Hi.
    + pose proof (He1 _ _ H Hi) as Hi1. destruct (E1 _ _ H Hi1) as ((d&Hd1&Hd2)&P1&P2).
      assert (Hkeep : forall j, j = i \/ secures c j -> nfts (s_nft s') !! j = nfts (s_nft s1) !! j).
      { intros j Hj. apply R2. intros i' c' Hi' Hc'. pose proof (He2' _ _ Hi' Hc') as Hc2.
        assert (Hne : i' <> i) by (intros ->; by eapply Hd).
        destruct Hj as [->|Hj].
        - split; [done|]. intros Hs. by destruct (deposit_apart s i' c' i i c HI (proj1 Hc2) Hs (proj1 Hi) ltac:(done)).
        - by eapply (deposit_apart s i c j i' c' HI (proj1 Hi) Hj (proj1 Hc2)). }
      split; [|split].
      * exists d. split; [done|]. rewrite Hkeep by (by left). done.
      * intros j Hj. unfold owner_of. rewrite Hkeep by (right; by left). by apply P1.
      * intros j t Ht' Hj. unfold owner_of. rewrite Hkeep; [by apply P2|]. right. right. rewrite Ht'. done.
    + pose proof (He2 _ _ H Hi) as Hi2. destruct (E2 _ _ H Hi2) as ((d&Hd1&Hd2)&P1&P2). split; [|done].
      exists d. split; [|done]. rewrite <- R1; [done|]. intros i' c' Hi' Hc'.
      assert (Hne : i <> i') by (intros ->; by eapply Hd).
      split; [done|]. intros Hs. pose proof (He1' _ _ Hi' Hc') as Hc1.
      by destruct (deposit_apart s i' c' i i c HI (proj1 Hc1) Hs (proj1 Hi) ltac:(done)).
  - intros j Hj. rewrite R2, R1; [done|..].
    + intros i c Hi Hc. apply Hj; [apply elem_of_app; by left|auto].
    + intros i c Hi Hc. apply Hj; [apply elem_of_app; by right|auto].
Qed.

(** Ending one contract. *)
Lemma effects_finish s i s' : inv1 s -> handle_finished i s = (Ok tt, s') -> rent_effects s [i] s'.
Proof.
  intros HI H. destruct (finished_ok _ _ _ _ H) as (c&b1&b2&Hc&T1&T2&Eb&Er).
  destruct (handle_finished_cases s i HI) as [(e&b&Hh)|(c'&d&b&s1&Hc'&Hd&Hh&Es)]; rewrite Hh in H; [done|].
  injection H as ->. assert (c' = c) as -> by congruence. clear Hc' Hh.
  assert (Hci : contracts (s_rent s') = delete i (contracts (s_rent s))) by (by rewrite Er).
  assert (Hn : nfts (s_nft s') = <[i := put_rented false d]>
                 (match deposit_nft c false, r_rentee c with
                  | Some j, Some r => alter (fun x => x <| owner := r |>) j
                  | _, _ => fun m => m end
                 (match deposit_nft c true with
                  | Some j => alter (fun x => x <| owner := r_renter c |>) j
                  | _ => fun m => m end (nfts (s_nft s))))) by (rewrite Es; done).
  clear Es Er.
  assert (Hren : forall j, r_renter_cf c = FeeNFT j -> deposit_nft c true = Some j) by (intros j E; unfold deposit_nft; by rewrite E).
  assert (Hree : forall j t, r_rentee c = Some t -> r_rentee_cf c = FeeNFT j -> deposit_nft c false = Some j).
  { intros j t E1 E2; unfold deposit_nft; by rewrite E1, E2. }
  split.
  - intros j Hj. rewrite Hci. apply lookup_delete_ne. intros ->. apply Hj. by left.
  - intros j ->%elem_of_list_singleton. exists c. split; [done|]. left. rewrite Hci. apply lookup_delete.
  - apply NoDup_singleton.
  - intros a Ha. cbn [map sum_of fold_right]. unfold pays_by, gets_by. rewrite Hc, Hci, lookup_delete. unfold end_pays, end_gets, deposits_of.
    rewrite !token_amount, Eb.
    assert (Ha' : a <> rent_pot \/ false = true \/ ed <= 1) by (destruct Ha; auto).
    pose proof (transfer_exact _ _ _ _ _ _ a Ha' T1) as X1.
    destruct (r_rentee c) as [t|].
    + pose proof (transfer_exact _ _ _ _ _ _ a Ha' T2) as X2. unfold at_acc in *. destruct (decide (a = rent_pot)); lia.
    + subst b2. unfold at_acc in *. destruct (decide (a = rent_pot)); lia.
  - intros j c' ->%elem_of_list_singleton [Hc' _]. assert (c' = c) as -> by congruence. split; [|split].
    + exists d. split; [done|]. rewrite Hn, lookup_insert. done.
    + intros j Hj. apply Hren in Hj. unfold owner_of. rewrite Hn. destruct (decide (j = i)) as [->|Hne].
      * rewrite lookup_insert. cbn. f_equal. destruct (contract_nft s i c HI Hc) as (y&Hy&_&Ho). by simplify_eq.
      * rewrite lookup_insert_ne by done. destruct (InvNft4.deposit_exists s i c true j d HI Hc Hd Hj) as [x Hx]. rewrite Hj.
        assert (Hl : (match deposit_nft c false, r_rentee c with
                  | Some j, Some r => alter (fun x => x <| owner := r |>) j
                  | _, _ => fun m => m end (alter (fun x0 => x0 <| owner := r_renter c |>) j (nfts (s_nft s)))) !! j = Some (x <| owner := r_renter c |>)).
        { destruct (deposit_nft c false) as [j2|] eqn:E2; [|by rewrite lookup_alter, Hx]. destruct (r_rentee c); [|by rewrite lookup_alter, Hx].
          rewrite lookup_alter_ne by (intros <-; by eapply (deposits_differ s i c j2 j2)). by rewrite lookup_alter, Hx. }
        by rewrite Hl.
    + intros j t Ht Hj. pose proof (Hree _ _ Ht Hj) as Hr. unfold owner_of. rewrite Hn, lookup_insert_ne by (intros <-; by eapply (rentee_deposit_ne s i c i)).
      rewrite Hr, Ht, lookup_alter. destruct (InvNft4.deposit_exists s i c false j d HI Hc Hd Hr) as [x Hx].
      destruct (deposit_nft c true) as [j1|] eqn:E1; [|by rewrite Hx]. rewrite lookup_alter_ne by (by eapply (deposits_differ s i c)). by rewrite Hx.
  - intros j Hj. destruct (Hj i c) as [Hne Hs]; [by left|split; [done|by rewrite Hci, lookup_delete]|].
    rewrite Hn, lookup_insert_ne by done.
    assert (Hx : forall role j', deposit_nft c role = Some j' -> j' <> j). { intros role j' Hr ->. apply Hs. by eapply secures_deposit. }
    destruct (deposit_nft c false) as [j2|] eqn:E2; [destruct (r_rentee c); [rewrite lookup_alter_ne by eauto|]|];
      (destruct (deposit_nft c true) as [j1|] eqn:E1; [rewrite lookup_alter_ne by eauto|]; done).
Qed.

(** Renewing one contract. *)
Lemma effects_renew s i c t fee b : contracts (s_rent s) !! i = Some c -> r_rentee c = Some t -> r_rent_fee c = RentTokens fee ->
  transfer_b t (r_renter c) fee true (s_bal s) = Ok b -> rent_effects s [i] (s <| s_bal := b |>).
Proof.
  intros Hc Ht Hf T. split; try done.
  - intros j ->%elem_of_list_singleton. eauto.
  - apply NoDup_singleton.
  - intros a Ha. cbn [map sum_of fold_right]. unfold pays_by, gets_by. st_cbn. rewrite Hc. unfold renew_pays, renew_gets. rewrite Ht, Hf. cbn [token_fee].
    pose proof (transfer_exact _ _ _ true _ _ a (or_intror (or_introl eq_refl)) T). lia.
  - intros j c' Hj [H1 H2]. st_cbn_in H2. congruence.
Qed.

(** Later changes of the state that do not matter. *)
Lemma effects_same s l s1 s' : contracts (s_rent s') = contracts (s_rent s1) -> nfts (s_nft s') = nfts (s_nft s1) -> s_bal s' = s_bal s1 ->
  rent_effects s l s1 -> rent_effects s l s'.
Proof.
  intros E1 E2 E3 [O I D B E R]. split; rewrite ?E1, ?E2, ?E3; try done.
  - intros a Ha. unfold pays_by, gets_by. rewrite E1. by apply B.
  - intros i c Hi [Hc Hn]. rewrite E1 in Hn. destruct (E i c Hi ltac:(done)) as (P1&P2&P3). split; [|split]; unfold owner_of in *; by rewrite E2.
  - intros j Hj. apply R. intros i c Hi [H1 H2]. apply Hj; [done|]. split; [done|by rewrite E1].
Qed.
End eff.
