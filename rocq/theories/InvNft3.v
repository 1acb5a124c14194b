(** The NFT invariant is preserved by minting, buying, the auctions and the transmissions. *)
From Verif Require Export InvNft2.
Local Open Scope N_scope.

Section calls.
Context {C : Config}.

(** Only part of the state matters. *)
Lemma inv1_frame s s' :
  inv1 s ->
  nfts (s_nft s') = nfts (s_nft s) -> next_nft (s_nft s') = next_nft (s_nft s) ->
  delegated (s_nft s') = delegated (s_nft s) ->
  secret_data (s_nft s') = secret_data (s_nft s) -> secret_shards (s_nft s') = secret_shards (s_nft s) ->
  capsule_data (s_nft s') = capsule_data (s_nft s) -> capsule_shards (s_nft s') = capsule_shards (s_nft s) ->
  sales (s_mkt s') = sales (s_mkt s) ->
  (forall m, is_Some (mkts (s_mkt s) !! m) -> is_Some (mkts (s_mkt s') !! m)) ->
  auctions (s_auc s') = auctions (s_auc s) -> commissions (s_auc s') = commissions (s_auc s) ->
  contracts (s_rent s') = contracts (s_rent s) -> offers (s_rent s') = offers (s_rent s) ->
  transs (s_trans s') = transs (s_trans s) ->
  inv1 s'.
Proof.
  intros [H1 H2 H3 H4] e1 e2 e3 e4 e5 e6 e7 e8 Hm e9 e10 e11 e12 e13. split.
  - rewrite e1, e2. done.
  - intros i. specialize (H2 i). unfold view_ok in *.
    rewrite e1, e3, e4, e5, e6, e7, e8, e9, e10, e11, e12, e13.
    destruct (nfts (s_nft s) !! i); [|done].
    destruct H2; split; try done.
    + intros x Hx. destruct (v_sale x Hx) as (?&?&?). eauto.
    + intros x Hx. destruct (v_auc x Hx) as (?&?&?). eauto.
  - rewrite e12. done.
  - rewrite e1, e11. done.
Qed.

Lemma vno_default mk cm who data co roy sb os oa oc ot od sd ss cd cs oo :
  vno os oa oc ot od sd ss cd cs ->
  vok mk cm (mkNft who who data co roy (default_state sb)) os oa oc ot od sd ss cd cs oo.
Proof. intros [-> -> -> -> -> -> -> -> ->]. split; try done. Qed.

Lemma inv1_create_nft s who data roy co sb s' :
  inv1 s -> who ∉ pots -> create_nft who data roy co sb s = (Ok tt, s') -> inv1 s'.
Proof.
  intros HI Hw H. minv H. all: subst.
  all: destruct HI as [H1 H2 H3 H4]; split; st_cbn; [| | done |].
  1,4: intros j Hj; rewrite lookup_insert_ne by lia; apply H1; lia.
  1,3: intros j; unfold view_ok in *; st_cbn; specialize (H2 j);
       destruct (decide (j = next_nft (s_nft s))) as [->|]; simplify_map_eq; [|done];
       by apply vno_default.
  all: eapply custody_nfts; [exact H4|]; intros j d Hj Ho;
       destruct (decide (j = next_nft (s_nft s))) as [->|]; simplify_map_eq; eauto;
       try (rewrite H1 in Hj by lia; done).
Qed.

Lemma inv1_create_secret_nft s who data sec roy co sb s' :
  inv1 s -> who ∉ pots -> create_secret_nft who data sec roy co sb s = (Ok tt, s') -> inv1 s'.
Proof.
  intros HI Hw H. unfold create_secret_nft in H. mstep H. mstep H.
  apply bind_ok in H as ([]&s1&H1&H). mstep H.
  eapply inv1_add_secret; [|exact Hw|exact H]. by eapply inv1_create_nft.
Qed.

Lemma inv1_create_capsule s who data sec roy co sb s' :
  inv1 s -> who ∉ pots -> create_capsule who data sec roy co sb s = (Ok tt, s') -> inv1 s'.
Proof.
  intros HI Hw H. unfold create_capsule in H. mstep H. mstep H.
  apply bind_ok in H as ([]&s1&H1&H). mstep H.
  eapply inv1_convert_to_capsule; [|exact Hw|exact H]. by eapply inv1_create_nft.
Qed.

Ltac frame := eapply inv1_frame; [eassumption|st_cbn; try reflexivity; try tauto ..].

Lemma insert_keeps {A} (m : gmap N A) k v j : is_Some (m !! j) -> is_Some (<[k := v]> m !! j).
Proof. intros H. apply lookup_insert_is_Some. destruct (decide (k = j)); eauto. Qed.

(** An NFT some registry has an entry for is not owned by a pallet account. *)
Lemma engaged_not_pot s i d :
  inv1 s -> nfts (s_nft s) !! i = Some d ->
  is_Some (sales (s_mkt s) !! i) \/ is_Some (auctions (s_auc s) !! i) \/
  is_Some (contracts (s_rent s) !! i) \/ is_Some (transs (s_trans s) !! i) ->
  owner d ∉ pots.
Proof.
  intros HI Hd Hr Hp. pose proof (i_view s HI i) as Hv. unfold view_ok in Hv. rewrite Hd in Hv.
  pose proof (v_pot _ _ _ _ _ _ _ _ _ _ _ _ _ Hv Hp) as He.
  destruct Hv. unfold engagements in He.
  destruct Hr as [[x Hx]|[[x Hx]|[[x Hx]|[x Hx]]]]; rewrite Hx in *;
    rewrite ?v_listed, ?v_rented, ?v_trans in He; cbn in He; rewrite ?orb_true_r in He; cbn in He;
    clear - He; lia.
Qed.

Ltac engaged s i :=
  match goal with HI : inv1 s, U : nfts (s_nft s) !! i = Some ?d |- _ =>
    assert (owner d ∉ pots) by (eapply (engaged_not_pot s i); eauto) end.

Lemma inv1_buy_nft s who i p s' :
  inv1 s -> who ∉ pots -> buy_nft who i p s = (Ok tt, s') -> inv1 s'.
Proof. intros HI Hw H. minv H. all: subst. all: engaged s i. all: inv1_local i. Qed.

Lemma inv1_cancel_auction s who i s' :
  inv1 s -> cancel_auction who i s = (Ok tt, s') -> inv1 s'.
Proof. intros HI H. minv H. all: subst. all: engaged s i. all: inv1_local i. Qed.

(** Every registry entry belongs to an existing NFT. *)
Lemma auction_nft s i a : inv1 s -> auctions (s_auc s) !! i = Some a ->
  exists d, nfts (s_nft s) !! i = Some d /\ is_listed (nstate d) = true /\ owner d = a_creator a.
Proof.
  intros HI Ha. pose proof (i_view s HI i) as Hv. unfold view_ok in Hv.
  destruct (nfts (s_nft s) !! i) as [d|]; [|destruct Hv; congruence].
  exists d. destruct Hv. rewrite Ha in *. rewrite v_listed, orb_true_r.
  destruct (v_auc _ eq_refl) as (?&?). done.
Qed.
Lemma sale_nft s i a : inv1 s -> sales (s_mkt s) !! i = Some a ->
  exists d, nfts (s_nft s) !! i = Some d /\ is_listed (nstate d) = true /\ owner d = sale_seller a.
Proof.
  intros HI Ha. pose proof (i_view s HI i) as Hv. unfold view_ok in Hv.
  destruct (nfts (s_nft s) !! i) as [d|]; [|destruct Hv; congruence].
  exists d. destruct Hv. rewrite Ha in *. rewrite v_listed.
  destruct (v_sale _ eq_refl) as (?&?). done.
Qed.
Lemma contract_nft s i c : inv1 s -> contracts (s_rent s) !! i = Some c ->
  exists d, nfts (s_nft s) !! i = Some d /\ is_rented (nstate d) = true /\ owner d = r_renter c.
Proof.
  intros HI Ha. pose proof (i_view s HI i) as Hv. unfold view_ok in Hv.
  destruct (nfts (s_nft s) !! i) as [d|]; [|destruct Hv; congruence].
  exists d. destruct Hv. rewrite Ha in *. rewrite v_rented.
  destruct (v_con _ eq_refl) as (?&?). done.
Qed.
Lemma trans_nft s i t : inv1 s -> transs (s_trans s) !! i = Some t ->
  exists d, nfts (s_nft s) !! i = Some d /\ is_transmission (nstate d) = true.
Proof.
  intros HI Ha. pose proof (i_view s HI i) as Hv. unfold view_ok in Hv.
  destruct (nfts (s_nft s) !! i) as [d|]; [|destruct Hv; congruence].
  exists d. destruct Hv. rewrite Ha in *. rewrite v_trans. done.
Qed.
Ltac auc_nft s i := match goal with HI : inv1 s, U : auctions (s_auc s) !! i = Some _ |- _ =>
  let d := fresh "d" in let Hd := fresh "Hd" in
  destruct (auction_nft s i _ HI U) as (d & Hd & _) end.

Lemma inv1_end_auction s who i s' :
  inv1 s -> end_auction who i s = (Ok tt, s') -> inv1 s'.
Proof. intros HI H. minv H. all: subst. all: engaged s i. all: inv1_local i. Qed.

Lemma inv1_auction_upd s a s' i a' :
  inv1 s -> auctions (s_auc s) !! i = Some a ->
  auctions (s_auc s') = <[i := a']> (auctions (s_auc s)) ->
  a_creator a' = a_creator a -> a_mkt a' = a_mkt a ->
  s_nft s' = s_nft s -> s_mkt s' = s_mkt s -> s_rent s' = s_rent s -> s_trans s' = s_trans s ->
  commissions (s_auc s') = commissions (s_auc s) -> inv1 s'.
Proof.
  intros [H1 H2 H3 H4] Ha e7 e1 e2 e3 e4 e5 e6 e8. split; rewrite ?e3, ?e5; try done.
  intros j. specialize (H2 j). unfold view_ok in *. rewrite e3, e4, e5, e6, e7, e8.
  destruct (decide (j = i)) as [->|]; [|by rewrite lookup_insert_ne by done].
  rewrite lookup_insert. rewrite Ha in H2. destruct (nfts (s_nft s) !! i); [|by destruct H2].
  destruct H2; split; try done. intros x [= <-]. rewrite e1, e2. by apply v_auc.
Qed.

Lemma inv1_add_bid s who i a s' :
  inv1 s -> add_bid who i a s = (Ok tt, s') -> inv1 s'.
Proof.
  intros HI H. minv H. all: subst.
  all: eapply (inv1_auction_upd s); [done|eassumption|..]; st_cbn; try reflexivity.
  all: unfold extend_if_necessary; destruct (_ <? grace_period); done.
Qed.

Lemma inv1_remove_bid s who i s' :
  inv1 s -> remove_bid who i s = (Ok tt, s') -> inv1 s'.
Proof.
  intros HI H. minv H. all: subst.
  all: eapply (inv1_auction_upd s); [done|eassumption|..]; st_cbn; reflexivity.
Qed.

Lemma inv1_buy_it_now s who i a s' :
  inv1 s -> buy_it_now who i a s = (Ok tt, s') -> inv1 s'.
Proof. intros HI H. minv H. all: subst. all: engaged s i. all: inv1_local i. Qed.

Lemma inv1_claim s who s' :
  inv1 s -> claim who s = (Ok tt, s') -> inv1 s'.
Proof. intros HI H. minv H. all: subst. all: frame. Qed.

Lemma inv1_transmit_nft s i s' :
  inv1 s -> transmit_nft i s = (Ok tt, s') -> inv1 s'.
Proof. intros HI H. minv H. all: subst. all: engaged s i. all: inv1_local i. Qed.

Lemma inv1_add_consent s who i s' :
  inv1 s -> add_consent who i s = (Ok tt, s') -> inv1 s'.
Proof.
  intros HI H. minv H. all: subst. all: try discriminate. all: try (frame; fail).
  all: engaged s i. all: inv1_local i.
Qed.
End calls.

Ltac frame := eapply inv1_frame; [eassumption|st_cbn; try reflexivity; try tauto ..].
Ltac engaged s i :=
  match goal with HI : inv1 s, U : nfts (s_nft s) !! i = Some ?d |- _ =>
    assert (owner d ∉ pots) by (eapply (engaged_not_pot s i); eauto) end.
