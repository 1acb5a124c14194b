(** The NFT invariant is preserved by the calls on one NFT. *)
From Verif Require Export InvNft.
Local Open Scope N_scope.

Section calls.
Context {C : Config}.

Lemma shard_step_ok e c op sh sh' b :
  shard_step e c op sh = Ok (sh', b) -> (forall l, sh = Some l -> shards_ok l) ->
  (b = true /\ sh' = None) \/ (b = false /\ exists l, sh' = Some l /\ shards_ok l).
Proof.
  unfold shard_step. intros H Hs. destruct sh as [[|[c0 o0] l]|]; [done| |].
  - specialize (Hs _ eq_refl) as (_&Hlt&Hnd&(c1&Hc)).
    destruct (c =? c0) eqn:Ec; [|done]. apply N.eqb_eq in Ec as ->. cbn [negb] in H.
    destruct (nlen ((c0, o0) :: l) <? shards_number) eqn:El; [|done]. cbn [negb] in H.
    destruct (existsb _ _) eqn:Ex; [done|].
    destruct (_ =? shards_number) eqn:En; injection H as <- <-; [by left|right].
    split; [done|]. eexists. split; [done|]. apply N.eqb_neq in En. clear El.
    split; [done|]. split; [|split].
    + unfold nlen in *. cbn [length app] in *. rewrite app_length in *. cbn [length] in *. lia.
    + change (NoDup (map snd (((c0, o0) :: l) ++ [(c0, op)]))). rewrite map_app. apply NoDup_app. split; [done|]. split; [|repeat constructor; set_solver].
      intros x Hx Hx'. cbn in Hx'. apply elem_of_list_singleton in Hx'. subst x.
      apply elem_of_list_fmap in Hx as ([c2 o2]&Ho&Hin). cbn in Ho. subst o2.
      assert (c2 = c0) as ->.
      { rewrite Forall_forall in Hc. pose proof (Hc _ Hin) as H2. cbn in H2.
        pose proof (Hc (c0, o0)) as H3. cbn in H3. rewrite H2, <- H3; [done|set_solver]. }
      assert (existsb (fun x => (fst x =? c0) && (snd x =? op)) ((c0, o0) :: l) = true) as H2.
      { apply existsb_exists. exists (c0, op). split; [by apply elem_of_list_In|].
        cbn. by rewrite !N.eqb_refl. }
      rewrite H2 in Ex. done.
    + exists c0. change (Forall (fun x => fst x = c0) (((c0, o0) :: l) ++ [(c0, op)])). apply Forall_app. inversion Hc as [|?? Hc1 Hc2]; subst. cbn in *. split; [done|].
      repeat constructor.
  - destruct (shards_number <? 1) eqn:E1; [done|]. destruct (shards_number =? 1) eqn:E2;
      injection H as <- <-; [by left|right].
    split; [done|]. eexists. split; [done|]. apply N.ltb_ge in E1. apply N.eqb_neq in E2.
    split; [done|]. split; [|split].
    + unfold nlen. cbn. lia.
    + repeat constructor. set_solver.
    + exists c. repeat constructor.
Qed.

Lemma inv1_transfer_nft s who i a s' :
  inv1 s -> who ∉ pots -> transfer_nft who i a s = (Ok tt, s') -> inv1 s'.
Proof. intros HI Hw H. minv H. all: subst. all: inv1_local i. Qed.

Lemma inv1_delegate_nft s who i a s' :
  inv1 s -> who ∉ pots -> delegate_nft who i a s = (Ok tt, s') -> inv1 s'.
Proof. intros HI Hw H. minv H. all: subst. all: inv1_local i. Qed.

Lemma inv1_set_royalty s who i a s' :
  inv1 s -> who ∉ pots -> set_royalty who i a s = (Ok tt, s') -> inv1 s'.
Proof. intros HI Hw H. minv H. all: subst. all: inv1_local i. Qed.

Lemma inv1_add_nft_to_collection s who i a s' :
  inv1 s -> who ∉ pots -> add_nft_to_collection who i a s = (Ok tt, s') -> inv1 s'.
Proof. intros HI Hw H. minv H. all: subst. all: inv1_local i. Qed.

Lemma inv1_add_secret s who i a s' :
  inv1 s -> who ∉ pots -> add_secret who i a s = (Ok tt, s') -> inv1 s'.
Proof. intros HI Hw H. minv H. all: subst. all: inv1_local i. Qed.

Lemma inv1_convert_to_capsule s who i a s' :
  inv1 s -> who ∉ pots -> convert_to_capsule who i a s = (Ok tt, s') -> inv1 s'.
Proof. intros HI Hw H. minv H. all: subst. all: inv1_local i. Qed.

Lemma inv1_set_capsule_offchaindata s who i a s' :
  inv1 s -> who ∉ pots -> set_capsule_offchaindata who i a s = (Ok tt, s') -> inv1 s'.
Proof. intros HI Hw H. minv H. all: subst. all: inv1_local i. Qed.

Lemma inv1_notify_enclave_key_update s who i  s' :
  inv1 s -> who ∉ pots -> notify_enclave_key_update who i s = (Ok tt, s') -> inv1 s'.
Proof. intros HI Hw H. minv H. all: subst. all: inv1_local i. Qed.

Lemma inv1_list_nft s who i a b s' :
  inv1 s -> who ∉ pots -> list_nft who i a b s = (Ok tt, s') -> inv1 s'.
Proof. intros HI Hw H. minv H. all: subst. all: inv1_local i. Qed.

Lemma inv1_unlist_nft s who i  s' :
  inv1 s -> who ∉ pots -> unlist_nft who i s = (Ok tt, s') -> inv1 s'.
Proof. intros HI Hw H. minv H. all: subst. all: inv1_local i. Qed.

Lemma inv1_create_auction s who i a b d e f s' :
  inv1 s -> who ∉ pots -> create_auction who i a b d e f s = (Ok tt, s') -> inv1 s'.
Proof. intros HI Hw H. minv H. all: subst. all: inv1_local i. Qed.

Lemma inv1_set_transmission_protocol s who i a b d s' :
  inv1 s -> who ∉ pots -> set_transmission_protocol who i a b d s = (Ok tt, s') -> inv1 s'.
Proof. intros HI Hw H. minv H. all: subst. all: inv1_local i. Qed.

Lemma inv1_remove_transmission_protocol s who i  s' :
  inv1 s -> who ∉ pots -> remove_transmission_protocol who i s = (Ok tt, s') -> inv1 s'.
Proof. intros HI Hw H. minv H. all: subst. all: inv1_local i. Qed.

Lemma inv1_reset_timer s who i a s' :
  inv1 s -> who ∉ pots -> reset_timer who i a s = (Ok tt, s') -> inv1 s'.
Proof. intros HI Hw H. minv H. all: subst. all: inv1_local i. Qed.

Lemma inv1_add_secret_shard s who i s' :
  inv1 s -> who ∉ pots -> add_secret_shard who i s = (Ok tt, s') -> inv1 s'.
Proof.
  intros HI Hw H. minv H. all: subst.
  all: pose proof (i_view s HI i) as Hv; unfold view_ok in Hv.
  all: match goal with U : nfts _ !! _ = Some _ |- _ => rewrite U in Hv end.
  all: match goal with U : shard_step _ _ _ _ = Ok ?x |- _ => destruct x as [sh b];
         apply shard_step_ok in U as [[-> ->]|[-> (l&->&Hl)]]; [| |by intros l Hl; destruct (v_sshards _ _ _ _ _ _ _ _ _ _ _ _ _ Hv l Hl)] end.
  all: try done.
  all: clear Hv; cbn [fst snd] in *.
  - change (partial_alter (fun _ => None) i) with (delete (M := gmap N (list (N * N))) i).
    inv1_local i.
  - change (partial_alter (fun _ => Some l) i) with (insert (M := gmap N (list (N * N))) i l).
    inv1_local i.
Qed.

Lemma inv1_add_capsule_shard s who i s' :
  inv1 s -> who ∉ pots -> add_capsule_shard who i s = (Ok tt, s') -> inv1 s'.
Proof.
  intros HI Hw H. minv H. all: subst.
  all: pose proof (i_view s HI i) as Hv; unfold view_ok in Hv.
  all: match goal with U : nfts _ !! _ = Some _ |- _ => rewrite U in Hv end.
  all: match goal with U : shard_step _ _ _ _ = Ok ?x |- _ => destruct x as [sh b];
         apply shard_step_ok in U as [[-> ->]|[-> (l&->&Hl)]]; [| |by intros l Hl; destruct (v_cshards _ _ _ _ _ _ _ _ _ _ _ _ _ Hv l Hl)] end.
  all: try done.
  all: clear Hv; cbn [fst snd] in *.
  - change (partial_alter (fun _ => None) i) with (delete (M := gmap N (list (N * N))) i).
    inv1_local i.
  - change (partial_alter (fun _ => Some l) i) with (insert (M := gmap N (list (N * N))) i l).
    inv1_local i.
Qed.

Lemma inv1_burn_nft s who i s' :
  inv1 s -> who ∉ pots -> burn_nft who i s = (Ok tt, s') -> inv1 s'.
Proof.
  intros HI Hw H. minv H. all: subst. all: inv1_local i.
  all: match goal with H : vok _ _ _ _ _ _ _ _ _ _ _ _ _ |- _ => destruct H; flag_facts end.
  all: split; try done.
Qed.
End calls.
