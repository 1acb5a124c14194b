(** What one call can do to an NFT record. *)
From Verif Require Export Later InvNft5.
Local Open Scope N_scope.

Section nftstep.
Context {C : Config}.

Definition evolves (s : state) (o : origin) (c : call) (i : N) (d : nft_data) (od : option nft_data) : Prop :=
  match od with
  | None => c = C_burn_nft i /\ o = Signed (owner d)
  | Some d' =>
      creator d' = creator d /\ offchain_data d' = offchain_data d /\
      is_soulbound (nstate d') = is_soulbound (nstate d) /\
      (collection_id d' = collection_id d \/
       exists k, c = C_add_nft_to_collection i k /\ o = Signed (owner d) /\ collection_id d = None /\ collection_id d' = Some k) /\
      (royalty d' = royalty d \/
       exists r, c = C_set_royalty i r /\ o = Signed (owner d) /\ creator d = owner d /\ royalty d' = r) /\
      (owner d' = owner d \/ moved_by_call s o c i (owner d) (owner d')) /\
      (is_syncing_secret (nstate d) = true -> is_syncing_secret (nstate d') = true \/
       exists who, o = Signed who /\ c = C_add_secret_shard i /\
         completes_shards s (default [] (secret_shards (s_nft s) !! i)) who) /\
      (is_syncing_capsule (nstate d) = true -> is_syncing_capsule (nstate d') = true \/
       exists who, o = Signed who /\ c = C_add_capsule_shard i /\
         completes_shards s (default [] (capsule_shards (s_nft s) !! i)) who)
  end.

Lemma nlen_app {A} (l l' : list A) : nlen (l ++ l') = nlen l + nlen l'.
Proof. unfold nlen. rewrite app_length. lia. Qed.

Lemma evolves_same s o c i d : evolves s o c i d (Some d).
Proof. unfold evolves. split_and!; auto. Qed.

Lemma secures_deposit k role j : deposit_nft k role = Some j -> secures k j.
Proof.
  unfold deposit_nft, secures, cf_nft. intros H. destruct role.
  - left. destruct (r_renter_cf k); simplify_eq. done.
  - right. destruct (r_rentee k); [|done]. destruct (r_rentee_cf k); simplify_eq. done.
Qed.

(** Owners moved by a rent call. *)
Lemma evolves_moved s o c n' i d :
  moved (fun j => forall x b, nfts (s_nft s) !! j = Some x -> n' !! j = Some (x <| owner := b |>) ->
     b = owner x \/ moved_by_call s o c j (owner x) b) (nfts (s_nft s)) n' ->
  nfts (s_nft s) !! i = Some d -> evolves s o c i d (n' !! i).
Proof.
  intros Hm Hd. destruct (Hm i) as [->|(x&b&HP&Hx&Hn)].
  - rewrite Hd. apply evolves_same.
  - rewrite Hd in Hx. injection Hx as <-. specialize (HP d b Hd Hn). rewrite Hn. unfold evolves.
    split_and!; auto.
Qed.


Lemma shard_step_done s i who co full l r :
  ensure_enclave (s_tee s) who = Some co ->
  (forall l, i = Some l -> shards_ok l) ->
  i = l -> shard_step full (fst co) (snd co) l = Ok r -> snd r = true -> completes_shards s (default [] l) who.
Proof.
  unfold ensure_enclave, completes_shards. intros He Hok -> Hs Hr.
  destruct (addr_op (s_tee s) !! who) as [op|] eqn:E1; [|done].
  destruct (enc_cluster (s_tee s) !! op) as [cl|] eqn:E2; [|done]. injection He as <-. cbn [fst snd] in Hs.
  exists op, cl. split; [done|]. split; [done|]. unfold shard_step in Hs.
  destruct l as [[|[c0 o0] l]|]; [done| |].
  - destruct (Hok _ eq_refl) as (_&_&Hnd&(cc&Hcc)).
    destruct (negb (cl =? c0)) eqn:Ec; [done|]. apply negb_false_iff, N.eqb_eq in Ec. subst c0.
    assert (cc = cl) as -> by (apply Forall_cons in Hcc as [? _]; done).
    destruct (negb _); [done|]. destruct (existsb _ _) eqn:Ex; [done|].
    destruct (nlen _ =? shards_number) eqn:Es; injection Hs as <-; [|done]. apply N.eqb_eq in Es.
    cbn [default]. split; [done|]. split; [|by rewrite nlen_app in Es].
    apply NoDup_cons. split; [|done]. intros Hin. apply elem_of_list_fmap in Hin as ([c1 o1]&Ho&Hin).
    cbn in Ho. subst o1. rewrite Forall_forall in Hcc. pose proof (Hcc _ Hin) as Hc1. cbn in Hc1. subst c1.
    assert (existsb (fun x : N * N => (fst x =? cl) && (snd x =? op)) ((cl, o0) :: l) = true); [|congruence].
    apply existsb_exists. exists (cl, op). split; [by apply elem_of_list_In|]. cbn. by rewrite !N.eqb_refl.
  - destruct (shards_number <? 1); [done|]. destruct (shards_number =? 1) eqn:Es; injection Hs as <-; [|done].
    apply N.eqb_eq in Es. cbn. rewrite Es. split; [constructor|]. split; [|done]. repeat constructor. set_solver.
Qed.

End nftstep.

Section calls.
Context {C : Config}.

Definition born (s : state) (o : origin) (c : call) (s' : state) (i : N) (d : nft_data) : Prop :=
  i = next_nft (s_nft s) /\ next_nft (s_nft s') = i + 1 /\ o = Signed (owner d) /\ creator d = owner d /\
  mint_args c = Some (offchain_data d, royalty d, collection_id d, is_soulbound (nstate d)).

Definition nft_effect (s : state) (o : origin) (c : call) (s' : state) : Prop :=
  (forall i d, nfts (s_nft s) !! i = Some d -> evolves s o c i d (nfts (s_nft s') !! i)) /\
  (forall i d, nfts (s_nft s) !! i = None -> nfts (s_nft s') !! i = Some d -> born s o c s' i d) /\
  (mint_args c = None -> next_nft (s_nft s') = next_nft (s_nft s)) /\
  (mint_args c <> None -> next_nft (s_nft s') = next_nft (s_nft s) + 1 /\
     nfts (s_nft s) !! next_nft (s_nft s) = None /\ is_Some (nfts (s_nft s') !! next_nft (s_nft s))).

(** Calls that do not touch the NFT map. *)
Lemma effect_same s o c s' :
  nfts (s_nft s') = nfts (s_nft s) -> next_nft (s_nft s') = next_nft (s_nft s) -> mint_args c = None ->
  nft_effect s o c s'.
Proof.
  intros En Ex Hm. split; [|split; [|split]].
  - intros i d Hd. rewrite En, Hd. apply evolves_same.
  - intros i d Hn Hd. rewrite En in Hd. congruence.
  - done.
  - congruence.
Qed.

(** Calls that rewrite one existing NFT. *)
Lemma effect_one s o c s' i d d' :
  nfts (s_nft s) !! i = Some d -> nfts (s_nft s') = <[i := d']> (nfts (s_nft s)) ->
  next_nft (s_nft s') = next_nft (s_nft s) -> mint_args c = None ->
  evolves s o c i d (Some d') -> nft_effect s o c s'.
Proof.
  intros Hd En Ex Hm He. split; [|split; [|split]].
  - intros j x Hx. rewrite En. destruct (decide (j = i)) as [->|].
    + rewrite lookup_insert. congruence.
    + rewrite lookup_insert_ne, Hx by done. apply evolves_same.
  - intros j x Hn Hx. rewrite En in Hx. destruct (decide (j = i)) as [->|]; [congruence|].
    rewrite lookup_insert_ne in Hx by done. congruence.
  - done.
  - congruence.
Qed.

Lemma effect_mint s who c s' n d' :
  inv1 s -> n = next_nft (s_nft s) -> nfts (s_nft s') = <[n := d']> (nfts (s_nft s)) ->
  next_nft (s_nft s') = next_nft (s_nft s) + 1 -> owner d' = who -> creator d' = who ->
  mint_args c = Some (offchain_data d', royalty d', collection_id d', is_soulbound (nstate d')) ->
  nft_effect s (Signed who) c s'.
Proof.
  intros HI -> En Ex Ho Hc Hm.
  assert (Hn : nfts (s_nft s) !! next_nft (s_nft s) = None) by (apply (i_next s HI); lia).
  split; [|split; [|split]].
  - intros j x Hx. rewrite En, lookup_insert_ne by congruence. rewrite Hx. apply evolves_same.
  - intros j x Hj Hx. rewrite En in Hx. destruct (decide (j = next_nft (s_nft s))) as [->|].
    + rewrite lookup_insert in Hx. injection Hx as <-. unfold born. rewrite Ho. split_and!; auto.
    + rewrite lookup_insert_ne in Hx by done. congruence.
  - congruence.
  - intros _. split_and!; auto. rewrite En, lookup_insert. eauto.
Qed.

End calls.

Ltac eff_one i d :=
  eapply (effect_one _ _ _ _ i d); [eassumption|st_cbn; reflexivity|reflexivity|reflexivity|];
  unfold evolves; st_cbn; split_and!; auto.

Section calls2.
Context {C : Config}.

Lemma create_nft_nfts s who data roy co sb s1 :
  create_nft who data roy co sb s = (Ok tt, s1) ->
  nfts (s_nft s1) = <[next_nft (s_nft s) := mkNft who who data co roy (default_state sb)]> (nfts (s_nft s)) /\
  next_nft (s_nft s1) = next_nft (s_nft s) + 1.
Proof. intros H. minv H; subst; done. Qed.

Lemma shards_inv s i d l : inv1 s -> nfts (s_nft s) !! i = Some d ->
  secret_shards (s_nft s) !! i = Some l -> shards_ok l.
Proof.
  intros HI Hd Hl. pose proof (i_view s HI i) as Hv. unfold view_ok in Hv. rewrite Hd in Hv.
  by destruct (v_sshards _ _ _ _ _ _ _ _ _ _ _ _ _ Hv l Hl).
Qed.
Lemma cshards_inv s i d l : inv1 s -> nfts (s_nft s) !! i = Some d ->
  capsule_shards (s_nft s) !! i = Some l -> shards_ok l.
Proof.
  intros HI Hd Hl. pose proof (i_view s HI i) as Hv. unfold view_ok in Hv. rewrite Hd in Hv.
  by destruct (v_cshards _ _ _ _ _ _ _ _ _ _ _ _ _ Hv l Hl).
Qed.

Lemma effect_nft s o c s' :
  inv1 s -> pallet_of c = PNft -> exec_call o c s = (Ok tt, s') -> nft_effect s o c s'.
Proof.
  intros HI Hp He. destruct c; try discriminate Hp; clear Hp; cbn [exec_call] in He.
  all: first [ unfold signed in He; destruct o; try discriminate He
             | unfold root in He; destruct o; try discriminate He ].
  - (* create *) minv He; subst; (eapply effect_mint; [done|reflexivity|st_cbn; reflexivity|done..]).
  - (* burn *)
    assert (exists d, nfts (s_nft s) !! id = Some d /\ owner d = who /\
      nfts (s_nft s') = delete id (nfts (s_nft s)) /\ next_nft (s_nft s') = next_nft (s_nft s)) as (d&Hd&Ho&En&Ex).
    { minv He; subst; eauto 8. }
    split; [|split; [|split]]; [| |done|done].
    + intros j x Hx. rewrite En. destruct (decide (j = id)) as [->|].
      * rewrite lookup_delete. split; [done|]. congruence.
      * rewrite lookup_delete_ne, Hx by done. apply evolves_same.
    + intros j x Hn Hx. rewrite En in Hx. apply lookup_delete_Some in Hx as [_ ?]. congruence.
  - minv He. subst. eff_one id x. right. left. congruence.
  - minv He; subst; eff_one id x.
  - minv He. subst. eff_one id x. right. eexists. split_and!; [reflexivity| |congruence|done]. congruence.
  - minv He. subst. by apply effect_same.
  - minv He; subst; by apply effect_same.
  - minv He; subst; by apply effect_same.
  - minv He; subst; by apply effect_same.
  - minv He; subst; by apply effect_same.
  - minv He. subst. eff_one id x0. right. eexists. split_and!; [reflexivity| |done..]. congruence.
  - minv He. subst. eff_one id x.
  - unfold create_secret_nft in He. mstep He. mstep He. apply bind_ok in He as ([]&s1&H1&He).
    apply create_nft_nfts in H1 as [En Ex]. mstep He. minv He.
    rewrite Ex, En, N.add_sub, lookup_insert in U. injection U as <-. subst s'.
    eapply effect_mint; [done|reflexivity|st_cbn; rewrite Ex, En, N.add_sub, insert_insert; reflexivity|st_cbn; done|done..].
  - unfold add_secret_shard in He. do 6 mstep He. mstep He. mstep He.
    assert (nfts (s_nft s') = <[id := if snd x1 then put_syncing_secret false x0 else x0]> (nfts (s_nft s)) /\
            next_nft (s_nft s') = next_nft (s_nft s)) as [En Ex].
    { minv He; subst; done. }
    clear He. eapply (effect_one _ _ _ _ id x0); [done|exact En|exact Ex|done|].
    destruct (snd x1) eqn:Es; [|apply evolves_same].
    unfold evolves; st_cbn; split_and!; auto. intros _. right. exists who. split_and!; auto.
    eapply shard_step_done; [exact U|intros l Hl; by eapply shards_inv|reflexivity|exact U1|done].
  - minv He. subst. by apply effect_same.
  - minv He. subst. eff_one id x.
  - unfold create_capsule in He. mstep He. mstep He. apply bind_ok in He as ([]&s1&H1&He).
    apply create_nft_nfts in H1 as [En Ex]. mstep He. minv He.
    rewrite Ex, En, N.add_sub, lookup_insert in U. injection U as <-. subst s'.
    eapply effect_mint; [done|reflexivity|st_cbn; rewrite Ex, En, N.add_sub, insert_insert; reflexivity|st_cbn; done|done..].
  - minv He. subst. eff_one id x.
  - minv He. subst. by apply effect_same.
  - unfold add_capsule_shard in He. do 6 mstep He. mstep He. mstep He.
    assert (nfts (s_nft s') = <[id := if snd x1 then put_syncing_capsule false x0 else x0]> (nfts (s_nft s)) /\
            next_nft (s_nft s') = next_nft (s_nft s)) as [En Ex].
    { minv He; subst; done. }
    clear He. eapply (effect_one _ _ _ _ id x0); [done|exact En|exact Ex|done|].
    destruct (snd x1) eqn:Es; [|apply evolves_same].
    unfold evolves; st_cbn; split_and!; auto. intros _. right. exists who. split_and!; auto.
    eapply shard_step_done; [exact U|intros l Hl; by eapply cshards_inv|reflexivity|exact U1|done].
  - minv He. subst. eff_one id x.
  - minv He. subst. by apply effect_same.
Qed.

End calls2.

Section calls3.
Context {C : Config}.

Lemma effect_market s o c s' :
  inv1 s -> pallet_of c = PMarket -> exec_call o c s = (Ok tt, s') -> nft_effect s o c s'.
Proof.
  intros HI Hp He. destruct c; try discriminate Hp; clear Hp; cbn [exec_call] in He.
  all: first [ unfold signed in He; destruct o; try discriminate He
             | unfold root in He; destruct o; try discriminate He ].
  all: try (minv He; subst; by apply effect_same).
  - minv He; subst; st_cbn_in U1; simplify_eq; eff_one id x.
  - minv He; subst; st_cbn_in U0; simplify_eq; eff_one id x.
  - minv He; subst; eff_one id x; right; right; left; split_and!; eauto.
Qed.

Lemma effect_auction s o c s' :
  inv1 s -> pallet_of c = PAuction -> exec_call o c s = (Ok tt, s') -> nft_effect s o c s'.
Proof.
  intros HI Hp He. destruct c; try discriminate Hp; clear Hp; cbn [exec_call] in He.
  all: first [ unfold signed in He; destruct o; try discriminate He
             | unfold root in He; destruct o; try discriminate He ].
  all: try (minv He; subst; by apply effect_same).
  - minv He; subst; eff_one id x.
  - minv He; subst; eff_one id x.
  - minv He; subst; eff_one id x.
    all: destruct (auction_nft s id x0 HI U0) as (d&Hd&_&Ho); right; left; congruence.
  - minv He; subst; eff_one id x.
    all: right; right; right; left; split_and!; eauto.
Qed.

Lemma effect_trans s o c s' :
  inv1 s -> pallet_of c = PTrans -> exec_call o c s = (Ok tt, s') -> nft_effect s o c s'.
Proof.
  intros HI Hp He. destruct c; try discriminate Hp; clear Hp; cbn [exec_call] in He.
  all: first [ unfold signed in He; destruct o; try discriminate He
             | unfold root in He; destruct o; try discriminate He ].
  all: try (minv He; subst; by apply effect_same).
  - minv He; subst; eff_one id x.
  - minv He; subst; eff_one id x.
  - minv He; subst; try discriminate; try (by apply effect_same).
    all: st_cbn_in U3; simplify_eq; st_cbn_in U2; simplify_eq.
    all: lazymatch goal with U : nfts (s_nft _) !! ?i = Some ?d |- _ => eff_one i d end.
    all: right; do 3 right; left; eexists _, _; split_and!; eauto.
Qed.

End calls3.
