(** When the calls of pallet nft succeed. *)
From Verif Require Export RuleMoney NftFacts2 InvColl InvNft5.
Local Open Scope N_scope.

Section rules.
Context {C : Config}.
Implicit Types (s : state).

Lemma rule_intro o c s (P : Prop) : wf_call c = true ->
  (forall s', exec_call o c s = (Ok tt, s') -> P) -> (P -> succeeds (exec_call o c) s) ->
  (exists s', dispatch o c s = (Ok tt, s')) <-> P.
Proof.
  intros Hw H1 H2. rewrite dispatch_rule. split.
  - intros [_ ([]&s'&H)]. eauto.
  - intros HP. split; [done|]. auto.
Qed.

Lemma room_iff s k c : cinv s -> colls (s_nft s) !! k = Some c ->
  (nlen (c_nfts c) <? default coll_size_limit (c_limit c)) = true <->
  nlen (c_nfts c) < coll_size_limit /\ forall l, c_limit c = Some l -> nlen (c_nfts c) < l.
Proof.
  intros Hi Hc. rewrite N.ltb_lt. destruct (ci_ok s Hi k c Hc) as (_&H1&H2). unfold limit_ok in H2.
  destruct (c_limit c) as [l|]; cbn.
  - specialize (H2 l eq_refl). split; [intros H; split; [lia|by intros ? [= <-]]|]. intros [_ H]. by apply H.
  - split; [intros H; split; [done|done]|]. by intros [H _].
Qed.

(** The minting part. *)
Lemma create_needs s w d r co sb r0 s' : 0 < ed -> binv s -> cinv s -> create_nft w d r co sb s = (Ok r0, s') ->
  exists b, pay_fee_b w (mint_fee (s_nft s)) (s_bal s) = Ok b /\ s_bal s' = b /\ can_mint s w co /\
    next_nft (s_nft s') = next_nft (s_nft s) + 1 /\ secret_fee (s_nft s') = secret_fee (s_nft s) /\
    capsule_fee (s_nft s') = capsule_fee (s_nft s) /\
    nfts (s_nft s') = <[next_nft (s_nft s) := mkNft w w d co r (default_state sb)]> (nfts (s_nft s)).
Proof.
  intros Hed Hb Hc H. unfold create_nft in H. minv H; subst s'; st_cbn; eexists; split_and!; try done.
  - split; [st_cbn_in E2; lia|]. intros k [= <-]. exists x. st_cbn_in U. split_and!; [done|done|]. unfold has_room. split; [done|].
    apply (room_iff s n x Hc U). apply N.ltb_lt. done.
  - split; [st_cbn_in E; lia|done].
Qed.
Lemma create_suffices s w d r co sb : 0 < ed -> binv s -> cinv s -> affords s w (mint_fee (s_nft s)) -> can_mint s w co ->
  succeeds (create_nft w d r co sb) s.
Proof.
  intros Hed Hb Hc Ha [Hn Hm]. destruct (affords_fee s w _ Hed Hb Ha) as [b Hp].
  unfold create_nft. okgo.
  destruct co as [k|].
  - destruct (Hm k eq_refl) as (c&Hk&Ho&Hcl&Hr). pose proof (proj2 (room_iff s k c Hc Hk) Hr). destruct Hr. okgo.
  - okgo.
Qed.

Lemma secret_needs s w i x r0 s' : add_secret w i x s = (Ok r0, s') ->
  exists b, pay_fee_b w (secret_fee (s_nft s)) (s_bal s) = Ok b.
Proof. intros H. unfold add_secret in H. minv H. eauto. Qed.
Lemma capsule_needs s w i x r0 s' : convert_to_capsule w i x s = (Ok r0, s') ->
  exists b, pay_fee_b w (capsule_fee (s_nft s)) (s_bal s) = Ok b.
Proof. intros H. unfold convert_to_capsule in H. minv H. eauto. Qed.

Lemma check_of_affords b w x : affords_b b w x -> balance_check b w x = true.
Proof.
  unfold affords_b, balance_check, can_withdraw. intros H.
  destruct (free b w <? x) eqn:E; [apply N.ltb_lt in E; lia|]. apply N.ltb_ge in E.
  destruct (x =? 0) eqn:E0; [done|]. apply N.eqb_neq in E0. cbn [orb]. apply N.leb_le. lia.
Qed.
Lemma affords_fits b w x y : bsum b 0 -> affords_b b w (x + y) -> wadd x y = x + y.
Proof.
  intros Hb H. unfold wadd. apply N.mod_small. pose proof (bsum_max b 0 w Hb). unfold affords_b in H.
  unfold u128_max in *. lia.
Qed.

Lemma shard_iff s w (l : option (list (N * N))) full e : ensure_enclave (s_tee s) w = Some e ->
  (forall x, l = Some x -> shards_ok x) ->
  (exists r, shard_step full (fst e) (snd e) l = Ok r) <->
  (forall c o, (c, o) ∈ default [] l -> c = fst e /\ o <> snd e) /\ nlen (default [] l) < shards_number.
Proof.
  intros He Hl. destruct e as [c op]. cbn [fst snd]. unfold shard_step. destruct l as [l|]; cbn [from_option id].
  - specialize (Hl l eq_refl) as (Hne&Hn&Hd&c0&Hf). destruct l as [|[c1 o1] l]; [done|]. 
    rewrite Forall_forall in Hf. pose proof (Hf (c1, o1) ltac:(constructor)) as E1. cbn in E1. subst c1. split.
    + intros [r H]. destruct (c =? c0) eqn:Ec; cbn [negb] in H; [|done]. apply N.eqb_eq in Ec as ->.
      destruct (_ <? shards_number); cbn [negb] in H; [|done]. destruct (existsb _ _) eqn:Ex; [done|].
      split; [|done]. intros c o Ho. pose proof (Hf _ Ho) as Eo. cbn in Eo. subst c. split; [done|]. intros ->.
      assert (existsb (fun x => (fst x =? c0) && (snd x =? op)) ((c0, o1) :: l) = true) as Ht.
      { apply existsb_exists. exists (c0, op). split; [by apply elem_of_list_In|]. cbn. by rewrite !N.eqb_refl. }
      congruence.
    + intros [H1 H2]. destruct (H1 c0 o1 ltac:(constructor)) as [-> _]. rewrite N.eqb_refl. cbn [negb].
      rewrite (proj2 (N.ltb_lt _ _) H2). cbn [negb]. destruct (existsb _ _) eqn:Ex; [|destruct (_ =? _); eauto].
      apply existsb_exists in Ex as ([c1 o2]&Hin&Hx). apply andb_true_iff in Hx as [_ Hx%N.eqb_eq]. cbn in Hx. subst o2.
      apply elem_of_list_In in Hin. by destruct (H1 _ _ Hin).
  - cbn. split.
    + intros [r H]. destruct (_ <? 1) eqn:E; [done|]. apply N.ltb_ge in E. split; [|unfold nlen; cbn; lia].
      intros ?? H1. by apply elem_of_nil in H1.
    + intros [_ H]. rewrite (proj2 (N.ltb_ge _ _)) by (unfold nlen in H; cbn in H; lia). destruct (_ =? _); eauto.
Qed.
Lemma enclave_iff t w e : ensure_enclave t w = Some e <-> addr_op t !! w = Some (snd e) /\ enc_cluster t !! snd e = Some (fst e).
Proof.
  unfold ensure_enclave. destruct e as [c o]. cbn. split.
  - destruct (addr_op t !! w) as [o'|]; [|done]. destruct (enc_cluster t !! o') as [c'|] eqn:E; [|done]. intros [= <- <-]. eauto.
  - intros [-> ->]. done.
Qed.

Lemma view s i d : inv1 s -> nfts (s_nft s) !! i = Some d ->
  (is_syncing_secret (nstate d) = true -> is_secret (nstate d) = true) /\
  (is_syncing_capsule (nstate d) = true -> is_capsule (nstate d) = true) /\
  (forall l, secret_shards (s_nft s) !! i = Some l -> shards_ok l) /\
  (forall l, capsule_shards (s_nft s) !! i = Some l -> shards_ok l).
Proof.
  intros Hi Hd. pose proof (i_view s Hi i) as H. unfold view_ok in H. rewrite Hd in H.
  split_and!; [apply (v_ssync _ _ _ _ _ _ _ _ _ _ _ _ _ H)|apply (v_csync _ _ _ _ _ _ _ _ _ _ _ _ _ H)| |]; intros l Hl;
    [by apply (v_sshards _ _ _ _ _ _ _ _ _ _ _ _ _ H)|by apply (v_cshards _ _ _ _ _ _ _ _ _ _ _ _ _ H)].
Qed.
Lemma false_if (a b : bool) : (a = true -> b = true) -> b = false -> a = false.
Proof. destruct a; [|done]. intros H ->. by specialize (H eq_refl). Qed.

Lemma fact_nft_rule s w c : 0 < ed -> reachable s -> fees_collector <> Some w -> wf_call c = true -> is_nft_call c ->
  (exists s', dispatch (Signed w) c s = (Ok tt, s')) <-> nft_rule s w c.
Proof.
  intros Hed Hs Hcol Hw Hc. pose proof (reachable_binv s Hs) as Hb. pose proof (reachable_inv1 s Hs) as H1.
  pose proof (reachable_cinv s Hs) as Hci. apply rule_intro; [done| |].
  - intros s' H. destruct c; try done; cbn [exec_call signed root] in H; try done; cbn [nft_rule].
    + apply create_needs in H as (b&H&_&Hm&_); [|done..]. split; [|done]. by eapply fee_affords.
    + unfold burn_nft in H. minv H; by eexists.
    + unfold transfer_nft in H. minv H. eexists. split_and!; [done|done|congruence|done|by apply not_locked].
    + unfold delegate_nft in H. minv H; eexists; split_and!; done.
    + unfold set_royalty in H. minv H; eexists; split_and!; done.
    + unfold create_collection in H. minv H; (split; [lia|]); intros y Hy; [rewrite Hy in O; by injection O as ->|congruence].
    + unfold burn_collection in H. minv H. eexists; split_and!; [done|done|]. unfold nlen in E0. destruct (c_nfts x); [done|cbn in E0; lia].
    + unfold close_collection in H. minv H. by eexists.
    + unfold limit_collection in H. minv H. by eexists.
    + unfold add_nft_to_collection in H. minv H. split; eexists; split_and!; try done.
      split; [done|]. apply (room_iff s _ x Hci U). by apply N.ltb_lt.
    + unfold add_secret in H. minv H. split; [|by eapply fee_affords].
      eexists. split_and!; try done. unfold unengaged. split_and!; try done. destruct (view s _ x H1 U) as (?&?&_). by eapply false_if.
    + unfold create_secret_nft in H. mstep H. mstep H. apply bind_ok in H as ([]&s1&H&H2). mstep H2.
      apply create_needs in H as (b&H&Hb1&Hm&_&Ef&_); [|done..]. apply secret_needs in H2 as [b2 H2]. split; [|done].
      apply (two_fees w _ _ (s_bal s) Hed Hb Hcol). exists b, b2. rewrite Ef, Hb1 in H2. done.
    + unfold add_secret_shard in H. mstep H. mstep H. mstep H. mstep H. mstep H. mstep H. mstep H. mstep H.
      destruct (view s _ x0 H1 U0) as (_&_&Hsh&_). eexists. split_and!; [done|done|]. exists (snd x), (fst x).
      apply enclave_iff in U as U'. destruct U' as [? ?]. split_and!; [done|done|..]; apply (shard_iff s w _ N_NFTHasReceivedAllShards x U Hsh); eauto.
    + unfold convert_to_capsule in H. minv H. split; [|by eapply fee_affords].
      eexists. split_and!; try done. unfold unengaged. split_and!; try done. destruct (view s _ x H1 U) as (?&?&_). by eapply false_if.
    + unfold create_capsule in H. mstep H. mstep H. apply bind_ok in H as ([]&s1&H&H2). mstep H2.
      apply create_needs in H as (b&H&Hb1&Hm&_&_&Ef&_); [|done..]. apply capsule_needs in H2 as [b2 H2]. split; [|done].
      apply (two_fees w _ _ (s_bal s) Hed Hb Hcol). exists b, b2. rewrite Ef, Hb1 in H2. done.
    + unfold set_capsule_offchaindata in H. minv H. by eexists.
    + unfold add_capsule_shard in H. mstep H. mstep H. mstep H. mstep H. mstep H. mstep H. mstep H. mstep H.
      destruct (view s _ x0 H1 U0) as (_&_&_&Hsh). eexists. split_and!; [done|done|]. exists (snd x), (fst x).
      apply enclave_iff in U as U'. destruct U' as [? ?]. split_and!; [done|done|..]; apply (shard_iff s w _ N_CapsuleHasReceivedAllShards x U Hsh); eauto.
    + unfold notify_enclave_key_update in H. minv H. by eexists.
    + unfold set_collection_offchaindata in H. minv H. by eexists.
  - intros H. destruct c; try done; cbn [nft_rule] in H; cbn [exec_call signed].
    + destruct H. by apply create_suffices.
    + destruct H as (d&Hd&<-&?&?&?&?). unfold burn_nft. okgo.
      destruct (collection_id d) as [k|] eqn:Ek.
      * assert (coll_of s id = Some k) as Hk by (unfold coll_of; rewrite Hd; done).
        apply (ci_ref s Hci) in Hk as (cd&Hcd&Hin). destruct (position_elem _ _ Hin) as [p Hp]. okgo.
        destruct (is_secret (nstate d)), (is_syncing_secret (nstate d)), (is_capsule (nstate d)), (is_syncing_capsule (nstate d)); okgo.
      * destruct (is_secret (nstate d)), (is_syncing_secret (nstate d)), (is_capsule (nstate d)), (is_syncing_capsule (nstate d)); okgo.
    + destruct H as (d&Hd&<-&?&(?&?&?&?&?&?)&Hl). unfold transfer_nft. 
      assert (soulbound_locked d = false) by (apply not_true_is_false; by rewrite soulbound_locked_iff). okgo.
    + destruct H as (d&Hd&<-&?&?&?&?&?). unfold delegate_nft. okgo. destruct (negb _); okgo.
    + destruct H as (d&Hd&<-&?&(?&?&?&?&?&?)). unfold set_royalty. okgo.
    + destruct H as [Hn Hl]. unfold create_collection. okgo. destruct limit as [x|]; [specialize (Hl x eq_refl)|]; okgo.
    + destruct H as (d&Hd&<-&Hn). unfold burn_collection. okgo. okstep; [by rewrite Hn|]. okgo.
    + destruct H as (d&Hd&<-&_). unfold close_collection. okgo.
    + destruct H as (d&Hd&<-&Hn&?&?&?). unfold limit_collection. okgo. okstep; [by rewrite Hn|]. okgo.
    + destruct H as [(c&Hc'&<-&Hcl&Hr) (d&Hd&?&Hn)]. pose proof (proj2 (room_iff s _ c Hci Hc') Hr). destruct Hr.
      unfold add_nft_to_collection. okgo. okstep; [by rewrite Hn|]. okgo.
    + destruct H as [(d&Hd&<-&?&(?&?&?&?&?&?)) Ha]. destruct (affords_fee s _ _ Hed Hb Ha) as [b Hp]. unfold add_secret. okgo.
    + destruct H as [Ha Hm]. destruct (proj2 (two_fees w _ _ (s_bal s) Hed Hb Hcol) Ha) as (b1&b2&P1&P2).
      destruct (create_suffices s w data royalty coll soulbound Hed Hb Hci (fee_affords s w _ b1 Hed Hb P1) Hm) as ([]&s1&Hr).
      unfold create_secret_nft. okstep. okstep.
      { rewrite (affords_fits _ _ _ _ Hb Ha). by apply check_of_affords. }
      eapply ok_run; [exact Hr|]. apply create_needs in Hr as (b&Hp&Eb&_&En&Ef&_&Ei); [|done..].
      assert (b = b1) as -> by congruence. okgo. rewrite <- Ef, <- Eb in P2.
      assert (nfts (s_nft s1) !! (next_nft (s_nft s1) - 1) = Some (mkNft w w data coll royalty (default_state soulbound))) as Hd.
      { rewrite Ei, En. replace (next_nft (s_nft s) + 1 - 1) with (next_nft (s_nft s)) by lia. by rewrite lookup_insert. }
      okgo.
    + destruct H as (d&Hd&Hy&op&cl&Ha&Hcl&Hl&Hn). destruct (view s _ d H1 Hd) as (Hsec&_&Hsh&_).
      assert (ensure_enclave (s_tee s) w = Some (cl, op)) as He by (by apply enclave_iff).
      destruct (proj2 (shard_iff s w _ N_NFTHasReceivedAllShards _ He Hsh)) as [r Hr]; [done|].
      specialize (Hsec Hy). unfold add_secret_shard. okgo. destruct r as [? []]; okgo.
    + destruct H as [(d&Hd&<-&?&(?&?&?&?&?&?)) Ha]. destruct (affords_fee s _ _ Hed Hb Ha) as [b Hp]. unfold convert_to_capsule. okgo.
    + destruct H as [Ha Hm]. destruct (proj2 (two_fees w _ _ (s_bal s) Hed Hb Hcol) Ha) as (b1&b2&P1&P2).
      destruct (create_suffices s w data royalty coll soulbound Hed Hb Hci (fee_affords s w _ b1 Hed Hb P1) Hm) as ([]&s1&Hr).
      unfold create_capsule. okstep. okstep.
      { rewrite (affords_fits _ _ _ _ Hb Ha). by apply check_of_affords. }
      eapply ok_run; [exact Hr|]. apply create_needs in Hr as (b&Hp&Eb&_&En&_&Ef&Ei); [|done..].
      assert (b = b1) as -> by congruence. okgo. rewrite <- Ef, <- Eb in P2.
      assert (nfts (s_nft s1) !! (next_nft (s_nft s1) - 1) = Some (mkNft w w data coll royalty (default_state soulbound))) as Hd.
      { rewrite Ei, En. replace (next_nft (s_nft s) + 1 - 1) with (next_nft (s_nft s)) by lia. by rewrite lookup_insert. }
      okgo.
    + destruct H as (d&Hd&<-&?&?&?&?&?&?). unfold set_capsule_offchaindata. okgo.
    + destruct H as (d&Hd&Hy&op&cl&Ha&Hcl&Hl&Hn). destruct (view s _ d H1 Hd) as (_&Hsec&_&Hsh).
      assert (ensure_enclave (s_tee s) w = Some (cl, op)) as He by (by apply enclave_iff).
      destruct (proj2 (shard_iff s w _ N_CapsuleHasReceivedAllShards _ He Hsh)) as [r Hr]; [done|].
      specialize (Hsec Hy). unfold add_capsule_shard. okgo. destruct r as [? []]; okgo.
    + destruct H as (d&Hd&<-&?&(?&?&?&?&?&?)). unfold notify_enclave_key_update. okgo.
    + destruct H as (d&Hd&<-&_). unfold set_collection_offchaindata. okgo.
Qed.
End rules.
