(** Consequences of the NFT, collection and soulbound invariants, in the form of the
    property theorems. *)
From Verif Require Export InvColl Soul2.
Local Open Scope N_scope.

Section facts.
Context {C : Config}.

Ltac view s i d Hd HI :=
  let Hv := fresh "Hv" in pose proof (i_view s HI i) as Hv; unfold view_ok in Hv; rewrite Hd in Hv; destruct Hv.

Lemma fact_one s i d : reachable s -> nfts (s_nft s) !! i = Some d ->
  (count_occ Bool.bool_dec (engagement_flags d) true <= 1)%nat.
Proof.
  intros Hs Hd. pose proof (reachable_inv1 s Hs) as HI. view s i d Hd HI. clear - v_one.
  unfold engagements, engagement_flags in *.
  destruct (is_listed _), (is_delegated _), (is_rented _), (is_transmission _), (is_syncing_secret _), (is_syncing_capsule _);
    cbn in *; lia.
Qed.

Lemma isS_iff {A} (o : option A) b : b = isS o -> b = true <-> is_Some o.
Proof. intros ->. destruct o; cbn; split; eauto; try done. by intros [? [=]]. Qed.

Lemma fact_flags s i d : reachable s -> nfts (s_nft s) !! i = Some d ->
  (is_listed (nstate d) = true <-> is_Some (sales (s_mkt s) !! i) \/ is_Some (auctions (s_auc s) !! i)) /\
  (is_Some (sales (s_mkt s) !! i) -> auctions (s_auc s) !! i = None) /\
  (is_rented (nstate d) = true <-> is_Some (contracts (s_rent s) !! i)) /\
  (is_transmission (nstate d) = true <-> is_Some (transs (s_trans s) !! i)) /\
  (is_delegated (nstate d) = true <-> is_Some (delegated (s_nft s) !! i)).
Proof.
  intros Hs Hd. pose proof (reachable_inv1 s Hs) as HI. view s i d Hd HI.
  split; [|split; [|split_and!; by apply isS_iff]].
  - rewrite v_listed, orb_true_iff, !(isS_iff _ _ eq_refl). done.
  - intros [x Hx]. rewrite Hx in v_sale_auc. cbn in v_sale_auc. by apply isS_false.
Qed.
Lemma fact_none s i : reachable s -> nfts (s_nft s) !! i = None ->
  sales (s_mkt s) !! i = None /\ auctions (s_auc s) !! i = None /\ contracts (s_rent s) !! i = None /\
  transs (s_trans s) !! i = None /\ delegated (s_nft s) !! i = None /\
  secret_data (s_nft s) !! i = None /\ capsule_data (s_nft s) !! i = None /\
  secret_shards (s_nft s) !! i = None /\ capsule_shards (s_nft s) !! i = None.
Proof.
  intros Hs Hd. pose proof (reachable_inv1 s Hs) as HI. view s i d Hd HI. split_and!; done.
Qed.

Lemma fact_coll s : reachable s ->
  (forall i k, (exists d, nfts (s_nft s) !! i = Some d /\ collection_id d = Some k) <->
     (exists c, colls (s_nft s) !! k = Some c /\ i ∈ c_nfts c)) /\
  (forall k c, colls (s_nft s) !! k = Some c -> NoDup (c_nfts c)).
Proof.
  intros Hs. destruct (reachable_cinv s Hs) as [_ H1 H2]. split.
  - intros i k. rewrite <- H1. unfold coll_of. destruct (nfts (s_nft s) !! i) as [d|]; cbn.
    + split; [by intros (d'&[= <-]&?)|]. intros Hk. by exists d.
    + split; [by intros (?&[=]&_)|done].
  - intros k c Hc. by apply (H2 k c Hc).
Qed.
Lemma fact_coll_limit s k c : reachable s -> colls (s_nft s) !! k = Some c ->
  nlen (c_nfts c) <= coll_size_limit /\
  forall l, c_limit c = Some l -> nlen (c_nfts c) <= l /\ l <= coll_size_limit.
Proof.
  intros Hs Hc. destruct (reachable_cinv s Hs) as [_ _ H2]. destruct (H2 k c Hc) as (_&H3&H4). split; [done|].
  exact H4.
Qed.

Lemma coll_old s k : reachable s -> is_Some (colls (s_nft s) !! k) -> k < next_coll (s_nft s).
Proof.
  intros Hs Hk. destruct (reachable_cinv s Hs) as [H1 _ _]. apply N.nle_gt. intros Hle. rewrite H1 in Hk by done. by destruct Hk.
Qed.
Lemma fact_closed s s' k c c' : reachable s -> later s s' ->
  colls (s_nft s) !! k = Some c -> colls (s_nft s') !! k = Some c' ->
  (c_closed c = true -> c_closed c' = true /\ forall i, i ∈ c_nfts c' -> i ∈ c_nfts c) /\
  (forall l, c_limit c = Some l -> c_limit c' = Some l).
Proof.
  intros Hs Hl Hc Hc'. destruct (later_crel s s' Hs Hl) as [_ H]. specialize (H k (coll_old s k Hs ltac:(eauto))).
  rewrite Hc, Hc' in H. destruct H as (_&H1&H2). split; [|done]. intros Hcl. destruct (H1 Hcl). auto.
Qed.

(** Identifiers. *)
Lemma nft_old s i : reachable s -> is_Some (nfts (s_nft s) !! i) -> i < next_nft (s_nft s).
Proof.
  intros Hs Hk. apply N.nle_gt. intros Hle. rewrite (i_next s (reachable_inv1 s Hs)) in Hk by done. by destruct Hk.
Qed.
Definition idrel (s s' : state) : Prop :=
  next_nft (s_nft s) <= next_nft (s_nft s') /\
  forall i, i < next_nft (s_nft s) -> nfts (s_nft s) !! i = None -> nfts (s_nft s') !! i = None.
Lemma later_idrel s s' : reachable s -> later s s' -> idrel s s'.
Proof.
  apply (later_rel idrel).
  - intros t. split; [lia|done].
  - intros s1 s2 s3 [A1 A2] [B1 B2]. split; [lia|]. intros i Hi Hn. apply B2; [lia|]. by apply A2.
  - intros t t' Ht Hst. destruct (soul_sstep t t') as [[Hn Hr] _]; [by apply sreach_inv1|by apply sreach_sinv|done|].
    split; [done|]. intros i Hi Hno. specialize (Hr i). rewrite Hno in Hr. destruct (nfts (s_nft t') !! i); [lia|done].
Qed.
Lemma fact_gone s0 s1 s2 : reachable s0 -> later s0 s1 -> later s1 s2 ->
  (forall i, is_Some (nfts (s_nft s0) !! i) -> nfts (s_nft s1) !! i = None -> nfts (s_nft s2) !! i = None) /\
  (forall k, is_Some (colls (s_nft s0) !! k) -> colls (s_nft s1) !! k = None -> colls (s_nft s2) !! k = None).
Proof.
  intros H0 H1 H2. pose proof (later_reachable _ _ H0 H1) as Hr1. split.
  - intros i Hi Hn. apply (later_idrel s1 s2); [done..| |done].
    pose proof (nft_old s0 i H0 Hi). destruct (later_idrel s0 s1 H0 H1). lia.
  - intros k Hk Hn. pose proof (coll_old s0 k H0 Hk). destruct (later_crel s0 s1 H0 H1) as [Hc _].
    destruct (later_crel s1 s2 Hr1 H2) as [_ Hx]. specialize (Hx k ltac:(lia)). rewrite Hn in Hx.
    by destruct (colls (s_nft s2) !! k).
Qed.
Lemma fact_mint s0 s o c s' : reachable s0 -> later s0 s -> mint_args c <> None ->
  dispatch o c s = (Ok tt, s') ->
  exists i d, nfts (s_nft s) !! i = None /\ nfts (s_nft s') !! i = Some d /\
    (forall j, is_Some (nfts (s_nft s0) !! j) -> j < i).
Proof.
  intros H0 H1 Hm Hd. pose proof (later_reachable _ _ H0 H1) as Hr. apply dispatch_ok in Hd as [_ He].
  destruct (nft_exec s o c s' (reachable_inv1 s Hr) He) as (_&_&_&G). destruct (G Hm) as (_&Hn&[d Hd']).
  exists (next_nft (s_nft s)), d. split_and!; [done..|]. intros j Hj. pose proof (nft_old s0 j H0 Hj).
  destruct (later_idrel s0 s H0 H1). lia.
Qed.
Lemma fact_new_coll s0 s who data limit s' : reachable s0 -> later s0 s ->
  dispatch (Signed who) (C_create_collection data limit) s = (Ok tt, s') ->
  exists k c, colls (s_nft s) !! k = None /\ colls (s_nft s') !! k = Some c /\
    c_owner c = who /\ c_nfts c = [] /\ c_limit c = limit /\ c_closed c = false /\
    (forall j, is_Some (colls (s_nft s0) !! j) -> j < k).
Proof.
  intros H0 H1 Hd. pose proof (later_reachable _ _ H0 H1) as Hr. apply dispatch_ok in Hd as [_ He].
  exists (next_coll (s_nft s)), (mkColl who data [] limit false).
  assert (colls (s_nft s') = <[next_coll (s_nft s) := mkColl who data [] limit false]> (colls (s_nft s))) as E.
  { cbn [exec_call signed] in He. by minv He; subst. }
  rewrite E, lookup_insert. split_and!; try done.
  - apply (ci_next s (reachable_cinv s Hr)). lia.
  - intros j Hj. pose proof (coll_old s0 j H0 Hj). destruct (later_crel s0 s H0 H1). lia.
Qed.

(** Records. *)
Lemma fact_record s a i d d' : reachable s ->
  nfts (s_nft s) !! i = Some d -> nfts (s_nft (step s a)) !! i = Some d' ->
  creator d' = creator d /\ offchain_data d' = offchain_data d /\
  is_soulbound (nstate d') = is_soulbound (nstate d) /\
  (forall k, collection_id d = Some k -> collection_id d' = Some k) /\
  (royalty d' <> royalty d -> creator d = owner d /\
     a = Extrinsic (Signed (owner d)) (C_set_royalty i (royalty d')) /\
     fst (dispatch (Signed (owner d)) (C_set_royalty i (royalty d')) s) = Ok tt).
Proof.
  intros Hs Hd Hd'. pose proof (reachable_nft_step s a Hs) as Hst. destruct a as [o c| |e]; cbn [nft_step] in Hst.
  - destruct Hst as [[E _]|[Hok (G&_)]].
    + rewrite E in Hd'. assert (d' = d) as -> by congruence. split_and!; done.
    + specialize (G i d Hd). rewrite Hd' in G. destruct G as (G1&G2&G3&G4&G5&_). split_and!; try done.
      * intros k Hk. destruct G4 as [->|(k'&_&_&?&_)]; congruence.
      * intros Hr. destruct G5 as [?|(r&->&->&?&<-)]; [done|]. split_and!; try done. by rewrite Hok.
  - pose proof (h_nft _ _ Hst i) as Hn. rewrite Hd in Hn. destruct Hn as (d2&Hd2&Ht&_). rewrite Hd' in Hd2.
    injection Hd2 as <-. unfold same_traits in Ht. destruct Ht as (T1&T2&T3&T4&T5&_).
    split_and!; try done; congruence.
  - rewrite Hst in Hd'. assert (d' = d) as -> by congruence. split_and!; done.
Qed.
Lemma step_ids s a : reachable s -> action_ok a -> idrel s (step s a).
Proof. intros Hs Ha. apply later_idrel; [done|]. constructor; [constructor|done]. Qed.
Lemma fact_record_later s s' i d d' : reachable s -> later s s' ->
  nfts (s_nft s) !! i = Some d -> nfts (s_nft s') !! i = Some d' ->
  creator d' = creator d /\ offchain_data d' = offchain_data d /\
  is_soulbound (nstate d') = is_soulbound (nstate d) /\
  (forall k, collection_id d = Some k -> collection_id d' = Some k).
Proof.
  intros Hs Hl Hd. revert d'. induction Hl as [|t a Hl IH Ha]; intros d' Hd'.
  - assert (d' = d) as -> by congruence. split_and!; done.
  - pose proof (later_reachable _ _ Hs Hl) as Ht. destruct (nfts (s_nft t) !! i) as [x|] eqn:Hx.
    + destruct (IH x eq_refl) as (A1&A2&A3&A4). destruct (fact_record t a i x d' Ht Hx Hd') as (B1&B2&B3&B4&_).
      split_and!; [congruence..|]. auto.
    + pose proof (nft_old s i Hs ltac:(eauto)). destruct (later_idrel s t Hs Hl) as [? _].
      destruct (step_ids t a Ht Ha) as [_ B]. rewrite B in Hd'; [done|lia|done].
Qed.

(** Ownership. *)
Lemma fact_moved s a i d d' : reachable s ->
  nfts (s_nft s) !! i = Some d -> nfts (s_nft (step s a)) !! i = Some d' -> owner d' <> owner d ->
  moved_by s a i (owner d) (owner d').
Proof.
  intros Hs Hd Hd' Hne. pose proof (reachable_nft_step s a Hs) as Hst. destruct a as [o c| |e]; cbn [nft_step moved_by] in *.
  - destruct Hst as [[E _]|[Hok (G&_)]].
    + rewrite E in Hd'. congruence.
    + specialize (G i d Hd). rewrite Hd' in G. destruct G as (_&_&_&_&_&[?|?]&_); done.
  - pose proof (h_nft _ _ Hst i) as Hn. rewrite Hd in Hn. destruct Hn as (d2&Hd2&_&Ho). rewrite Hd' in Hd2.
    injection Hd2 as <-. destruct Ho as [?|[? _]]; done.
  - rewrite Hst in Hd'. congruence.
Qed.
Lemma fact_free s a i d d' : reachable s ->
  nfts (s_nft s) !! i = Some d -> unengaged d -> owner d ∉ pots ->
  nfts (s_nft (step s a)) !! i = Some d' -> owner d' <> owner d ->
  (exists c, a = Extrinsic (Signed (owner d)) c) \/
  (exists id k l, a = Extrinsic (Signed (r_renter k)) (C_accept_rent_offer id (owner d)) /\
     contracts (s_rent s) !! id = Some k /\ offers (s_rent s) !! id = Some l /\ owner d ∈ l).
Proof.
  intros Hs Hd Hu Hp Hd' Hne. pose proof (fact_moved s a i d d' Hs Hd Hd' Hne) as Hm.
  destruct (fact_flags s i d Hs Hd) as (F1&F2&F3&F4&F5). destruct Hu as (U1&U2&U3&U4&U5&U6).
  rewrite U1 in F1. rewrite U4 in F4. rewrite U3 in F3.
  assert (rent_pot ∈ pots) as Hrp by (unfold pots; set_solver).
  destruct a as [o c| |e]; cbn [moved_by] in Hm; [|exfalso|done].
  - destruct Hm as [->|[(->&_&Hx)|[(->&_&Hx)|[(who&t&->&->&Hx&_)|[(who&id&k&_&_&_&_&Hx&_)|(id&k&l&->&Hk&->&Hl&Hin)]]]]].
    + left. eauto.
    + exfalso. destruct F1 as [_ F1]; by specialize (F1 (or_introl Hx)).
    + exfalso. destruct F1 as [_ F1]; by specialize (F1 (or_intror Hx)).
    + exfalso. destruct F4 as [_ F4]. by specialize (F4 ltac:(eauto)).
    + exfalso. congruence.
    + right. exists id, k, l. done.
  - destruct Hm as [(x&amt&Hx&_)|[(t&Hx&_)|(id&k&_&_&Hx&_)]].
    + destruct F1 as [_ F1]; by discriminate F1; right; exists x.
    + destruct F4 as [_ F4]. by specialize (F4 ltac:(eauto)).
    + congruence.
Qed.

(** Syncing. *)
Lemma fact_shards s i : reachable s ->
  (forall l, secret_shards (s_nft s) !! i = Some l \/ capsule_shards (s_nft s) !! i = Some l ->
     l <> [] /\ nlen l < shards_number /\ NoDup (map snd l) /\ exists cl, Forall (fun x => fst x = cl) l) /\
  (is_Some (secret_shards (s_nft s) !! i) -> exists d, nfts (s_nft s) !! i = Some d /\ is_syncing_secret (nstate d) = true) /\
  (is_Some (capsule_shards (s_nft s) !! i) -> exists d, nfts (s_nft s) !! i = Some d /\ is_syncing_capsule (nstate d) = true).
Proof.
  intros Hs. pose proof (reachable_inv1 s Hs) as HI. pose proof (i_view s HI i) as Hv. unfold view_ok in Hv.
  destruct (nfts (s_nft s) !! i) as [d|] eqn:Hd; destruct Hv.
  - split_and!.
    + intros l [Hl|Hl]; [by apply v_sshards in Hl as [? _]|by apply v_cshards in Hl as [? _]].
    + intros [l Hl]. apply v_sshards in Hl as [_ ?]. eauto.
    + intros [l Hl]. apply v_cshards in Hl as [_ ?]. eauto.
  - rewrite vn_sshards, vn_cshards. split_and!; [by intros l [?|?]|by intros [? ?]..].
Qed.
Lemma fact_sync_end s a i d d' : reachable s ->
  nfts (s_nft s) !! i = Some d -> nfts (s_nft (step s a)) !! i = Some d' ->
  (is_syncing_secret (nstate d) = true -> is_syncing_secret (nstate d') = false ->
   exists addr, a = Extrinsic (Signed addr) (C_add_secret_shard i) /\
     fst (dispatch (Signed addr) (C_add_secret_shard i) s) = Ok tt /\
     completes_shards s (default [] (secret_shards (s_nft s) !! i)) addr) /\
  (is_syncing_capsule (nstate d) = true -> is_syncing_capsule (nstate d') = false ->
   exists addr, a = Extrinsic (Signed addr) (C_add_capsule_shard i) /\
     fst (dispatch (Signed addr) (C_add_capsule_shard i) s) = Ok tt /\
     completes_shards s (default [] (capsule_shards (s_nft s) !! i)) addr).
Proof.
  intros Hs Hd Hd'. pose proof (reachable_nft_step s a Hs) as Hst. destruct a as [o c| |e]; cbn [nft_step] in Hst.
  - destruct Hst as [[E _]|[Hok (G&_)]].
    + rewrite E in Hd'. assert (d' = d) as -> by congruence. split; congruence.
    + specialize (G i d Hd). rewrite Hd' in G. destruct G as (_&_&_&_&_&_&G6&G7). split; intros H1 H2.
      * destruct (G6 H1) as [?|(who&->&->&?)]; [congruence|]. exists who. by rewrite Hok.
      * destruct (G7 H1) as [?|(who&->&->&?)]; [congruence|]. exists who. by rewrite Hok.
  - pose proof (h_nft _ _ Hst i) as Hn. rewrite Hd in Hn. destruct Hn as (d2&Hd2&Ht&_). rewrite Hd' in Hd2.
    injection Hd2 as <-. unfold same_traits in Ht. destruct Ht as (_&_&_&_&_&_&_&_&T1&T2). split; congruence.
  - rewrite Hst in Hd'. assert (d' = d) as -> by congruence. split; congruence.
Qed.

Lemma fact_data s i : reachable s ->
  match nfts (s_nft s) !! i with
  | Some d =>
     (is_Some (secret_data (s_nft s) !! i) <-> is_secret (nstate d) = true \/ is_syncing_secret (nstate d) = true) /\
     (is_Some (capsule_data (s_nft s) !! i) <-> is_capsule (nstate d) = true \/ is_syncing_capsule (nstate d) = true)
  | None => secret_data (s_nft s) !! i = None /\ capsule_data (s_nft s) !! i = None
  end.
Proof.
  intros Hs. pose proof (reachable_inv1 s Hs) as HI. pose proof (i_view s HI i) as Hv. unfold view_ok in Hv.
  destruct (nfts (s_nft s) !! i) as [d|] eqn:Hd; destruct Hv; [|done].
  rewrite <- (isS_iff _ _ v_secret), <- (isS_iff _ _ v_capsule). tauto.
Qed.

Lemma fact_burn s o i s' : reachable s -> action_ok (Extrinsic o (C_burn_nft i)) ->
  dispatch o (C_burn_nft i) s = (Ok tt, s') ->
  nfts (s_nft s') !! i = None /\ (forall k c, colls (s_nft s') !! k = Some c -> i ∉ c_nfts c) /\
  delegated (s_nft s') !! i = None /\ secret_data (s_nft s') !! i = None /\ capsule_data (s_nft s') !! i = None /\
  secret_shards (s_nft s') !! i = None /\ capsule_shards (s_nft s') !! i = None /\
  sales (s_mkt s') !! i = None /\ auctions (s_auc s') !! i = None /\ contracts (s_rent s') !! i = None /\
  transs (s_trans s') !! i = None.
Proof.
  intros Hs Ha Hd. pose proof (reach_step s _ Hs Ha) as Hs'. cbn [step] in Hs'. rewrite Hd in Hs'. cbn [snd] in Hs'.
  assert (Hn : nfts (s_nft s') !! i = None).
  { apply dispatch_ok in Hd as [_ He]. cbn [exec_call] in He. unfold signed in He. destruct o; try done.
    unfold burn_nft in He. do 7 mstep He. apply bind_ok in He as ([]&s1&_&He). apply bind_ok in He as ([]&s2&_&He).
    apply bind_ok in He as ([]&s3&_&He). minv He. subst s'. st_cbn. apply lookup_delete. }
  destruct (fact_none s' i Hs' Hn) as (?&?&?&?&?&?&?&?&?). split_and!; try done.
  intros k c Hc Hin. destruct (fact_coll s' Hs') as [Hx _]. destruct (Hx i k) as [_ Hy].
  destruct Hy as (d&?&_); [by exists c|]. congruence.
Qed.

(** Ids fit their type. *)
Lemma next_nft_range s : reachable s -> next_nft (s_nft s) <= u32_max.
Proof.
  intros H%reachable_sreach. induction H as [s Hs|s o c s' Hs IH Ha Hw Hm He|s ev Hs IH|s Hs IH|s h Hs IH|s e s' Hs IH Ha He].
  - destruct Hs as (now&era&bal&lk&->&_). done.
  - pose proof (sreach_inv1 s Hs) as HI. destruct (nft_call s o c s' HI Hm He) as (_&_&G3&G4).
    destruct (mint_args c) eqn:Em; [|by rewrite G3]. clear G3 G4.
    destruct c; try discriminate Em; cbn [exec_call] in He; unfold signed in He; destruct o; try done.
    + unfold create_nft in He. minv He; subst s'; st_cbn; assumption.
    + unfold create_secret_nft, create_nft in He. minv He; subst s'; st_cbn; assumption.
    + unfold create_capsule, create_nft in He. minv He; subst s'; st_cbn; assumption.
  - done.
  - done.
  - rewrite (h_next _ _ (hook_hrel s h (sreach_inv1 s Hs))). done.
  - apply env_kept in He. unfold env_kept_from in He. destruct_and! He. congruence.
Qed.

Lemma fact_unlist s i d : reachable s -> nfts (s_nft s) !! i = Some d -> is_Some (sales (s_mkt s) !! i) ->
  exists s' d', dispatch (Signed (owner d)) (C_unlist_nft i) s = (Ok tt, s') /\
    sales (s_mkt s') = delete i (sales (s_mkt s)) /\ s_bal s' = s_bal s /\
    nfts (s_nft s') = <[i := d']> (nfts (s_nft s)) /\ owner d' = owner d /\ unengaged d'.
Proof.
  intros Hs Hd Hsa. destruct (fact_flags s i d Hs Hd) as (F1&_). 
  assert (Hl : is_listed (nstate d) = true) by (apply F1; by left).
  pose proof (i_view s (reachable_inv1 s Hs) i) as Hv. unfold view_ok in Hv. rewrite Hd in Hv.
  pose proof (only_listed d (v_one _ _ _ _ _ _ _ _ _ _ _ _ _ Hv) Hl) as (O1&O2&O3&O4&O5). clear Hv.
  eexists _, (put_listed false d). split.
  { unfold dispatch. cbn [wf_call]. unfold fits. rewrite (proj2 (N.leb_le i u32_max)); cycle 1.
    { pose proof (nft_old s i Hs ltac:(eauto)). pose proof (next_nft_range s Hs). lia. }
    unfold transactional. cbn [exec_call signed]. unfold unlist_nft, get_nft, get_sale, gets, unwrap, bind, ensure, set_nft_state.
    rewrite Hd, N.eqb_refl. destruct Hsa as [x Hx]. rewrite Hx. unfold bind, get_nft, gets, unwrap. rewrite Hd. reflexivity. }
  st_cbn. split_and!; done.
Qed.
End facts.
