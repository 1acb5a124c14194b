(** What the calls of pallet nft do. *)
From Verif Require Import SpecEffects EffCalc NftFacts MktFacts RuleNft.
Local Open Scope N_scope.

Section rows.
Context {C : Config}.

Lemma create_nft_does w x r co sb s s' : exec_call (Signed w) (C_create_nft x r co sb) s = (Ok tt, s') ->
  nft_does s w (C_create_nft x r co sb) s'.
Proof.
  intros H. cbn [exec_call signed] in H. unfold create_nft in H. cbn [nft_does]. destruct co as [k|]; minv H; subst.
  - eexists. split; [exists x0; split; [eassumption|reflexivity]|]. eff_eq.
  - eexists. split; [reflexivity|]. eff_eq.
Qed.
Lemma create_secret_does w x y r co sb s s' : exec_call (Signed w) (C_create_secret_nft x y r co sb) s = (Ok tt, s') ->
  nft_does s w (C_create_secret_nft x y r co sb) s'.
Proof.
  intros H. cbn [exec_call signed] in H. unfold create_secret_nft, create_nft in H. mstep H. mstep H.
  cbn [nft_does]. assert (Hn : next_nft (s_nft s) + 1 - 1 = next_nft (s_nft s)) by (clear; lia).
  destruct co as [k|].
  - do 12 mstep H. unfold add_secret in H. minv H. subst. st_cbn_in U0. rewrite Hn, lookup_insert in U0. injection U0 as <-.
    eexists. split; [exists x0; split; [eassumption|reflexivity]|].
    eff_eq; rewrite ?Hn, ?insert_insert; reflexivity.
  - do 12 mstep H. minv H. subst. st_cbn_in U. rewrite Hn, lookup_insert in U. injection U as <-.
    eexists. split; [reflexivity|].
    eff_eq; rewrite ?Hn, ?insert_insert; reflexivity.
Qed.
Lemma create_capsule_does w x y r co sb s s' : exec_call (Signed w) (C_create_capsule x y r co sb) s = (Ok tt, s') ->
  nft_does s w (C_create_capsule x y r co sb) s'.
Proof.
  intros H. cbn [exec_call signed] in H. unfold create_capsule, create_nft in H. mstep H. mstep H.
  cbn [nft_does]. assert (Hn : next_nft (s_nft s) + 1 - 1 = next_nft (s_nft s)) by (clear; lia).
  destruct co as [k|].
  - do 12 mstep H. unfold convert_to_capsule in H. minv H. subst. st_cbn_in U0. rewrite Hn, lookup_insert in U0. injection U0 as <-.
    eexists. split; [exists x0; split; [eassumption|reflexivity]|].
    eff_eq; rewrite ?Hn, ?insert_insert; reflexivity.
  - do 12 mstep H. minv H. subst. st_cbn_in U. rewrite Hn, lookup_insert in U. injection U as <-.
    eexists. split; [reflexivity|].
    eff_eq; rewrite ?Hn, ?insert_insert; reflexivity.
Qed.


Lemma burn_does w i s s' : reachable s -> exec_call (Signed w) (C_burn_nft i) s = (Ok tt, s') -> nft_does s w (C_burn_nft i) s'.
Proof.
  intros R H. cbn [exec_call signed] in H. unfold burn_nft in H. do 7 mstep H. rename x into d.
  pose proof (i_view s (reachable_inv1 s R) i) as V. unfold view_ok in V. rewrite U in V.
  assert (Hs : is_secret (nstate d) = false -> secret_data (s_nft s) !! i = None).
  { intros X. rewrite (v_secret _ _ _ _ _ _ _ _ _ _ _ _ _ V) in X. by destruct (secret_data (s_nft s) !! i). }
  assert (Hc : is_capsule (nstate d) = false -> capsule_data (s_nft s) !! i = None).
  { intros X. rewrite (v_capsule _ _ _ _ _ _ _ _ _ _ _ _ _ V) in X. by destruct (capsule_data (s_nft s) !! i). }
  assert (Hs2 : is_syncing_secret (nstate d) = false -> secret_shards (s_nft s) !! i = None).
  { intros X. destruct (secret_shards (s_nft s) !! i) as [l|] eqn:El; [|done].
    destruct (v_sshards _ _ _ _ _ _ _ _ _ _ _ _ _ V l eq_refl). congruence. }
  assert (Hc2 : is_syncing_capsule (nstate d) = false -> capsule_shards (s_nft s) !! i = None).
  { intros X. destruct (capsule_shards (s_nft s) !! i) as [l|] eqn:El; [|done].
    destruct (v_cshards _ _ _ _ _ _ _ _ _ _ _ _ _ V l eq_refl). congruence. }
  pose proof (v_ssync _ _ _ _ _ _ _ _ _ _ _ _ _ V) as Hs3. pose proof (v_csync _ _ _ _ _ _ _ _ _ _ _ _ _ V) as Hc3. clear V.
  cbn [nft_does]. exists d.
  assert (Hq : exists s1, quits s (collection_id d) i s1 /\ 
     secret_data (s_nft s1) = secret_data (s_nft s) /\ secret_shards (s_nft s1) = secret_shards (s_nft s) /\
     capsule_data (s_nft s1) = capsule_data (s_nft s) /\ capsule_shards (s_nft s1) = capsule_shards (s_nft s) /\
     (when (is_secret (nstate d))
       (mod_nft (fun n => n <| secret_data ::= delete i |>);;;
        when (is_syncing_secret (nstate d)) (mod_nft (fun n => n <| secret_shards ::= delete i |>)));;;
      when (is_capsule (nstate d))
       (mod_nft (fun n => n <| capsule_data ::= delete i |>);;;
        when (is_syncing_capsule (nstate d)) (mod_nft (fun n => n <| capsule_shards ::= delete i |>)));;;
      mod_nft (fun n => n <| nfts ::= delete i |>);;; emit (Ev_NFTBurned i)) s1 = (Ok tt, s')).
  { unfold quits. destruct (collection_id d) as [k|].
    - cbn [on_some] in H. apply bind_ok in H as ([]&s1&H1&H). minv H1. subst s1.
      eexists. split; [|split_and!; [| | | |exact H]; reflexivity].
      exists x, (swap_remove x0 (c_nfts x)). split; [done|]. split; [|reflexivity].
      destruct (position_lookup _ _ _ U1) as (y&Hy&Hf). apply N.eqb_eq in Hf as <-. symmetry. by apply swap_remove_perm.
    - eexists. split; [reflexivity|]. split_and!; [| | | |exact H]; reflexivity. }
  clear H. destruct Hq as (s1&Hq&D1&D2&D3&D4&H). exists s1. split; [done|]. split; [done|].
  rewrite <- D1 in Hs. rewrite <- D2 in Hs2. rewrite <- D3 in Hc. rewrite <- D4 in Hc2. clear Hq D1 D2 D3 D4 U.
  destruct (is_secret (nstate d)), (is_syncing_secret (nstate d)), (is_capsule (nstate d)), (is_syncing_capsule (nstate d));
    try discriminate (Hs3 eq_refl); try discriminate (Hc3 eq_refl);
    cbn [when] in H; minv H; subst s'; eff_eq; by rewrite ?delete_notin by auto.
Qed.
Lemma transfer_does w i r s s' : exec_call (Signed w) (C_transfer_nft i r) s = (Ok tt, s') -> nft_does s w (C_transfer_nft i r) s'.
Proof. intros H. eff_run H transfer_nft. cbn [nft_does]. exists x. split; [done|]. eff_eq. Qed.
Lemma delegate_does w i r s s' : exec_call (Signed w) (C_delegate_nft i r) s = (Ok tt, s') -> nft_does s w (C_delegate_nft i r) s'.
Proof.
  intros H. cbn [exec_call signed] in H. unfold delegate_nft in H. cbn [nft_does]. unfold delegate.
  destruct r as [a|]; cbn [from_option id] in H.
  - destruct (decide (a = w)) as [->|Hn]; [rewrite N.eqb_refl in H|apply N.eqb_neq in Hn; rewrite Hn in H]; cbn [negb] in H;
      minv H; subst; (exists x; split; [done|]; eff_eq).
  - rewrite N.eqb_refl in H. cbn [negb] in H. minv H; subst. exists x; split; [done|]; eff_eq.
Qed.
Lemma royalty_does w i r s s' : exec_call (Signed w) (C_set_royalty i r) s = (Ok tt, s') -> nft_does s w (C_set_royalty i r) s'.
Proof. intros H. eff_run H set_royalty. cbn [nft_does]. exists x. split; [done|]. eff_eq. Qed.
Lemma create_coll_does w x l s s' : exec_call (Signed w) (C_create_collection x l) s = (Ok tt, s') -> nft_does s w (C_create_collection x l) s'.
Proof. intros H. eff_run H create_collection; cbn [nft_does]; eff_eq. Qed.
Lemma burn_coll_does w k s s' : exec_call (Signed w) (C_burn_collection k) s = (Ok tt, s') -> nft_does s w (C_burn_collection k) s'.
Proof. intros H. eff_run H burn_collection; cbn [nft_does]; eff_eq. Qed.
Lemma close_coll_does w k s s' : exec_call (Signed w) (C_close_collection k) s = (Ok tt, s') -> nft_does s w (C_close_collection k) s'.
Proof. intros H. eff_run H close_collection. cbn [nft_does]. exists x. split; [done|]. eff_eq. Qed.
Lemma limit_coll_does w k l s s' : exec_call (Signed w) (C_limit_collection k l) s = (Ok tt, s') -> nft_does s w (C_limit_collection k l) s'.
Proof. intros H. eff_run H limit_collection. cbn [nft_does]. exists x. split; [done|]. eff_eq. Qed.
Lemma data_coll_does w k l s s' : exec_call (Signed w) (C_set_collection_offchaindata k l) s = (Ok tt, s') ->
  nft_does s w (C_set_collection_offchaindata k l) s'.
Proof. intros H. eff_run H set_collection_offchaindata. cbn [nft_does]. exists x. split; [done|]. eff_eq. Qed.
Lemma join_does w i k s s' : exec_call (Signed w) (C_add_nft_to_collection i k) s = (Ok tt, s') ->
  nft_does s w (C_add_nft_to_collection i k) s'.
Proof.
  intros H. eff_run H add_nft_to_collection. cbn [nft_does]. exists x0. eexists. split; [done|]. split; [exists x; split; [done|reflexivity]|]. eff_eq.
Qed.
Lemma secret_does w i y s s' : exec_call (Signed w) (C_add_secret i y) s = (Ok tt, s') -> nft_does s w (C_add_secret i y) s'.
Proof. intros H. eff_run H add_secret. cbn [nft_does]. exists x. split; [done|]. eff_eq. Qed.
Lemma convert_does w i y s s' : exec_call (Signed w) (C_convert_to_capsule i y) s = (Ok tt, s') -> nft_does s w (C_convert_to_capsule i y) s'.
Proof. intros H. eff_run H convert_to_capsule. cbn [nft_does]. exists x. split; [done|]. eff_eq. Qed.
Lemma capsule_data_does w i y s s' : exec_call (Signed w) (C_set_capsule_offchaindata i y) s = (Ok tt, s') ->
  nft_does s w (C_set_capsule_offchaindata i y) s'.
Proof. intros H. eff_run H set_capsule_offchaindata. cbn [nft_does]. eff_eq. by apply insert_id. Qed.
Lemma key_does w i s s' : exec_call (Signed w) (C_notify_enclave_key_update i) s = (Ok tt, s') ->
  nft_does s w (C_notify_enclave_key_update i) s'.
Proof. intros H. eff_run H notify_enclave_key_update. cbn [nft_does]. exists x. split; [done|]. eff_eq. Qed.

Lemma shard_step_is full cl op l r : shard_step full cl op l = Ok r ->
  r = (let l' := default [] l ++ [(cl, op)] in if decide (nlen l' = shards_number) then (None, true) else (Some l', false)).
Proof.
  unfold shard_step. intros H. destruct l as [[|[c0 o0] l]|]; [done| |]; cbn [default from_option id].
  - destruct (negb (cl =? c0)); [done|]. destruct (negb (nlen _ <? _)); [done|]. destruct (existsb _ _); [done|].
    destruct (nlen _ =? _) eqn:E; injection H as <-; cbn zeta.
    + apply N.eqb_eq in E. by rewrite decide_True.
    + apply N.eqb_neq in E. by rewrite decide_False.
  - destruct (shards_number <? 1) eqn:E1; [done|]. cbn zeta. change (nlen ([] ++ [(cl, op)])) with 1.
    destruct (shards_number =? 1) eqn:E; injection H as <-.
    + apply N.eqb_eq in E. by rewrite decide_True.
    + apply N.eqb_neq in E. by rewrite decide_False.
Qed.
Lemma enclave_is s w e : ensure_enclave (s_tee s) w = Some e -> enclave_of s w (snd e) (fst e).
Proof.
  unfold ensure_enclave, enclave_of. destruct (addr_op (s_tee s) !! w) as [op|]; [|done].
  destruct (enc_cluster (s_tee s) !! op) eqn:E; [|done]. intros [= <-]. done.
Qed.

Lemma secret_shard_does w i s s' : exec_call (Signed w) (C_add_secret_shard i) s = (Ok tt, s') -> nft_does s w (C_add_secret_shard i) s'.
Proof.
  intros H. cbn [exec_call signed] in H. unfold add_secret_shard in H. do 9 mstep H.
  cbn [nft_does]. exists x0, (snd x), (fst x). split; [done|]. split; [by apply enclave_is|]. cbn zeta.
  apply shard_step_is in U1. cbn zeta in U1. destruct (decide _) as [Hd|Hd]; subst x1; cbn [fst snd when] in H; minv H; subst; eff_eq.
  by apply insert_id.
Qed.
Lemma capsule_shard_does w i s s' : exec_call (Signed w) (C_add_capsule_shard i) s = (Ok tt, s') -> nft_does s w (C_add_capsule_shard i) s'.
Proof.
  intros H. cbn [exec_call signed] in H. unfold add_capsule_shard in H. do 9 mstep H.
  cbn [nft_does]. exists x0, (snd x), (fst x). split; [done|]. split; [by apply enclave_is|]. cbn zeta.
  apply shard_step_is in U1. cbn zeta in U1. destruct (decide _) as [Hd|Hd]; subst x1; cbn [fst snd when] in H; minv H; subst; eff_eq.
  by apply insert_id.
Qed.
End rows.
