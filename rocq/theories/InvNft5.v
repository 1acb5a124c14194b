(** The NFT invariant holds in every reachable state. *)
From Verif Require Export Frame InvNft4.
Local Open Scope N_scope.

Section all.
Context {C : Config}.

Lemma inv1_genesis s : genesis s -> inv1 s.
Proof.
  intros (now&era&bal&lk&->&_). split; cbn.
  - intros i _. apply lookup_empty.
  - intros i. unfold view_ok. cbn. rewrite !lookup_empty. done.
  - intros i l. rewrite lookup_empty. done.
  - intros id c role j. rewrite lookup_empty. done.
Qed.

Lemma inv1_same s s' :
  inv1 s -> s_nft s' = s_nft s -> s_mkt s' = s_mkt s -> s_auc s' = s_auc s -> s_rent s' = s_rent s ->
  s_trans s' = s_trans s -> inv1 s'.
Proof. intros HI e1 e2 e3 e4 e5. eapply inv1_frame; [exact HI|..]; rewrite ?e1, ?e2, ?e3, ?e4, ?e5; try done. Qed.

Ltac call l := match goal with HI : inv1 _, Ha : _, He : _ = (Ok tt, _) |- _ =>
  eapply l; [exact HI|..|exact He]; exact Ha end.

Lemma inv1_call s o c s' :
  inv1 s -> action_ok (Extrinsic o c) -> is_mandate c = false ->
  exec_call o c s = (Ok tt, s') -> inv1 s'.
Proof.
  intros HI Ha Hm He.
  destruct (pallet_of c) eqn:Hp;
    try (pose proof (call_kept o c s s' Hm He) as Hk; rewrite Hp in Hk; unfold kept in Hk;
         destruct_and! Hk; by eapply inv1_same).
  all: destruct c; try discriminate Hp; clear Hp Hm; cbn [exec_call] in He.
  all: first [ unfold signed in He; destruct o; try discriminate He; cbn [action_ok] in Ha
             | unfold root in He; destruct o; try discriminate He ].
  all: try first
    [ call inv1_create_nft | call inv1_burn_nft | call inv1_transfer_nft
    | call inv1_delegate_nft | call inv1_set_royalty | call inv1_add_nft_to_collection
    | call inv1_add_secret | call inv1_create_secret_nft | call inv1_add_secret_shard
    | call inv1_convert_to_capsule | call inv1_create_capsule
    | call inv1_set_capsule_offchaindata | call inv1_add_capsule_shard
    | call inv1_notify_enclave_key_update | call inv1_list_nft | call inv1_unlist_nft
    | call inv1_buy_nft | call inv1_create_auction | call inv1_cancel_auction
    | call inv1_end_auction | call inv1_add_bid | call inv1_remove_bid
    | call inv1_buy_it_now | call inv1_claim | call inv1_create_contract
    | call inv1_cancel_contract | call inv1_revoke_contract | call inv1_rent
    | call inv1_make_rent_offer | call inv1_accept_rent_offer
    | call inv1_retract_rent_offer | call inv1_change_subscription_terms
    | call inv1_accept_subscription_terms | call inv1_set_transmission_protocol
    | call inv1_remove_transmission_protocol | call inv1_reset_timer
    | call inv1_add_consent ].
  all: minv He; subst s'; try (frame; fail).
  all: try (frame; intros ? ?; by apply insert_keeps).
  destruct k; frame.
Qed.

Lemma pay_for_nft_bal id from amount d a s : exists r b, pay_for_nft id from amount d a s = (r, s <| s_bal := b |>).
Proof.
  assert (Hs : s <| s_bal := s_bal s |> = s) by by destruct s.
  assert (H : pres (fun t => t <| s_bal := s_bal s |> = s) (pay_for_nft id from amount d a)).
  { pres_go; assumption. }
  specialize (H s Hs). destruct (pay_for_nft id from amount d a s) as [r s1]. cbn in H.
  exists r, (s_bal s1). f_equal. rewrite <- H. by destruct s1.
Qed.

Lemma finish_auction_inv1 s id a d w :
  inv1 s -> auctions (s_auc s) !! id = Some a -> nfts (s_nft s) !! id = Some d ->
  inv1 (s <| s_nft ::= fun n => n <| nfts ::= <[id := put_listed false (d <| owner := w |>)]> |> |>
          <| s_auc ::= fun x => x <| auctions ::= delete id |> |>).
Proof.
  intros HI Ha Hd. engaged s id. inv1_local id.
Qed.

Lemma inv1_pres_settle_one id : pres inv1 (settle_one id).
Proof.
  intros s HI. unfold settle_one, bind at 1, get_auction, gets.
  destruct (auctions (s_auc s) !! id) as [a|] eqn:Ea; [|done].
  unfold bind at 1, get_nft, gets.
  destruct (nfts (s_nft s) !! id) as [d|] eqn:Ed; [|done].
  destruct (pop_highest (a_bidders a)) as [[[w paid] rest]|] eqn:Ep.
  - unfold bind at 1, catch.
    destruct (pay_for_nft_bal id auction_pot paid d (a <| a_bidders := rest |>) s) as (r&b&->).
    destruct r as [cut|e]; [|by eapply inv1_same].
    unfold bind at 1. rewrite claim_all_run. destruct cut as [[m c] t].
    pose proof (finish_auction_inv1 s id a d w HI Ea Ed) as H. eapply inv1_frame; [exact H|..]; st_cbn; done.
  - pose proof (finish_auction_inv1 s id a d (owner d) HI Ea Ed) as H.
    eapply inv1_frame; [exact H|..]; st_cbn; by destruct d.
Qed.

Lemma transmit_nft_cases id s :
  (exists e, transmit_nft id s = (Err e, s)) \/ exists s', transmit_nft id s = (Ok tt, s').
Proof.
  unfold transmit_nft, bind, get_trans, get_nft, gets, unwrap.
  destruct (transs (s_trans s) !! id); [|eauto].
  destruct (nfts (s_nft s) !! id); [|eauto]. right. eexists. reflexivity.
Qed.

Lemma inv1_pres_emit e : pres inv1 (emit e).
Proof. intros s HI. by eapply inv1_same. Qed.

Lemma inv1_hook s h : inv1 s -> inv1 (snd (run_hook h s)).
Proof.
  revert s. destruct h; cbn [run_hook].
  - apply pres_auction_hook; [apply inv1_pres_settle_one|]. intros s dl HI. frame.
  - apply pres_rent_hook; [apply inv1_pres_handle_finished|apply inv1_pres_emit| |].
    + intros id now. pres_go. by eapply inv1_same.
    + intros s q HI. frame.
  - apply pres_trans_hook; [|apply inv1_pres_emit|].
    + intros id s HI. destruct (transmit_nft_cases id s) as [[e ->]|[s' E]]; [done|].
      rewrite E. by eapply inv1_transmit_nft.
    + intros s q HI. frame.
  - intros s HI. pose proof (hook_kept HookTee s) as Hk. cbn in Hk. destruct_and! Hk.
    by eapply inv1_same.
Qed.

Lemma sreach_inv1 s : sreach s -> inv1 s.
Proof.
  induction 1.
  - by apply inv1_genesis.
  - by eapply inv1_call.
  - by eapply inv1_same.
  - by eapply inv1_same.
  - by apply inv1_hook.
  - match goal with H : run_env _ _ = _ |- _ => pose proof (env_kept _ _ _ _ H) as Hk end.
    unfold env_kept_from in Hk. destruct_and! Hk. by eapply inv1_same.
Qed.

Lemma reachable_inv1 s : reachable s -> inv1 s.
Proof. intros H. by apply sreach_inv1, reachable_sreach. Qed.

End all.
