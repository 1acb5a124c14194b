(** Whoever is owed money can take it out: from what the pots hold and the rules of the calls. *)
From Verif Require Export SpecOwed.
From Verif Require Import AucFacts RentFacts RuleAuc RuleRent RuleTee Effects CanEnd InvNft4 RentInv RentOk Sreach AucInv FreeFacts BlockFacts TeeInv NftFacts TeeFacts Queue.
Local Open Scope N_scope.

Section facts.
Context {C : Config}.

Lemma owed_refund s w x : config_ok -> ed <= 1 -> reachable s -> claims (s_auc s) !! w = Some x ->
  exists s', dispatch (Signed w) C_claim s = (Ok tt, s') /\ free (s_bal s') w = free (s_bal s) w + x /\ claims (s_auc s') !! w = None.
Proof.
  intros HC He Hs Hx. destruct (a_claims _ _ (reachable_ainv s Hs) w x Hx) as [_ Hw].
  assert (x <= free (s_bal s) auction_pot) as Hp.
  { pose proof (fact_covers s HC He Hs) as H. unfold pot_covers, open_refunds in H.
    pose proof (msum_ge (claims (s_auc s)) w) as G. rewrite Hx in G. cbn in G. lia. }
  destruct (proj2 (fact_auc_rule s w C_claim HC Hs Hw eq_refl I)) as [s' Hd]; [by exists x|].
  exists s'. split; [done|]. destruct (AucFacts.fact_claim s w s' Hw Hd) as (y&Hy&Hf&_). rewrite Hx in Hy. injection Hy as <-.
  split; [done|]. apply dispatch_ok in Hd as [_ Hd]. cbn [exec_call signed] in Hd. apply claim_ok in Hd as (?&?&_&_&_&_&->).
  cbn. apply lookup_delete.
Qed.

Lemma sum_in (l : list (N * N)) w x : (w, x) ∈ l -> x <= sum_of (map snd l).
Proof.
  induction l as [|y l IH]; [by intros ?%elem_of_nil|]. unfold sum_of in *. cbn.
  intros [<-|H]%elem_of_cons; cbn; [lia|]. specialize (IH H). lia.
Qed.

Lemma known_id s i d : reachable s -> nfts (s_nft s) !! i = Some d -> i <= u32_max.
Proof.
  intros Hs Hd. pose proof (next_nft_range s Hs). pose proof (i_next s (reachable_inv1 s Hs) i) as Hn.
  destruct (decide (next_nft (s_nft s) <= i)) as [Hl|Hl]; [by rewrite Hn in Hd|]. lia.
Qed.

Lemma owed_bid s i a w x : config_ok -> ed <= 1 -> reachable s -> auctions (s_auc s) !! i = Some a -> (w, x) ∈ a_bidders a ->
  s_now s + ending_period < a_end a ->
  exists s', dispatch (Signed w) (C_remove_bid i) s = (Ok tt, s') /\ free (s_bal s') w = free (s_bal s) w + x /\
    exists a', auctions (s_auc s') !! i = Some a' /\ forall v y, (v, y) ∈ a_bidders a' <-> (v, y) ∈ a_bidders a /\ v <> w.
Proof.
  intros HC He Hs Ha Hx Ht. destruct (a_books _ _ (reachable_ainv s Hs) i a Ha) as [_ Hu Hb _ _ _ _].
  destruct (Hb w x Hx) as (_&_&_&Hw).
  assert (x <= free (s_bal s) auction_pot) as Hp.
  { pose proof (fact_covers s HC He Hs) as H. unfold pot_covers, live_bids in H.
    pose proof (msum_fmap_ge (fun a => sum_of (map snd (a_bidders a))) _ i a Ha) as G. cbn in G.
    pose proof (sum_in _ _ _ Hx). lia. }
  assert (wf_call (C_remove_bid i) = true) as Hwf.
  { destruct (auction_nft s i a (reachable_inv1 s Hs) Ha) as (d&Hd&_). by apply N.leb_le, (known_id s i d). }
  destruct (proj2 (fact_auc_rule s w (C_remove_bid i) HC Hs Hw Hwf I)) as [s' Hd]; [by exists a, x|].
  exists s'. split; [done|]. destruct (fact_unbid s w i s' Hs Hw Hd) as (a1&y&l&Ha1&Hy&Hl&Hv&Hf&_).
  rewrite Ha in Ha1. injection Ha1 as <-.
  assert (y = x) as ->. { by eapply (q_uniq w y x (a_bidders a)). }
  assert (w <> auction_pot) as Hn by (intros ->; apply Hw; unfold pots; left).
  split.
  - specialize (Hf w (or_introl Hn)). unfold at_acc in Hf. repeat case_decide; try done. revert Hf. clear. lia.
  - eexists. rewrite Hl, lookup_insert. split; [done|]. exact Hv.
Qed.

Lemma owed_deposit s i c : config_ok -> reachable s -> contracts (s_rent s) !! i = Some c -> r_rentee c = None ->
  exists s', dispatch (Signed (r_renter c)) (C_cancel_contract i) s = (Ok tt, s') /\
    free (s_bal s') (r_renter c) = free (s_bal s) (r_renter c) + token_deposit (r_renter_cf c) /\
    (forall j, r_renter_cf c = FeeNFT j -> owner_of s' j = Some (r_renter c)) /\ contracts (s_rent s') !! i = None.
Proof.
  intros HC Hs Hc Hr. pose proof (reachable_inv1 s Hs) as HI. pose proof (renter_not_pot s i c HI Hc) as Hw.
  assert (token_deposit (r_renter_cf c) <= free (s_bal s) rent_pot) as Hp.
  { pose proof (fact_rent_pot s HC Hs) as H. unfold held_deposits in H.
    pose proof (msum_fmap_ge deposits_of _ i c Hc) as G. unfold deposits_of at 1 in G. rewrite Hr in G. lia. }
  assert (wf_call (C_cancel_contract i) = true) as Hwf.
  { destruct (contract_nft s i c HI Hc) as (d&Hd&_). by apply N.leb_le, (known_id s i d). }
  destruct (proj2 (fact_rent_rule s (r_renter c) (C_cancel_contract i) HC Hs Hw Hwf I)) as [s' Hd]; [by exists c|].
  exists s'. split; [done|]. pose proof Hd as Hd'. apply dispatch_ok in Hd' as [_ He]. cbn [exec_call signed] in He.
  apply rcancel_ok in He as (c1&b1&Hc1&_&_&Ht&Hb&Hrs). rewrite Hc in Hc1. injection Hc1 as <-.
  assert (r_renter c <> rent_pot) as Hn by (intros E; rewrite E in Hw; apply Hw; unfold pots; right; left).
  split; [|split].
  - rewrite Hb. rewrite (transfer_free_other _ _ _ _ _ _ _ Ht Hn). unfold at_acc. rewrite decide_True by done. by destruct (r_renter_cf c).
  - intros j Ej. destruct (fact_rent_does s _ (C_cancel_contract i) s' HC Hs I Hd) as [(d&c1&Hi&Hc1&Hs') _].
    rewrite Hc in Hc1. injection Hc1 as <-. rewrite Ej in Hs'. cbn [deposit_to] in Hs'.
    destruct (contract_nft s i c HI Hc) as (d1&Hi1&_&Ho). rewrite Hi in Hi1. injection Hi1 as <-.
    unfold owner_of. rewrite Hs'. unfold write, passed. st_cbn. destruct (decide (j = i)) as [->|Hji].
    + rewrite lookup_insert. cbn. by rewrite Ho.
    + rewrite lookup_insert_ne by congruence. rewrite lookup_alter.
      destruct (fact_rent_custody s i c j Hs Hc) as [[? _]|Hj]; [by left|done|].
      unfold owner_of in Hj. by destruct (nfts (s_nft s) !! j).
  - rewrite Hrs. cbn. apply lookup_delete.
Qed.

Lemma wait_ledgers s n : ledgers (s_tee (wait s n)) = ledgers (s_tee s).
Proof.
  induction n as [|n IH]; [done|]. rewrite wait_S, <- IH. by rewrite (td_tee _ _ (block_only_due (wait s n))).
Qed.

Lemma owed_registration s w : config_ok -> reachable s -> w ∉ pots -> waiting s w ->
  exists s', dispatch (Signed w) C_unregister_enclave s = (Ok tt, s') /\ locked s' w = None /\ staked s' w = None /\ ~ waiting s' w.
Proof.
  intros HC Hs Hw Hr. destruct (proj2 (fact_tee_rule s w C_unregister_enclave HC Hs Hw eq_refl I)) as [s' Hd]; [by left|].
  exists s'. split; [done|]. destruct (fact_tee_does s w C_unregister_enclave s' I Hd) as (Hdo&Hl&_).
  pose proof (reachable_teeok s Hs) as Ht. destruct Hr as [r Er]. destruct (k_regs _ Ht w r Er) as [En _].
  assert (~ assigned s w) as Ha. { rewrite assigned_iff, En. by intros [? ?]. }
  specialize (Hl w). cbn in Hl. destruct Hl as [(_&_&Hl)|[[?|?] _]]; [|done|done].
  split; [done|]. cbn in Hdo. destruct Hdo as [[? _]|[_ Hdo]]; [done|].
  unfold staked, waiting. rewrite Hdo. unfold in_tee. st_cbn. rewrite !lookup_delete. split; [done|]. by intros [? ?].
Qed.

Lemma owed_stake s w b : config_ok -> bonding_duration <= u32_max -> reachable s -> w ∉ pots -> unbonding s w b ->
  exists n s', s_now (wait s n) <= N.max (s_now s) (b + bonding_duration) /\
    dispatch (Signed w) C_withdraw_unbonded (wait s n) = (Ok tt, s') /\ locked s' w = None /\ staked s' w = None.
Proof.
  intros HC Hu Hs Hw Hb. set (n := N.to_nat (b + bonding_duration - s_now s)).
  assert (s_now (wait s n) = N.max (s_now s) (b + bonding_duration)) as En.
  { rewrite wait_now. unfold n. rewrite N2Nat.id. clear. lia. }
  assert (unbonding (wait s n) w b) as Hb'. { unfold unbonding. by rewrite wait_ledgers. }
  pose proof (wait_reach s n Hs) as Hr. exists n.
  destruct (proj2 (fact_tee_rule (wait s n) w C_withdraw_unbonded HC Hr Hw eq_refl I)) as [s' Hd].
  { exists b. split; [done|]. rewrite En. revert Hu. clear. lia. }
  exists s'. split; [by rewrite En|]. split; [done|]. destruct (fact_tee_does _ w C_withdraw_unbonded s' I Hd) as (Hdo&Hl&_).
  specialize (Hl w). cbn in Hl. rewrite decide_True in Hl by done. split; [done|].
  cbn in Hdo. unfold staked. rewrite Hdo. unfold in_tee. st_cbn. by rewrite lookup_delete.
Qed.
End facts.
