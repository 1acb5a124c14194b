(** Property theorems: nobody is made poorer by others.  The terms are in SpecAssets.v. *)
From Verif Require Import SpecAssets AssetsFacts Demo PropsAuction PropsRent.
Local Open Scope N_scope.

Section props.
Context {C : Config}.

(** C120: what others do costs an account only the NFTs it wins and the rent it agreed to pay. *)
Theorem C120_nobody_is_made_poorer s a w : config_ok -> ed <= 1 -> reachable s -> action_ok a -> w ∉ pots ->
  (forall c, a <> Extrinsic (Signed w) c) -> (forall e, a = Env e -> ~ env_takes e w) ->
  exists l r, NoDup (map fst l) /\ (forall i x, (i, x) ∈ l -> won s (step s a) w i x) /\
    NoDup (map fst r) /\ (forall i fee, (i, fee) ∈ r -> pays_rent s a w i fee) /\
    assets s w <= assets (step s a) w + sum_of (map snd l) + sum_of (map snd r).
Proof. exact (fact_assets s a w). Qed.
(** The same for any number of steps. *)
Theorem C120_over_time s acts w : config_ok -> ed <= 1 -> reachable s -> Forall action_ok acts -> w ∉ pots -> by_others w acts ->
  exists x, spends w s acts x /\ assets s w <= assets (after s acts) w + x.
Proof. exact (fact_assets_run w acts s). Qed.

(** C121: an account without bids, rentals and offers to rent stays without them, and has at
    least as much as before, whatever others do. *)
Theorem C121_uninvolved_keep_all s a w : config_ok -> ed <= 1 -> reachable s -> action_ok a -> w ∉ pots ->
  (forall c, a <> Extrinsic (Signed w) c) -> (forall e, a = Env e -> ~ env_takes e w) ->
  uninvolved s w -> uninvolved (step s a) w /\ assets s w <= assets (step s a) w.
Proof. exact (fact_uninvolved_keeps s a w). Qed.
Theorem C121_over_time s acts w : config_ok -> ed <= 1 -> reachable s -> Forall action_ok acts -> w ∉ pots -> by_others w acts ->
  uninvolved s w -> assets s w <= assets (after s acts) w.
Proof. exact (fact_uninvolved_run w acts s). Qed.
End props.

Local Existing Instance demo1.
Local Notation by_ w c := (Extrinsic (Signed w) c).

Definition rent_moves : list action := [by_ 1 (C_revoke_contract 0)] ++ replicate 5 NextBlock.
Lemma assets_ed : ed <= 1.
Proof. vm_compute. discriminate. Qed.

(** Account 2 rents NFTs 0 and 1, with a deposit of 200 for the first, and has deposited 7 for
    NFT 4.  Account 1 revokes the first contract: 2 has the 200 back, and 50 of 1.  Five blocks
    later 2 has paid 30 for the next period of NFT 1, and nothing else. *)
Example C120_case :
  let s := demo rent_running in let t := demo (rent_running ++ rent_moves) in
  2 ∉ pots /\ by_others 2 rent_moves /\ Forall action_ok rent_moves /\
  (free (s_bal s) 2, deposited s 2, assets s 2) = (9643, 207, 9850) /\
  assets (step s (by_ 1 (C_revoke_contract 0))) 2 = 9900 /\
  (free (s_bal t) 2, deposited t 2, assets t 2) = (9863, 7, 9870) /\
  (* accepting the offer of 2 cost 30 *)
  let u := demo rent_demo in
  pays_rent u (by_ 1 (C_accept_rent_offer 1 2)) 2 1 30 /\ assets u 2 = 9980 /\ assets (step u (by_ 1 (C_accept_rent_offer 1 2))) 2 = 9950.
Proof.
  cbv zeta. split; [by apply memN_not_elem|]. split.
  { intros a [Ha%elem_of_list_singleton|Ha%elem_of_replicate_inv]%elem_of_app; subst a; by split. }
  split.
  { apply Forall_app. split; [|apply Forall_replicate; exact I]. apply Forall_singleton. cbv -[not pots elem_of]. by apply memN_not_elem. }
  split; [vm_compute; reflexivity|]. split; [vm_compute; reflexivity|]. split; [vm_compute; reflexivity|]. split.
  { right. eexists. split; [vm_compute; reflexivity|]. split; [reflexivity|]. split; [|split; reflexivity].
    eexists. split; [vm_compute; reflexivity|]. left. }
  split; vm_compute; reflexivity.
Qed.
(** Account 5 leads for NFT 0 with 400, and owns the marketplace; four blocks later it has the NFT and 23 of
    commissions. *)
Example C120_win_case :
  let s := demo auction_demo2 in let t := demo (auction_demo2 ++ replicate 4 NextBlock) in
  (free (s_bal s) 5, owed s 5, assets s 5) = (9350, 400, 9750) /\ assets t 5 = 9373 /\ owner_of t 0 = Some 5.
Proof. vm_compute. auto. Qed.

(** Account 1 sells three NFTs and is not involved otherwise. *)
Lemma uninvolved_by s w :
  forallb (fun p => forallb (fun b => negb (fst b =? w)) (a_bidders (snd p))) (map_to_list (auctions (s_auc s))) = true ->
  forallb (fun p => match r_rentee (snd p) with Some t => negb (t =? w) | None => true end) (map_to_list (contracts (s_rent s))) = true ->
  forallb (fun p => forallb (fun t => negb (t =? w)) (snd p)) (map_to_list (offers (s_rent s))) = true ->
  uninvolved s w.
Proof.
  rewrite !forallb_forall. intros H1 H2 H3. split_and!.
  - intros i a x Ha Hx. specialize (H1 (i, a)). rewrite <- elem_of_list_In, elem_of_map_to_list in H1. specialize (H1 Ha).
    cbn in H1. rewrite forallb_forall in H1. specialize (H1 (w, x)). rewrite <- elem_of_list_In in H1. specialize (H1 Hx). cbn in H1. by rewrite N.eqb_refl in H1.
  - intros i c Hc Ht. specialize (H2 (i, c)). rewrite <- elem_of_list_In, elem_of_map_to_list in H2. specialize (H2 Hc).
    cbn in H2. rewrite Ht, N.eqb_refl in H2. done.
  - intros i (l&Hl&Hw). specialize (H3 (i, l)). rewrite <- elem_of_list_In, elem_of_map_to_list in H3. specialize (H3 Hl).
    cbn in H3. rewrite forallb_forall in H3. specialize (H3 w). rewrite <- elem_of_list_In in H3. specialize (H3 Hw). by rewrite N.eqb_refl in H3.
Qed.
Example C121_case :
  uninvolved (demo auction_demo2) 1 /\ uninvolved (demo rent_running) 1 /\
  assets (demo auction_demo2) 1 = 9970 /\ assets (demo (auction_demo2 ++ replicate 4 NextBlock)) 1 = 10407 /\
  deposited (demo rent_running) 1 = 50.
Proof.
  split; [apply uninvolved_by; vm_compute; reflexivity|]. split; [apply uninvolved_by; vm_compute; reflexivity|].
  split; [vm_compute; reflexivity|]. split; vm_compute; reflexivity.
Qed.

Print Assumptions C120_nobody_is_made_poorer.
Print Assumptions C120_over_time.
Print Assumptions C121_uninvolved_keep_all.
Print Assumptions C121_over_time.
