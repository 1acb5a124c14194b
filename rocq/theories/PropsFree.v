(** Property theorems: NFTs become free. *)
From Verif Require Import SpecEnd CanEnd Demo PropsEffects.
Local Open Scope N_scope.

Section props.
Context {C : Config}.

(** C100: an NFT that changes hands is free afterwards: not for sale, not in an auction, not delegated, not rented
    out, not under transmission, not waiting for shards. *)
Theorem C100_free_after_changing_hands s a i d d' :
  reachable s -> action_ok a ->
  nfts (s_nft s) !! i = Some d -> nfts (s_nft (step s a)) !! i = Some d' -> owner d' <> owner d ->
  unengaged d' /\
  sales (s_mkt (step s a)) !! i = None /\ auctions (s_auc (step s a)) !! i = None /\ contracts (s_rent (step s a)) !! i = None /\
  transs (s_trans (step s a)) !! i = None /\ delegated (s_nft (step s a)) !! i = None.
Proof. exact (fact_free_after s a i d d'). Qed.

(** C101: from every state there is a way to free an NFT, unless it waits for shards, with blocks passing, one call of the
    owner, and consents of the accounts listed in its transmission.  (With an existential deposit
    above 1 an auction may never be settled, see C23_refuted; the accounts of the pallets sign nothing, so they
    must not be listed.) *)
Theorem C101_every_engagement_can_end s i d :
  config_ok -> reachable s -> nfts (s_nft s) !! i = Some d ->
  is_syncing_secret (nstate d) = false -> is_syncing_capsule (nstate d) = false ->
  (is_Some (auctions (s_auc s) !! i) -> ed <= 1) ->
  (forall t l k, under s i t -> asks (t_protocol t) l k -> forall w, w ∈ l -> w ∉ pots) ->
  exists acts d', Forall action_ok acts /\ Forall (helps s i d) acts /\ nfts (s_nft (after s acts)) !! i = Some d' /\ unengaged d'.
Proof. exact (fact_can_end s i d). Qed.
End props.

Section examples.
Local Existing Instance demo1.

(** NFT 4 is under transmission until the last consent. *)
Example C100_case : let s := demo (effects_demo ++ replicate 40 NextBlock) in let s' := step s (Extrinsic (Signed 3) (C_add_consent 4)) in
  reachable s /\ (owner <$> nfts (s_nft s) !! 4) = Some 1 /\ ((fun d => is_transmission (nstate d)) <$> nfts (s_nft s) !! 4) = Some true /\
  (owner <$> nfts (s_nft s') !! 4) = Some 3 /\ ((fun d => is_transmission (nstate d)) <$> nfts (s_nft s') !! 4) = Some false.
Proof. cbv zeta. split; [by apply demo_reachable|]. do 3 (split; [vm_compute; reflexivity|]). vm_compute. reflexivity. Qed.
(** NFTs 1 to 4 are for sale, in an auction, rented out, under transmission on consent. *)
Example C101_case : let s := demo effects_demo in
  config_ok /\ reachable s /\ ed <= 1 /\ sales (s_mkt s) !! 1 <> None /\ auctions (s_auc s) !! 2 <> None /\ contracts (s_rent s) !! 3 <> None /\
  (t_protocol <$> transs (s_trans s) !! 4) = Some (OnConsentAtBlock [2; 3; 4] 2 40) /\ (forall w, w ∈ [2; 3; 4] -> w ∉ pots) /\
  Forall (fun i => ((fun d => (is_syncing_secret (nstate d), is_syncing_capsule (nstate d))) <$> nfts (s_nft s) !! i) = Some (false, false)) [1; 2; 3; 4].
Proof.
  cbv zeta. split; [exact demo1_ok|]. split; [exact effects_reachable|]. split; [vm_compute; discriminate|].
  split; [vm_compute; discriminate|]. split; [vm_compute; discriminate|]. split; [vm_compute; discriminate|]. split; [vm_compute; reflexivity|].
  split. { intros w Hw. assert (w = 2 \/ w = 3 \/ w = 4) as [->|[->| ->]] by set_solver; apply memN_not_elem; reflexivity. }
  repeat constructor; vm_compute; reflexivity.
Qed.
(** What the theorem promises for the last of them, with the consent of 3 in block 40. *)
Example C101_case_consent : let s := demo effects_demo in
  exists d', nfts (s_nft (after s (replicate 38 NextBlock ++ [Extrinsic (Signed 3) (C_add_consent 4)]))) !! 4 = Some d' /\ unengaged d'.
Proof. cbv zeta. eexists. split; [vm_compute; reflexivity|]. vm_compute. do 5 (split; [reflexivity|]). reflexivity. Qed.
End examples.

Print Assumptions C100_free_after_changing_hands.
Print Assumptions C101_every_engagement_can_end.
