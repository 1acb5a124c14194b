(** Property theorems: transmission protocols. *)
From Verif Require Import SpecTrans SpecRent TransFacts3 Demo.
Local Open Scope N_scope.

Section props.
Context {C : Config}.

(** C46: a step that moves an NFT under a consent protocol, or ends its transmission in any other
    way than the owner's cancellation, gives it to the recorded recipient, not before the
    block of the protocol; since the transmission was set, as many different listed accounts
    as the threshold asks for have signed a successful consent. *)
Theorem C46_transmitted_only_with_threshold s0 acts a i t l k :
  config_ok -> genesis s0 -> Forall action_ok (acts ++ [a]) ->
  let s := after s0 acts in
  under s i t -> asks (t_protocol t) l k ->
  owner_of (step s a) i <> owner_of s i \/
    (transs (s_trans (step s a)) !! i = None /\ forall w, a <> Extrinsic (Signed w) (C_remove_transmission_protocol i)) ->
  given_to (step s a) i (t_recipient t) /\ (forall b, block_of (t_protocol t) = Some b -> b <= s_now (step s a)) /\
  exists acts1 acts2 ws, acts = acts1 ++ acts2 /\ since s0 acts1 acts2 i t /\
    NoDup ws /\ k <= nlen ws /\ forall w, w ∈ ws -> w ∈ l /\ consented s0 acts1 (acts2 ++ [a]) i w.
Proof. exact (fact_consent_needed s0 acts a i t l k). Qed.
(** Consents on record belong to distinct listed accounts and are too few to transmit. *)
Theorem C46_recorded_consents s i ws :
  reachable s -> consents (s_trans s) !! i = Some ws ->
  exists t l k, under s i t /\ asks (t_protocol t) l k /\ NoDup ws /\ (forall w, w ∈ ws -> w ∈ l) /\ nlen ws < k /\ forall b, ~ waits s i b.
Proof. exact (fact_recorded s i ws). Qed.

(** C47: before its block nothing moves the NFT; at its block it is given to the recipient.  The
    third theorem gives the order when more NFTs are due than one block handles. *)
Theorem C47_never_early s a i t b :
  config_ok -> reachable s -> action_ok a -> under s i t -> block_of (t_protocol t) = Some b ->
  s_now (step s a) < b ->
  owner_of (step s a) i = owner_of s i /\
  (under (step s a) i t \/
   exists w, owner_of s i = Some w /\
     ((a = Extrinsic (Signed w) (C_remove_transmission_protocol i) /\ may_cancel (t_cancellation t) (s_now s)) \/
      (exists b', a = Extrinsic (Signed w) (C_reset_timer i b') /\ t_protocol t = AtBlockWithReset b /\
         under (step s a) i (t <| t_protocol := AtBlockWithReset b' |>)))).
Proof. exact (fact_not_early s a i t b). Qed.
Theorem C47_on_time s l i t b :
  config_ok -> reachable s -> all_waiting_fit s l -> under s i t -> waits s i b -> b <= s_now s + 1 ->
  given_to (next_block s) i (t_recipient t).
Proof. exact (fact_on_time s l i t b). Qed.
Theorem C47_timed_waits s i t b :
  reachable s -> under s i t -> timed (t_protocol t) b -> waits s i b.
Proof. exact (fact_timed_waits s i t b). Qed.
Theorem C47_first_come_first_served s i t b l1 l2 :
  config_ok -> reachable s -> under s i t -> t_queue (s_trans s) = l1 ++ (i, b) :: l2 ->
  b <= s_now s + 1 -> nlen l1 < N.max 1 trans_actions -> given_to (next_block s) i (t_recipient t).
Proof. exact (fact_fifo s i t b l1 l2). Qed.

(** C48: the queue. *)
Theorem C48_sorted_unique_bounded s :
  reachable s ->
  StronglySorted (fun x y => snd x <= snd y) (t_queue (s_trans s)) /\ NoDup (map fst (t_queue (s_trans s))) /\ nlen (t_queue (s_trans s)) <= trans_limit.
Proof. exact (fact_queue_shape s). Qed.
Theorem C48_queue_exact s0 acts i b :
  config_ok -> genesis s0 -> Forall action_ok acts ->
  let s := after s0 acts in
  waits s i b <-> exists t, under s i t /\ (timed (t_protocol t) b \/
    exists l k acts1 acts2 ws, t_protocol t = OnConsentAtBlock l k b /\ acts = acts1 ++ acts2 /\ since s0 acts1 acts2 i t /\
      NoDup ws /\ k <= nlen ws /\ forall w, w ∈ ws -> w ∈ l /\ consented s0 acts1 acts2 i w).
Proof. exact (fact_queue_exact s0 acts i b). Qed.

(** C49: when cancelling and resetting succeed, and what they do. *)
Theorem C49_remove_exactly s w i :
  reachable s ->
  (exists s', dispatch (Signed w) (C_remove_transmission_protocol i) s = (Ok tt, s')) <->
  owner_of s i = Some w /\ exists t, under s i t /\ may_cancel (t_cancellation t) (s_now s).
Proof. exact (fact_remove_iff s w i). Qed.
Theorem C49_remove_effect s w i s' :
  config_ok -> reachable s -> dispatch (Signed w) (C_remove_transmission_protocol i) s = (Ok tt, s') ->
  given_to s' i w /\ (forall b, ~ waits s' i b) /\ consents (s_trans s') !! i = None /\
  (forall j, j <> i -> transs (s_trans s') !! j = transs (s_trans s) !! j /\ consents (s_trans s') !! j = consents (s_trans s) !! j /\
     nfts (s_nft s') !! j = nfts (s_nft s) !! j /\ forall b, waits s' j b <-> waits s j b) /\ s_bal s' = s_bal s.
Proof. exact (fact_remove_effect s w i s'). Qed.
Theorem C49_reset_exactly s w i b :
  reachable s ->
  (exists s', dispatch (Signed w) (C_reset_timer i b) s = (Ok tt, s')) <->
  owner_of s i = Some w /\ (exists t b0, under s i t /\ t_protocol t = AtBlockWithReset b0) /\
  s_now s < b /\ N.min (b - s_now s) u32_max <= max_block_duration.
Proof. exact (fact_reset_iff s w i b). Qed.
Theorem C49_reset_effect s w i b s' :
  config_ok -> reachable s -> dispatch (Signed w) (C_reset_timer i b) s = (Ok tt, s') ->
  exists t, under s i t /\ under s' i (t <| t_protocol := AtBlockWithReset b |>) /\ waits s' i b /\ s_bal s' = s_bal s /\ s_nft s' = s_nft s /\
  consents (s_trans s') = consents (s_trans s) /\
  forall j, j <> i -> transs (s_trans s') !! j = transs (s_trans s) !! j /\ forall x, waits s' j x <-> waits s j x.
Proof. exact (fact_reset_effect s w i b s'). Qed.

(** C50: [t] and [t'] are the states before and after the transmission part of the next block.
    It returns without error; it takes the first entries of the queue until nothing is due or
    the limit is reached; each of them is transmitted, and the events say so. *)
Theorem C50_hook_never_fails s t t' :
  config_ok -> reachable s -> turn HookTrans s t t' ->
  fst (run_hook HookTrans t) = Ok tt /\
  exists l, t_queue (s_trans s) = l ++ t_queue (s_trans (next_block s)) /\
    (forall i b, (i, b) ∈ l -> b <= s_now s + 1 /\ exists u, under s i u /\ given_to t' i (t_recipient u) /\ given_to (next_block s) i (t_recipient u)) /\
    (nlen l = N.max 1 trans_actions \/ forall i b, waits (next_block s) i b -> s_now s + 1 < b) /\
    s_events t' = map Ev_Transmitted (rev (map fst l)) ++ s_events t.
Proof. exact (fact_hook_turn s t t'). Qed.
End props.

(** ** The hypotheses are met *)
Local Notation by_ w c := (Extrinsic (Signed w) c).
Section examples.
Local Existing Instance demo1.

(** Account 1 sets four protocols.  NFT 0 goes to 2 at block 3, NFT 1 to 3 at block 4 if two
    of 2, 3, 4 consent, NFT 2 to 4 when both 2 and 3 consent, NFT 3 to 5 at block 6, where
    the block can be reset and the protocol cancelled until block 2. *)
Definition trans_demo : list action :=
  replicate 4 (by_ 1 (C_create_nft [] 0 None false)) ++
  [by_ 1 (C_set_transmission_protocol 0 2 (AtBlock 3) CancelNone);
   by_ 1 (C_set_transmission_protocol 1 3 (OnConsentAtBlock [2; 3; 4] 2 4) Anytime);
   by_ 1 (C_set_transmission_protocol 2 4 (OnConsent [2; 3] 2) CancelNone);
   by_ 1 (C_set_transmission_protocol 3 5 (AtBlockWithReset 6) (UntilBlock 2))].
Definition trans_demo2 : list action :=
  trans_demo ++ [by_ 2 (C_add_consent 1); by_ 2 (C_add_consent 2); NextBlock; by_ 4 (C_add_consent 1)].

Example trans_demo_reachable : reachable (demo trans_demo2).
Proof. by apply demo_reachable. Qed.
Example trans_demo_queue : t_queue (s_trans (demo trans_demo2)) = [(0, 3); (1, 4); (3, 6)] /\ s_now (demo trans_demo2) = 2.
Proof. vm_compute. done. Qed.
Example trans_demo_consents : consents (s_trans (demo trans_demo2)) !! 2 = Some [2] /\ consents (s_trans (demo trans_demo2)) !! 1 = None.
Proof. vm_compute. done. Qed.
(** NFT 2 is transmitted by the second consent, NFT 0 and then NFT 1 by the blocks. *)
Example trans_demo_consent : genesis demo_init /\ Forall action_ok (trans_demo2 ++ [by_ 3 (C_add_consent 2)]) /\
  under (demo trans_demo2) 2 (mkTrans 4 (OnConsent [2; 3] 2) CancelNone) /\ asks (OnConsent [2; 3] 2) [2; 3] 2 /\
  owner_of (demo trans_demo2) 2 = Some 1 /\ owner_of (step (demo trans_demo2) (by_ 3 (C_add_consent 2))) 2 = Some 4.
Proof.
  split; [apply demo_init_genesis|]. split; [by apply actions_ok|]. split; [vm_compute; reflexivity|]. split; [by left|].
  vm_compute. done.
Qed.
Example trans_demo_block : under (demo trans_demo2) 0 (mkTrans 2 (AtBlock 3) CancelNone) /\ waits (demo trans_demo2) 0 3 /\
  all_waiting_fit (demo trans_demo2) [0] /\ owner_of (next_block (demo trans_demo2)) 0 = Some 2 /\
  owner_of (next_block (demo trans_demo2)) 1 = Some 1 /\ owner_of (next_block (next_block (demo trans_demo2))) 1 = Some 3.
Proof.
  split; [vm_compute; reflexivity|]. destruct trans_demo_queue as [Eq En]. unfold waits, all_waiting_fit, waits. rewrite Eq, En.
  split; [left|]. split; [|split; [|split]; vm_compute; reflexivity]. split; [|vm_compute; discriminate].
  clear.   intros i b Hi Hb. apply elem_of_cons in Hi as [[= -> ->]|Hi]; [left|].
  apply elem_of_cons in Hi as [[= -> ->]|Hi]; [vm_compute in Hb; by destruct Hb|].
  apply elem_of_cons in Hi as [[= -> ->]|Hi]; [vm_compute in Hb; by destruct Hb|]. by apply elem_of_nil in Hi.
Qed.
(** The owner may still cancel NFT 3 in block 2, and no longer in block 3. *)
Example trans_demo_cancel :
  fst (dispatch (Signed 1) (C_remove_transmission_protocol 3) (demo trans_demo2)) = Ok tt /\
  fst (dispatch (Signed 1) (C_remove_transmission_protocol 3) (next_block (demo trans_demo2))) <> Ok tt /\
  fst (dispatch (Signed 1) (C_reset_timer 3 9) (next_block (demo trans_demo2))) = Ok tt.
Proof. vm_compute. done. Qed.
Example trans_demo_turn : exists t t', turn HookTrans (demo trans_demo2) t t'.
Proof. apply turn_exists, demo1_ok. Qed.
End examples.

Print Assumptions C46_transmitted_only_with_threshold.
Print Assumptions C46_recorded_consents.
Print Assumptions C47_never_early.
Print Assumptions C47_on_time.
Print Assumptions C47_timed_waits.
Print Assumptions C47_first_come_first_served.
Print Assumptions C48_sorted_unique_bounded.
Print Assumptions C48_queue_exact.
Print Assumptions C49_remove_exactly.
Print Assumptions C49_remove_effect.
Print Assumptions C49_reset_exactly.
Print Assumptions C49_reset_effect.
Print Assumptions C50_hook_never_fails.
