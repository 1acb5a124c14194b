(** Property theorems: when each call succeeds.  The tables are in SpecRules.v. *)
From Verif Require Import SpecRules RuleNft RuleMkt RuleAuc RuleRent RuleTrans RuleTee RuleAdmin Demo.
Local Open Scope N_scope.

Section props.
Context {C : Config}.

(** C82: pallet nft. *)
Theorem C82_nft_calls s w c :
  0 < ed -> reachable s -> fees_collector <> Some w -> wf_call c = true -> is_nft_call c ->
  (exists s', dispatch (Signed w) c s = (Ok tt, s')) <-> nft_rule s w c.
Proof. exact (fact_nft_rule s w c). Qed.

(** C83: pallet marketplace. *)
Theorem C83_marketplace_calls s w c :
  0 < ed -> reachable s -> wf_call c = true -> is_mkt_call c ->
  (exists s', dispatch (Signed w) c s = (Ok tt, s')) <-> mkt_rule s w c.
Proof. exact (fact_mkt_rule s w c). Qed.

(** C84: pallet auction. *)
Theorem C84_auction_calls s w c :
  config_ok -> reachable s -> w ∉ pots -> wf_call c = true -> is_auc_call c ->
  (exists s', dispatch (Signed w) c s = (Ok tt, s')) <-> auc_rule s w c.
Proof. exact (fact_auc_rule s w c). Qed.

(** C85: pallet rent. *)
Theorem C85_rent_calls s w c :
  config_ok -> reachable s -> w ∉ pots -> wf_call c = true -> is_rent_call c ->
  (exists s', dispatch (Signed w) c s = (Ok tt, s')) <-> rent_rule s w c.
Proof. exact (fact_rent_rule s w c). Qed.

(** C86: pallet transmission-protocols. *)
Theorem C86_transmission_calls s w c :
  0 < ed -> reachable s -> wf_call c = true -> is_trans_call c ->
  (exists s', dispatch (Signed w) c s = (Ok tt, s')) <-> trans_rule s w c.
Proof. exact (fact_trans_rule s w c). Qed.

(** C87: pallet tee, the calls of operators and metrics servers. *)
Theorem C87_tee_calls s w c :
  config_ok -> reachable s -> w ∉ pots -> wf_call c = true -> is_tee_call c ->
  (exists s', dispatch (Signed w) c s = (Ok tt, s')) <-> tee_rule s w c.
Proof. exact (fact_tee_rule s w c). Qed.

(** C88: pallet bridge, the calls of relayers and depositors. *)
Theorem C88_bridge_calls s w c :
  0 < ed -> reachable s -> fees_collector <> Some w -> wf_call c = true -> is_bridge_call c ->
  (exists s', dispatch (Signed w) c s = (Ok tt, s')) <-> bridge_rule s w c.
Proof. exact (fact_bridge_rule s w c). Qed.

(** C89: the calls of root and of the external origin. *)
Theorem C89_root_calls s o c :
  reachable s -> wf_call c = true -> root_call c ->
  (exists s', dispatch o c s = (Ok tt, s')) <-> o = Root /\ root_rule s c.
Proof. exact (fact_root_rule s o c). Qed.
Theorem C89_external_calls s o c :
  wf_call c = true -> external_call c ->
  (exists s', dispatch o c s = (Ok tt, s')) <-> external_ok o = true /\ external_rule s c.
Proof. exact (fact_external_rule s o c). Qed.

Lemma runs_ok o c s : fst (dispatch o c s) = Ok tt -> exists s', dispatch o c s = (Ok tt, s').
Proof. destruct (dispatch o c s) as [r s']. cbn. intros ->. eauto. Qed.
Lemma runs_not o c s : fst (dispatch o c s) <> Ok tt -> ~ exists s', dispatch o c s = (Ok tt, s').
Proof. intros H [s' E]. rewrite E in H. done. Qed.
End props.

(** Both sides of every table occur in reachable states. *)
Section examples.
Local Existing Instance demo1.
Let by_ (w : N) (c : call) : action := Extrinsic (Signed w) c.
Let root (c : call) : action := Extrinsic Root c.
Let ext (c : call) : action := Extrinsic (OtherOrigin 1) c.
Local Ltac good thm := apply thm; [first [exact demo1_ok|done|by apply demo_reachable|by apply memN_not_elem]..|apply runs_ok; vm_compute; reflexivity].
Local Ltac bad thm := rewrite <- thm; [apply runs_not; vm_compute; discriminate|first [exact demo1_ok|done|by apply demo_reachable|by apply memN_not_elem]..].

Definition rules_demo : list action :=
  [by_ 5 (C_create_marketplace Public); by_ 5 (C_set_marketplace_configuration 0 (SetTo (Percentage 50000)) (SetTo (Flat 7)) Noop Noop Noop);
   by_ 1 (C_create_collection [] (Some 2)); by_ 1 (C_create_nft [] 100000 (Some 0) false); by_ 1 (C_create_nft [] 0 None true);
   by_ 1 (C_create_nft [] 0 None false); by_ 1 (C_create_nft [] 0 None false); by_ 1 (C_create_nft [] 0 None false);
   by_ 1 (C_list_nft 0 0 500); by_ 1 (C_create_auction 2 0 2 20 50 (Some 400));
   by_ 1 (C_create_contract 3 (FixedIn 10) (AutoAcceptance (Some [2])) true (RentTokens 100) (FixedTokens 50) (FlexibleTokens 200));
   by_ 1 (C_set_transmission_protocol 4 3 (OnConsentAtBlock [2; 3; 4] 2 40) Anytime);
   NextBlock; by_ 2 (C_add_bid 2 100); by_ 2 (C_add_consent 4)].
(** NFT 0 is listed, 1 is a soulbound NFT of its creator, and collection 0 has one place left. *)
Example C82_case : nft_rule (demo rules_demo) 1 (C_create_nft [] 0 (Some 0) false) /\ nft_rule (demo rules_demo) 1 (C_burn_nft 1) /\
  ~ nft_rule (demo rules_demo) 1 (C_transfer_nft 0 2) /\ ~ nft_rule (demo rules_demo) 2 (C_burn_nft 1).
Proof. split; [good @C82_nft_calls|]. split; [good @C82_nft_calls|]. split; [bad @C82_nft_calls|bad @C82_nft_calls]. Qed.
Example C83_case : mkt_rule (demo rules_demo) 2 (C_buy_nft 0 500) /\ ~ mkt_rule (demo rules_demo) 2 (C_buy_nft 0 501) /\
  mkt_rule (demo rules_demo) 1 (C_unlist_nft 0) /\ ~ mkt_rule (demo rules_demo) 1 (C_list_nft 2 0 10).
Proof. split; [good @C83_marketplace_calls|]. split; [bad @C83_marketplace_calls|]. split; [good @C83_marketplace_calls|bad @C83_marketplace_calls]. Qed.
Example C84_case : auc_rule (demo rules_demo) 3 (C_add_bid 2 101) /\ ~ auc_rule (demo rules_demo) 3 (C_add_bid 2 100) /\
  auc_rule (demo rules_demo) 2 (C_remove_bid 2) /\ ~ auc_rule (demo rules_demo) 1 (C_cancel_auction 2).
Proof. split; [good @C84_auction_calls|]. split; [bad @C84_auction_calls|]. split; [good @C84_auction_calls|bad @C84_auction_calls]. Qed.
(** Only 2 may rent NFT 3. *)
Example C85_case : rent_rule (demo rules_demo) 2 (C_rent 3 1) /\ ~ rent_rule (demo rules_demo) 3 (C_rent 3 1) /\
  rent_rule (demo rules_demo) 1 (C_cancel_contract 3) /\ ~ rent_rule (demo rules_demo) 1 (C_revoke_contract 3).
Proof. split; [good @C85_rent_calls|]. split; [bad @C85_rent_calls|]. split; [good @C85_rent_calls|bad @C85_rent_calls]. Qed.
Example C86_case : trans_rule (demo rules_demo) 3 (C_add_consent 4) /\ ~ trans_rule (demo rules_demo) 2 (C_add_consent 4) /\
  trans_rule (demo rules_demo) 1 (C_remove_transmission_protocol 4) /\ ~ trans_rule (demo rules_demo) 1 (C_reset_timer 4 30) /\
  trans_rule (demo rules_demo) 1 (C_set_transmission_protocol 1 2 (AtBlock 20) Anytime) /\
  ~ trans_rule (demo rules_demo) 1 (C_set_transmission_protocol 1 2 (OnConsent [2; 3] 0) Anytime).
Proof.
  split; [good @C86_transmission_calls|]. split; [bad @C86_transmission_calls|]. split; [good @C86_transmission_calls|].
  split; [bad @C86_transmission_calls|]. split; [good @C86_transmission_calls|bad @C86_transmission_calls].
Qed.

(** 1 and 2 run enclaves, 3 waits; 1 asked to leave; 5 is a metrics server. *)
Definition rules_tee : list action :=
  [root (C_create_cluster ClPublic); root (C_create_cluster ClPrivate);
   by_ 1 (C_register_enclave 11 [1]); by_ 2 (C_register_enclave 12 [1]); by_ 3 (C_register_enclave 13 [1]);
   root (C_assign_enclave 1 0 7); root (C_assign_enclave 2 0 8); root (C_register_metrics_server 5 ClPublic);
   Env (EnvEra 25); by_ 1 (C_claim_rewards 22); by_ 1 C_unregister_enclave; root (C_set_staking_amount 30)].
Example C87_case : tee_rule (demo rules_tee) 2 (C_claim_rewards 22) /\ ~ tee_rule (demo rules_tee) 1 (C_claim_rewards 22) /\
  ~ tee_rule (demo rules_tee) 1 C_withdraw_unbonded /\ tee_rule (demo (rules_tee ++ replicate 10 NextBlock)) 1 C_withdraw_unbonded /\
  tee_rule (demo rules_tee) 3 C_unregister_enclave /\ tee_rule (demo rules_tee) 2 C_bond_extra /\ ~ tee_rule (demo rules_tee) 2 C_refund_excess /\
  ~ tee_rule (demo rules_tee) 4 (C_register_enclave 11 [1]).
Proof.
  split; [good @C87_tee_calls|]. split; [bad @C87_tee_calls|]. split; [bad @C87_tee_calls|]. split; [good @C87_tee_calls|].
  split; [good @C87_tee_calls|]. split; [good @C87_tee_calls|]. split; [bad @C87_tee_calls|bad @C87_tee_calls].
Qed.

Definition rules_bridge : list action := [ext (C_add_chain 5); ext (C_set_relayers [1; 2; 3]); by_ 1 (C_vote_for_proposal 5 4 7 100)].
Example C88_case : bridge_rule (demo rules_bridge) 2 (C_vote_for_proposal 5 4 7 100) /\ ~ bridge_rule (demo rules_bridge) 1 (C_vote_for_proposal 5 4 7 100) /\
  bridge_rule (demo rules_bridge) 4 (C_deposit 9999 [9] 5) /\ ~ bridge_rule (demo rules_bridge) 4 (C_deposit 10000 [9] 5).
Proof. split; [good @C88_bridge_calls|]. split; [bad @C88_bridge_calls|]. split; [good @C88_bridge_calls|bad @C88_bridge_calls]. Qed.

Example C89_case : root_rule (demo rules_tee) (C_approve_enclave_unregistration 1) /\ ~ root_rule (demo rules_tee) (C_approve_enclave_unregistration 2) /\
  root_rule (demo rules_tee) (C_remove_cluster 1) /\ ~ root_rule (demo rules_tee) (C_remove_cluster 0) /\
  external_rule (demo rules_bridge) (C_set_deposit_nonce 5 1) /\ ~ external_rule (demo rules_bridge) (C_set_deposit_nonce 5 0).
Proof.
  assert (R : reachable (demo rules_tee)) by (by apply demo_reachable).
  split. { apply (C89_root_calls (demo rules_tee) Root); [done..|]. apply runs_ok. vm_compute. reflexivity. }
  split. { intros H. eapply (runs_not Root (C_approve_enclave_unregistration 2) (demo rules_tee)); [vm_compute; discriminate|]. apply C89_root_calls; [exact R|reflexivity|exact I|exact (conj eq_refl H)]. }
  split. { apply (C89_root_calls (demo rules_tee) Root); [done..|]. apply runs_ok. vm_compute. reflexivity. }
  split. { intros H. eapply (runs_not Root (C_remove_cluster 0) (demo rules_tee)); [vm_compute; discriminate|]. apply C89_root_calls; [exact R|reflexivity|exact I|exact (conj eq_refl H)]. }
  split. { apply (C89_external_calls (demo rules_bridge) (OtherOrigin 1)); [done..|]. apply runs_ok. vm_compute. reflexivity. }
  intros H. eapply (runs_not (OtherOrigin 1) (C_set_deposit_nonce 5 0) (demo rules_bridge)); [vm_compute; discriminate|]. apply C89_external_calls; [reflexivity|exact I|exact (conj eq_refl H)].
Qed.
End examples.

Print Assumptions C82_nft_calls.
Print Assumptions C83_marketplace_calls.
Print Assumptions C84_auction_calls.
Print Assumptions C85_rent_calls.
Print Assumptions C86_transmission_calls.
Print Assumptions C87_tee_calls.
Print Assumptions C88_bridge_calls.
Print Assumptions C89_root_calls.
Print Assumptions C89_external_calls.
