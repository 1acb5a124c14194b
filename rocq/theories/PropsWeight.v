(** Property theorems: the weight of the start-of-block work.  What they say is in
    SpecWeight.v. *)
From Verif Require Import SpecWeight WeightFacts WeightBound Demo.
Local Open Scope N_scope.

Section props.
Context {C : Config}.

(** C111: the reads and writes a hook declares are the sum of fixed prices over what it
    announces (by C110, over what it does), and have a bound that depends on the configuration
    only. *)
Theorem C111_declared_weight h s t t' : config_ok -> reachable s -> turn h s t t' ->
  exists l r w, s_events t' = l ++ s_events t /\ declares h t r w /\ snd (hook_weight h t) = t' /\
    r = first_reads h t + sum_of (map (reads_for t) l) /\
    w = sum_of (map (writes_for t) l) + queue_write h l /\
    r <= most_reads h /\ w <= most_writes h.
Proof. exact (fact_weight h s t t'). Qed.

(** C112, transmissions: at most as many storage entries change as there are declared writes. *)
Theorem C112_transmissions s t t' r w : config_ok -> reachable s -> turn HookTrans s t t' -> declares HookTrans t r w ->
  at_most (fun _ => True) t t' w.
Proof. exact (fact_trans_writes s t t' r w). Qed.

(** C112, auctions: false for all entries, see [C112_auctions_refuted].  Proved: for the NFTs and
    the auctions.  Missing: the deadlines, the refunds, the accounts. *)
Theorem C112_auctions_partial s t t' r w : config_ok -> reachable s -> turn HookAuction s t t' -> declares HookAuction t r w ->
  at_most (fun k => exists i, k = E_nft i \/ k = E_auction i) t t' w.
Proof. exact (fact_auction_writes s t t' r w). Qed.

(** C112, rent: false for all entries, see [C112_rent_refuted].  Proved: for the contracts,
    their NFTs and the queues.  Missing: the deposited NFTs, the accounts. *)
Theorem C112_rent_partial s t t' r w : config_ok -> reachable s -> turn HookRent s t t' -> declares HookRent t r w ->
  at_most (fun k => k = E_rent_queues \/ exists i, k = E_contract i \/ k = E_nft i /\ is_Some (contracts (s_rent t) !! i)) t t' w.
Proof. exact (fact_rent_writes s t t' r w). Qed.

(** C113: the work at the start of a block is bounded: a hook changes at most as many storage
    entries as [most_changes] says, a number that depends on the configuration only, except for
    the tee hook, which removes the records of one era. *)
Theorem C113_bounded_work h s t t' : config_ok -> reachable s -> turn h s t t' -> at_most (fun _ => True) t t' (most_changes h t).
Proof. exact (fact_bound h s t t'). Qed.
End props.

Lemma entries3 : NoDup [E_nft 0; E_auction 0; E_deadlines].
Proof. repeat (apply NoDup_cons; split; [set_solver|]). apply NoDup_nil_2. Qed.
Lemma entries6 : NoDup [E_contract 0; E_nft 0; E_rent_queues; E_account 1; E_account 2; E_account 101].
Proof. repeat (apply NoDup_cons; split; [set_solver|]). apply NoDup_nil_2. Qed.

Section examples.
Local Existing Instance demo1.
Let by_ (w : N) (c : call) : action := Extrinsic (Signed w) c.
Let root (c : call) : action := Extrinsic Root c.

(** The hooks before [h], and the state they leave. *)
Let before (h : hook) : list hook :=
  match h with HookAuction => [] | HookRent => [HookAuction] | HookTrans => [HookAuction; HookRent] | HookTee => [HookAuction; HookRent; HookTrans] end.
Let at_ (h : hook) (s : state) : state :=
  fold_left (fun s h => snd (run_hook h s)) (before h) (s <| s_now ::= fun n => n + 1 |>).
Lemma at_turn h s : turn h s (at_ h s) (snd (run_hook h (at_ h s))).
Proof. destruct h; [exists [], [HookRent; HookTrans; HookTee]|exists [HookAuction], [HookTrans; HookTee]|exists [HookAuction; HookRent], [HookTee]|exists [HookAuction; HookRent; HookTrans], []]; done. Qed.

(** Two auctions (one with two bids), a fixed contract, a subscription, an offer nobody took and
    a transmission are due. *)
Definition weight_demo : list action :=
  [by_ 5 (C_create_marketplace Public); by_ 5 (C_set_marketplace_configuration 0 (SetTo (Percentage 100000)) Noop Noop Noop Noop)] ++
  replicate 7 (by_ 1 (C_create_nft [] 100000 None false)) ++
  [by_ 1 (C_create_auction 1 0 1 21 50 None); by_ 1 (C_create_auction 2 0 1 21 50 None);
   by_ 1 (C_create_contract 3 (FixedIn 10) (AutoAcceptance None) true (RentTokens 100) NoFee NoFee);
   by_ 1 (C_create_contract 4 (FixedIn 20) (AutoAcceptance None) true (RentTokens 100) NoFee NoFee);
   by_ 1 (C_create_contract 5 (SubscriptionIn 10 (Some 50) true) (AutoAcceptance None) true (RentTokens 10) NoFee NoFee);
   by_ 1 (C_set_transmission_protocol 6 4 (AtBlock 21) Anytime);
   by_ 2 (C_rent 4 1); by_ 2 (C_add_bid 1 100); by_ 3 (C_add_bid 1 200)] ++
  replicate 10 NextBlock ++ [by_ 2 (C_rent 5 1)] ++ replicate 9 NextBlock.
Example C111_C112_case : let s := demo weight_demo in
  config_ok /\ reachable s /\ (forall h, exists t t', turn h s t t') /\
  declares HookAuction (at_ HookAuction s) 8 4 /\ declares HookRent (at_ HookRent s) 10 12 /\
  declares HookTrans (at_ HookTrans s) 4 3 /\ declares HookTee (at_ HookTee s) 1 0.
Proof.
  cbv zeta. split; [exact demo1_ok|]. split; [by apply demo_reachable|].
  split; [intros h; eexists _, _; apply at_turn|]. split_and!; vm_compute; reflexivity.
Qed.

(** C113: in the same blocks as above; for the tee hook the one record of era 19. *)
Example C113_case : let s := demo weight_demo in
  config_ok /\ reachable s /\ (forall h, exists t t', turn h s t t') /\ map (fun h => most_changes h s) hook_order = [82; 74; 21; 0].
Proof.
  cbv zeta. split; [exact demo1_ok|]. split; [by apply demo_reachable|].
  split; [intros h; eexists _, _; apply at_turn|]. vm_compute; reflexivity.
Qed.

(** C112, auctions: one auction without bids ends; two writes are declared, and the NFT, the
    auction and the deadlines change. *)
Definition unsold_demo : list action :=
  [by_ 5 (C_create_marketplace Public); by_ 1 (C_create_nft [] 0 None false); by_ 1 (C_create_auction 0 0 1 21 50 None)] ++ replicate 19 NextBlock.
Theorem C112_auctions_refuted : exists (C : Config) s t t' r w, config_ok /\ reachable s /\
  turn HookAuction s t t' /\ declares HookAuction t r w /\ ~ at_most (fun _ => True) t t' w.
Proof.
  exists demo1, (demo unsold_demo), (at_ HookAuction (demo unsold_demo)), (snd (run_hook HookAuction (at_ HookAuction (demo unsold_demo)))), 4, 2.
  split; [exact demo1_ok|]. split; [by apply demo_reachable|]. split; [apply at_turn|]. split; [vm_compute; reflexivity|].
  intros H. specialize (H [E_nft 0; E_auction 0; E_deadlines]). apply (N.lt_irrefl 2), (N.lt_le_trans _ 3); [done|]. apply H.
  - exact entries3.
  - intros k Hk. split; [exact I|]. revert k Hk. apply Forall_forall. repeat (apply Forall_cons; split; [vm_compute; discriminate|]). apply Forall_nil_2.
Qed.

(** C112, rent: a fixed contract with token deposits on both sides ends; five writes are
    declared, and the contract, its NFT, the queues and three accounts change. *)
Definition deposits_demo : list action :=
  [by_ 1 (C_create_nft [] 0 None false);
   by_ 1 (C_create_contract 0 (FixedIn 10) (AutoAcceptance None) true (RentTokens 100) (FixedTokens 30) (FixedTokens 40)); by_ 2 (C_rent 0 1)] ++ replicate 9 NextBlock.
Theorem C112_rent_refuted : exists (C : Config) s t t' r w, config_ok /\ reachable s /\
  turn HookRent s t t' /\ declares HookRent t r w /\ ~ at_most (fun _ => True) t t' w.
Proof.
  exists demo1, (demo deposits_demo), (at_ HookRent (demo deposits_demo)), (snd (run_hook HookRent (at_ HookRent (demo deposits_demo)))), 4, 5.
  split; [exact demo1_ok|]. split; [by apply demo_reachable|]. split; [apply at_turn|]. split; [vm_compute; reflexivity|].
  intros H. specialize (H [E_contract 0; E_nft 0; E_rent_queues; E_account 1; E_account 2; E_account 101]). apply (N.lt_irrefl 5), (N.lt_le_trans _ 6); [done|]. apply H.
  - exact entries6.
  - intros k Hk. split; [exact I|]. revert k Hk. apply Forall_forall. repeat (apply Forall_cons; split; [vm_compute; discriminate|]). apply Forall_nil_2.
Qed.

(** C112, tee: the report of an old era is removed; no write is declared. *)
Definition old_report_demo : list action :=
  [root (C_create_cluster ClPublic); by_ 1 (C_register_enclave 11 [1]); root (C_assign_enclave 1 0 7);
   root (C_register_metrics_server 5 ClPublic); by_ 5 (C_submit_metrics_server_report 1 (mkReport 1 1 1 1 1 5)); Env (EnvEra 29)].
Example C113_tee_case : let s := demo old_report_demo in
  reachable s /\ (exists t t', turn HookTee s t t') /\ old_records (at_ HookTee s) = 1.
Proof. cbv zeta. split; [by apply demo_reachable|]. split; [eexists _, _; apply at_turn|]. vm_compute; reflexivity. Qed.
Theorem C112_tee_refuted : exists (C : Config) s t t' r w, config_ok /\ reachable s /\
  turn HookTee s t t' /\ declares HookTee t r w /\ ~ at_most (fun _ => True) t t' w.
Proof.
  exists demo1, (demo old_report_demo), (at_ HookTee (demo old_report_demo)), (snd (run_hook HookTee (at_ HookTee (demo old_report_demo)))), 1, 0.
  split; [exact demo1_ok|]. split; [by apply demo_reachable|]. split; [apply at_turn|]. split; [vm_compute; reflexivity|].
  intros H. specialize (H [E_report 19 1]). apply (N.lt_irrefl 0), (N.lt_le_trans _ 1); [done|]. apply H.
  - apply NoDup_singleton.
  - intros k Hk. split; [exact I|]. revert k Hk. apply Forall_forall. apply Forall_cons; split; [vm_compute; discriminate|]. apply Forall_nil_2.
Qed.
End examples.

Print Assumptions C111_declared_weight.
Print Assumptions C112_transmissions.
Print Assumptions C112_auctions_partial.
Print Assumptions C112_rent_partial.
Print Assumptions C113_bounded_work.
Print Assumptions C112_auctions_refuted.
Print Assumptions C112_rent_refuted.
Print Assumptions C112_tee_refuted.
