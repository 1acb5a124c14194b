(** How an account can come to rent from itself. *)
From Verif Require Export RentFacts2.
Local Open Scope N_scope.

Section facts.
Context {C : Config}.

Lemma fact_self_rent s a i c' : config_ok -> reachable s -> action_ok a ->
  contracts (s_rent (step s a)) !! i = Some c' -> r_rentee c' = Some (r_renter c') ->
  (forall c, contracts (s_rent s) !! i = Some c -> r_rentee c <> Some (r_renter c)) ->
  a = Extrinsic (Signed (r_renter c')) (C_accept_rent_offer i (r_renter c')) /\ offered s i (r_renter c').
Proof.
  intros HC Hs Ha Hc' Hself Hbefore. destruct (contracts (s_rent s) !! i) as [c|] eqn:Hc.
  2: { destruct (fact_contract_new s a i c' HC Hs Ha Hc Hc') as (w&di&acc&cr&fee&f1&f2&_&_&->). discriminate Hself. }
  specialize (Hbefore c eq_refl).
  destruct (fact_contract_step s a i c c' HC Hs Ha Hc Hc') as [->|[(t&Hn&->&H)|[(fee&p&md&ch&x&_&_&_&->)|(t&fee&p&md&ch&x&_&Ht&_&_&_&_&_&_&->)]]];
    cbn in Hself |- *; try done.
  injection Hself as ->. destruct H as [->|[-> Hin]].
  - exfalso. cbn [step] in Hc'. destruct (dispatch_cases (Signed (r_renter c)) (C_rent i (r_creation c)) s) as [(s'&_&He&Hd)|[e Hd]]; rewrite Hd in Hc'; cbn [snd] in Hc'.
    + cbn [exec_call signed] in He. apply rent_ok in He as (x&b1&b2&Hx&_&_&Hne&_). congruence.
    + rewrite Hc in Hc'. injection Hc' as E. apply (f_equal r_rentee) in E. cbn in E. congruence.
  - split; [done|]. unfold offered. destruct (offers (s_rent s) !! i) as [l|]; [by exists l|]. by apply elem_of_nil in Hin.
Qed.
End facts.
