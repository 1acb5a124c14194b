(** Property theorems: what the start of a block touches.  The relation is in SpecBlock.v. *)
From Verif Require Import SpecBlock BlockFacts Demo.
Local Open Scope N_scope.

Section props.
Context {C : Config}.

(** C99: a new block touches only auctions, transmissions and contracts that are due, the NFTs
    and accounts involved in them, and the records of the expired era. *)
Theorem C99_block_touches_only_due s : touches_only_due s (step s NextBlock).
Proof. exact (block_only_due s). Qed.
(** When nothing is due, the block number is all that changes. *)
Theorem C99_quiet_block s : nothing_due s -> step s NextBlock = s <| s_now ::= fun n => n + 1 |>.
Proof. exact (quiet_block s). Qed.
End props.

(** One block settles an auction, and leaves alone a sale, a contract and a transmission. *)
Section examples.
Local Existing Instance demo1.
Let by_ (w : N) (c : call) : action := Extrinsic (Signed w) c.

Definition block_demo : list action :=
  [Env (EnvEra 25); by_ 5 (C_create_marketplace Public); by_ 1 (C_create_nft [] 0 None false); by_ 1 (C_create_nft [] 0 None false);
   by_ 1 (C_create_nft [] 0 None false); by_ 1 (C_create_nft [] 0 None false);
   by_ 1 (C_list_nft 0 0 500); by_ 1 (C_create_auction 1 0 2 20 50 None);
   by_ 1 (C_create_contract 2 (FixedIn 10) (AutoAcceptance None) true (RentTokens 100) (FixedTokens 50) (FlexibleTokens 200));
   by_ 1 (C_set_transmission_protocol 3 4 (AtBlock 40) Anytime); NextBlock; by_ 2 (C_add_bid 1 100); by_ 3 (C_add_bid 1 150)] ++ replicate 17 NextBlock.
Lemma block_reachable : reachable (demo block_demo).
Proof. by apply demo_reachable. Qed.
(** Reading off the schedules what is due at block [n + 1]. *)
Lemma only_auction s n : deadlines (s_auc s) = [(1, 20)] -> t_queue (s_trans s) = [(3, 40)] ->
  queues (s_rent s) = mkQueues [] [] [(2, 21)] -> s_now s = n -> n < 20 ->
  (forall i, due_auction s i <-> n = 19 /\ i = 1) /\ (forall i, ~ due_transmission s i) /\ (forall i, ~ due_contract s i).
Proof.
  intros HD HQ HR HN Hlt. split_and!.
  - intros i. unfold due_auction. rewrite HD, HN. split.
    + intros (b&Hb&Hle). apply elem_of_list_singleton in Hb. injection Hb as -> ->. lia.
    + intros [-> ->]. exists 20. split; [by apply elem_of_list_singleton|lia].
  - intros i (b&Hb&Hle). rewrite HQ in Hb. rewrite HN in Hle. apply elem_of_list_singleton in Hb. injection Hb as -> ->. lia.
  - intros i (b&Hb&Hle). unfold scheduled in Hb. rewrite HR in Hb. cbn [q_fixed q_sub q_avail] in Hb. rewrite HN in Hle.
    rewrite !elem_of_cons, !elem_of_nil in Hb. destruct Hb as [[]|[[]|[E|[]]]]. injection E as -> ->. lia.
Qed.
Lemma no_other s n i : (forall i, due_auction s i <-> n = 19 /\ i = 1) /\ (forall i, ~ due_transmission s i) /\ (forall i, ~ due_contract s i) ->
  i <> 1 -> ~ due_nft s i.
Proof.
  intros (HO&HT&HC) Hi [H|[H|[H|(k&c&H&_)]]]; [|exact (HT _ H)|exact (HC _ H)|exact (HC _ H)].
  apply HO in H as [_ H]. exact (Hi H).
Qed.
Lemma block_due : (forall i, due_auction (demo block_demo) i <-> 19 = 19 /\ i = 1) /\
  (forall i, ~ due_transmission (demo block_demo) i) /\ (forall i, ~ due_contract (demo block_demo) i).
Proof. apply only_auction; [vm_compute; reflexivity..|lia]. Qed.
Example C99_case : let s := demo block_demo in let s' := step s NextBlock in
  deadlines (s_auc s) = [(1, 20)] /\ s_now s' = 20 /\ due_nft s 1 /\ due_bidder s 2 /\ due_party s 1 /\ ~ due_party s 4 /\
  ~ due_nft s 0 /\ ~ due_nft s 2 /\ ~ due_nft s 3 /\
  (owner <$> nfts (s_nft s) !! 1) = Some 1 /\ (owner <$> nfts (s_nft s') !! 1) = Some 3 /\ claims (s_auc s') !! 2 = Some 100 /\
  nfts (s_nft s') !! 2 = nfts (s_nft s) !! 2 /\ q_avail (queues (s_rent s')) = [(2, 21)] /\ t_queue (s_trans s') = [(3, 40)].
Proof.
  cbv zeta. assert (HA : due_auction (demo block_demo) 1) by (apply (proj1 block_due); split; reflexivity).
  split; [vm_compute; reflexivity|]. split; [vm_compute; reflexivity|]. split; [left; exact HA|].
  split. { eexists 1, _, 100. split; [exact HA|]. split; [vm_compute; reflexivity|]. apply elem_of_list_lookup. exists 0%nat. vm_compute. reflexivity. }
  split. { left. eexists 1, _, _, _. split; [exact HA|]. split; [vm_compute; reflexivity|]. split; [vm_compute; discriminate|]. split; [vm_compute; reflexivity|].
    split; [vm_compute; reflexivity|]. right; left. vm_compute. reflexivity. }
  split. { intros [(i&a&d&m&Hi&Ha&_&Hd&Hm&Hw)|(i&c&Hi&_)]; [|exact (proj2 (proj2 block_due) _ Hi)]. apply (proj1 block_due) in Hi as [_ ->]. clear HA.
    vm_compute in Ha. injection Ha as <-. vm_compute in Hd. injection Hd as <-. vm_compute in Hm. injection Hm as <-.
    vm_compute in Hw. destruct Hw as [?|[?|[?|?]]]; discriminate. }
  do 3 (split; [apply (no_other _ 19 _ block_due); discriminate|]).
  do 5 (split; [vm_compute; reflexivity|]). vm_compute; reflexivity.
Qed.
(** The block before is quiet. *)
Lemma quiet_due : nothing_due (demo (take 29 block_demo)).
Proof.
  destruct (only_auction (demo (take 29 block_demo)) 18) as (H1&H2&H3); [vm_compute; reflexivity..|lia|].
  split; [|split; [exact H2|split; [exact H3|split]]].
  - intros i Hi. apply H1 in Hi as [Hi _]. discriminate Hi.
  - vm_compute. discriminate.
  - clear. intros e w _. assert (E1 : claimed (s_tee (demo (take 29 block_demo))) = ∅) by (vm_compute; reflexivity).
    assert (E2 : reports (s_tee (demo (take 29 block_demo))) = ∅) by (vm_compute; reflexivity). rewrite E1, E2, !lookup_empty. split; reflexivity.
Qed.
Example C99_case_quiet : let s := demo (take 29 block_demo) in s_now s = 18 /\ nothing_due s /\
  step s NextBlock = s <| s_now ::= fun n => n + 1 |> /\ auctions (s_auc s) !! 1 <> None.
Proof.
  cbv zeta. split; [vm_compute; reflexivity|]. split; [exact quiet_due|]. split; [exact (C99_quiet_block _ quiet_due)|]. vm_compute. discriminate.
Qed.
End examples.

Print Assumptions C99_block_touches_only_due.
Print Assumptions C99_quiet_block.
