(** Property theorems: what is due gets its turn. *)
From Verif Require Import SpecWait RentWait AucWait DemoSlow.
Local Open Scope N_scope.

Section props.
Context {C : Config}.

(** C78: an NFT with [l1] before it in the transmission queue, due in the next block or
    overdue, is transmitted after at most as many blocks as it takes to handle those before
    it, whatever other calls are made meanwhile, unless its owner calls the transmission
    off. *)
Theorem C78_waits_its_turn s acts i t b l1 l2 :
  config_ok -> reachable s -> Forall action_ok acts -> under s i t ->
  t_queue (s_trans s) = l1 ++ (i, b) :: l2 -> b <= s_now s + 1 ->
  nlen l1 < blocks acts * N.max 1 trans_actions ->
  transmitted_or_called_off s acts i t.
Proof.
  intros HC Hs Hok Hu Hq. apply (fact_waits_its_turn acts s i t b (nlen l1) HC Hs Hok Hu). exists l1, l2. done.
Qed.
(** An NFT that goes to somebody in block [b] does so at most as many blocks later as it takes to
    handle a full queue. *)
Theorem C78_transmitted_in_time s acts i t b k :
  config_ok -> reachable s -> Forall action_ok acts -> under s i t -> timed (t_protocol t) b ->
  trans_limit <= k * N.max 1 trans_actions -> b - (s_now s + 1) + k <= blocks acts ->
  transmitted_or_called_off s acts i t.
Proof. exact (fact_transmitted_in_time acts s i t b k). Qed.

(** C79: an overdue entry of one of the three lists of the rent schedule leaves it after at most one
    more block than there are entries before it, whatever other calls are made meanwhile. *)
Theorem C79_waits_its_turn s acts f i b l1 l2 :
  config_ok -> reachable s -> Forall action_ok acts -> f ∈ rent_lists ->
  f (queues (s_rent s)) = l1 ++ (i, b) :: l2 -> b <= s_now s -> nlen l1 < blocks acts ->
  exists p a q, acts = p ++ a :: q /\ leaves_schedule f (after s p) a i b.
Proof.
  intros HC Hs Hok Hf Hq. apply (fact_rent_waits_its_turn acts s f i b (nlen l1) HC Hs Hok Hf). exists l1, l2. done.
Qed.
(** Every entry leaves at most [rent_limit] blocks after its block. *)
Theorem C79_handled_in_time s acts f i b :
  config_ok -> reachable s -> Forall action_ok acts -> f ∈ rent_lists ->
  (i, b) ∈ f (queues (s_rent s)) -> b - s_now s + rent_limit <= blocks acts ->
  exists p a q, acts = p ++ a :: q /\ leaves_schedule f (after s p) a i b.
Proof. exact (fact_rent_handled_in_time acts s f i b). Qed.

(** C80: an auction with [l1] before it in the list of deadlines, due in the next block or overdue, ends
    after at most as many blocks as it takes to handle those before it, unless a bid on it
    moves its end back.  (With a larger existential deposit C23_refuted applies.) *)
Theorem C80_waits_its_turn s acts i b l1 l2 :
  config_ok -> ed <= 1 -> reachable s -> Forall action_ok acts ->
  deadlines (s_auc s) = l1 ++ (i, b) :: l2 -> b <= s_now s + 1 ->
  nlen l1 < blocks acts * N.max 1 auction_actions ->
  exists p a q, acts = p ++ a :: q /\ ends_or_moves (after s p) a i b.
Proof.
  intros HC He Hs Hok Hq. apply (fact_auction_waits_its_turn acts s i b (nlen l1) HC He Hs Hok). exists l1, l2. done.
Qed.
(** Every auction ends at most as many blocks after its end block as it takes to handle a full list. *)
Theorem C80_ends_in_time s acts i x k :
  config_ok -> ed <= 1 -> reachable s -> Forall action_ok acts -> auctions (s_auc s) !! i = Some x ->
  parallel_auctions <= k * N.max 1 auction_actions -> a_end x - (s_now s + 1) + k <= blocks acts ->
  exists p a q, acts = p ++ a :: q /\ ends_or_moves (after s p) a i (a_end x).
Proof. exact (fact_auction_ends_in_time acts s i x k). Qed.

(** C81: no bid is accepted in or after the block in which the auction ends.  Missing: states in
    which more auctions are due than one block settles; there it is false (C81_refuted). *)
Theorem C81_partial s l acts who i amt x s' :
  config_ok -> ed <= 1 -> reachable s ->
  (forall j y, auctions (s_auc s) !! j = Some y -> a_end y <= s_now s + 1 -> j ∈ l) -> nlen l <= N.max 1 auction_actions ->
  blocks acts = 0 -> let t := after (next_block s) acts in
  dispatch (Signed who) (C_add_bid i amt) t = (Ok tt, s') -> auctions (s_auc t) !! i = Some x -> s_now t < a_end x.
Proof. exact (fact_no_late_bid s l acts who i amt x s'). Qed.
End props.

(** * Concrete cases *)
(** One action per block.  Three NFTs are to be transmitted in block 2, three contracts
    of ten blocks start together, three auctions end in block 15. *)
Local Existing Instance slow.
Local Notation by_ w c := (Extrinsic (Signed w) c).
Definition trans_wait : list action :=
  replicate 3 (by_ 1 (C_create_nft [] 0 None false)) ++
  [by_ 1 (C_set_transmission_protocol 0 2 (AtBlock 2) CancelNone);
   by_ 1 (C_set_transmission_protocol 1 3 (AtBlock 2) CancelNone);
   by_ 1 (C_set_transmission_protocol 2 4 (AtBlockWithReset 2) Anytime)].
Example C78_case :
  let s := run_slow trans_wait in
  reachable s /\ under s 2 (mkTrans 4 (AtBlockWithReset 2) Anytime) /\ t_queue (s_trans s) = [(0, 2); (1, 2)] ++ (2, 2) :: [] /\ 2 <= s_now s + 1 /\
  nlen [(0, 2); (1, 2)] < blocks (replicate 3 NextBlock) * N.max 1 trans_actions /\
  trans_limit <= 10 * N.max 1 trans_actions /\ 2 - (s_now s + 1) + 10 <= blocks (replicate 10 NextBlock) /\
  owner_of (after s (replicate 2 NextBlock)) 2 = Some 1 /\ owner_of (after s (replicate 3 NextBlock)) 2 = Some 4 /\
  called_off (after s [NextBlock]) (by_ 1 (C_remove_transmission_protocol 2)) 2 (mkTrans 4 (AtBlockWithReset 2) Anytime).
Proof.
  cbv zeta. split; [by apply run_slow_reachable|]. split; [vm_compute; reflexivity|].
  split; [vm_compute; reflexivity|]. split; [vm_compute; discriminate|]. split; [vm_compute; reflexivity|].
  split; [vm_compute; discriminate|]. split; [vm_compute; discriminate|]. split; [vm_compute; reflexivity|]. split; [vm_compute; reflexivity|].
  exists 1. split; [vm_compute; reflexivity|]. left. split; [done|]. split; [exact I|].
  split; [vm_compute; reflexivity|]. vm_compute. eauto.
Qed.
Definition rent_wait : list action :=
  replicate 3 (by_ 1 (C_create_nft [] 0 None false)) ++
  [by_ 1 (C_create_contract 0 (FixedIn 10) (AutoAcceptance None) true (RentTokens 10) NoFee NoFee);
   by_ 1 (C_create_contract 1 (FixedIn 10) (AutoAcceptance None) true (RentTokens 10) NoFee NoFee);
   by_ 1 (C_create_contract 2 (FixedIn 10) (AutoAcceptance None) true (RentTokens 10) NoFee (FixedTokens 7));
   by_ 2 (C_rent 0 1); by_ 2 (C_rent 1 1); by_ 2 (C_rent 2 1)] ++ replicate 10 NextBlock.
Example C79_case :
  let s := run_slow rent_wait in
  reachable s /\ q_fixed (queues (s_rent s)) = [(1, 11)] ++ (2, 11) :: [] /\ 11 <= s_now s /\ q_fixed ∈ rent_lists /\
  nlen [(1, 11)] < blocks (replicate 2 NextBlock) /\ 11 - s_now s + rent_limit <= blocks (replicate 10 NextBlock) /\
  is_Some (contracts (s_rent (after s [NextBlock])) !! 2) /\ contracts (s_rent (after s [NextBlock; NextBlock])) !! 2 = None.
Proof.
  cbv zeta. split; [by apply run_slow_reachable|]. split; [vm_compute; reflexivity|].
  split; [vm_compute; discriminate|]. split; [left|]. split; [vm_compute; reflexivity|]. split; [vm_compute; discriminate|].
  split; [vm_compute; eauto|]. vm_compute. reflexivity.
Qed.
Definition auction_wait : list action :=
  [by_ 5 (C_create_marketplace Public)] ++ replicate 3 (by_ 1 (C_create_nft [] 0 None false)) ++
  [by_ 1 (C_create_auction 0 0 2 15 50 None); by_ 1 (C_create_auction 1 0 2 15 50 None); by_ 1 (C_create_auction 2 0 2 15 50 None)] ++
  replicate 13 NextBlock.
Example C80_case :
  let s := run_slow auction_wait in
  reachable s /\ ed <= 1 /\ deadlines (s_auc s) = [(0, 15); (1, 15)] ++ (2, 15) :: [] /\ 15 <= s_now s + 1 /\
  nlen [(0, 15); (1, 15)] < blocks (replicate 3 NextBlock) * N.max 1 auction_actions /\
  parallel_auctions <= 10 * N.max 1 auction_actions /\ 15 - (s_now s + 1) + 10 <= blocks (replicate 10 NextBlock) /\
  is_Some (auctions (s_auc (after s [NextBlock; NextBlock])) !! 2) /\ auctions (s_auc (after s (replicate 3 NextBlock))) !! 2 = None /\
  ends_or_moves (after s [NextBlock; NextBlock]) (by_ 2 (C_add_bid 2 60)) 2 15.
Proof.
  cbv zeta. split; [by apply run_slow_reachable|]. split; [done|]. split; [vm_compute; reflexivity|].
  split; [vm_compute; discriminate|]. split; [vm_compute; reflexivity|]. split; [vm_compute; discriminate|]. split; [vm_compute; discriminate|].
  split; [vm_compute; eauto|]. split; [vm_compute; reflexivity|].
  eexists. split; [vm_compute; reflexivity|]. split; [done|]. right. eexists 2, 60, _. split; [done|]. split; [vm_compute; reflexivity|]. done.
Qed.

(** Three auctions end in block 15 and one is settled per block.  In block 16 the third
    still takes a bid, which makes it end in block 20. *)
Theorem C81_refuted : exists (C : Config) s x y s', config_ok /\ ed <= 1 /\ reachable s /\
  auctions (s_auc s) !! 2 = Some x /\ a_end x < s_now s /\
  dispatch (Signed 2) (C_add_bid 2 60) s = (Ok tt, s') /\ auctions (s_auc s') !! 2 = Some y /\ s_now s < a_end y.
Proof.
  eexists slow, (run_slow (auction_wait ++ [NextBlock; NextBlock])), _, _, _. split; [apply slow_ok|]. split; [done|].
  split; [by apply run_slow_reachable|]. split; [vm_compute; reflexivity|]. split; [vm_compute; reflexivity|].
  split; [vm_compute; reflexivity|]. split; vm_compute; reflexivity.
Qed.
Example C81_case :
  let s := run_slow [by_ 5 (C_create_marketplace Public); by_ 1 (C_create_nft [] 0 None false); by_ 1 (C_create_auction 0 0 2 15 50 None)] in
  reachable s /\ auctions (s_auc s) = {[ 0 := mkAuction 1 2 15 50 None [] 0 false ]} /\
  (forall j y, auctions (s_auc s) !! j = Some y -> a_end y <= s_now s + 1 -> j ∈ [0]) /\ nlen [0] <= N.max 1 auction_actions /\
  exists s', dispatch (Signed 2) (C_add_bid 0 60) (after (next_block s) []) = (Ok tt, s').
Proof.
  cbv zeta. split; [by apply run_slow_reachable|].
  match goal with |- ?A /\ _ => assert (E : A) by (apply map_to_list_inj; vm_compute; reflexivity) end.
  split; [exact E|]. split; [|split; [done|eexists; vm_compute; reflexivity]].
  rewrite E. intros j y [<- _]%lookup_singleton_Some _. left.
Qed.

Print Assumptions C78_waits_its_turn.
Print Assumptions C78_transmitted_in_time.
Print Assumptions C79_waits_its_turn.
Print Assumptions C79_handled_in_time.
Print Assumptions C80_waits_its_turn.
Print Assumptions C80_ends_in_time.
Print Assumptions C81_partial.
Print Assumptions C81_refuted.
