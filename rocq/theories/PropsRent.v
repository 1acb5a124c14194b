(** Property theorems: rent contracts. *)
From Verif Require Import SpecRent RentFacts5 RentSelf Demo Demo5.
Local Open Scope N_scope.

Section props.
Context {C : Config}.

(** C31: the rent pot covers all token deposits. *)
Theorem C31_pot_covers_deposits s :
  config_ok -> reachable s -> held_deposits s <= free (s_bal s) rent_pot.
Proof. exact (fact_rent_pot s). Qed.

(** C32: NFT deposits are in custody and secure one deposit each.  [secures c j] says that NFT
    [j] is a deposit held for contract [c]. *)
Theorem C32_deposit_in_custody s i c j :
  reachable s -> contracts (s_rent s) !! i = Some c -> secures c j ->
  (j = i /\ r_renter_cf c = FeeNFT i /\ exists d, nfts (s_nft s) !! i = Some d /\ owner d = r_renter c /\ is_rented (nstate d) = true) \/
  (owner_of s j = Some rent_pot).
Proof. exact (fact_rent_custody s i c j). Qed.
Theorem C32_one_contract_per_deposit s i c j i' c' :
  reachable s -> contracts (s_rent s) !! i = Some c -> secures c j ->
  contracts (s_rent s) !! i' = Some c' -> secures c' j -> i' = i.
Proof. exact (fact_rent_one_deposit s i c j i' c'). Qed.
Theorem C32_renter_and_rentee_deposit_differ s i c j :
  reachable s -> contracts (s_rent s) !! i = Some c -> r_rentee c <> None ->
  r_renter_cf c = FeeNFT j -> r_rentee_cf c <> FeeNFT j.
Proof. exact (fact_rent_two_deposits s i c j). Qed.

(** C33: [t] and [t'] are the states before and after the rent part of the next block
    initialisation, [l] the contracts it handles.  Every handled contract is due; it is either
    renewed or it ends and everything is returned ([rent_effects]); all due contracts are
    handled if they fit in one block.  The second theorem is the same seen from outside for a
    contract that must end, the third says nothing else ends a contract at a block start. *)
Theorem C33_block_start_exact s t t' :
  config_ok -> reachable s -> turn HookRent s t t' ->
  s_now t = s_now s + 1 /\ s_rent t = s_rent s /\ s_rent (next_block s) = s_rent t' /\
  exists l, rent_effects t l t' /\
    (forall i, i ∈ l -> exists b, scheduled s i b /\ b <= s_now s + 1) /\
    (forall i c, i ∈ l -> contracts (s_rent t') !! i = Some c ->
       r_rentee c <> None /\ ~ terms_open (r_duration c) /\ ~ over c (s_now s + 1) /\
       (exists x, r_duration c = Subscription x) /\ (i, s_now s + 1 + period_of (r_duration c)) ∈ q_sub (queues (s_rent t'))) /\
    (forall i b, i ∉ l -> scheduled t' i b <-> scheduled s i b) /\
    nlen l <= N.max 1 rent_actions + 2 /\
    forall l', all_due_fit s l' -> forall i b, scheduled s i b -> b <= s_now s + 1 -> i ∈ l.
Proof. exact (fact_rent_turn s t t'). Qed.
Theorem C33_due_contract_ends s l i c b :
  config_ok -> reachable s -> all_due_fit s l -> contracts (s_rent s) !! i = Some c ->
  scheduled s i b -> b <= s_now s + 1 ->
  (forall x, r_duration c = Subscription x -> r_rentee c = None \/ new_terms x = true \/ over c (s_now s + 1)) ->
  contracts (s_rent (next_block s)) !! i = None /\ owner_of (next_block s) i = owner_of s i /\
  exists d, nfts (s_nft (next_block s)) !! i = Some d /\ is_rented (nstate d) = false.
Proof. exact (fact_rent_due_ends s l i c b). Qed.
Theorem C33_only_due_contracts_end s i c :
  config_ok -> reachable s -> contracts (s_rent s) !! i = Some c ->
  contracts (s_rent (next_block s)) !! i <> Some c -> contracts (s_rent (next_block s)) !! i = None /\ exists b, scheduled s i b /\ b <= s_now s + 1.
Proof. exact (fact_rent_ends_due s i c). Qed.

(** C34: the effect of a revocation.  The token amounts leave the pot exactly when no dust can
    arise; every other account is always exact. *)
Theorem C34_revoke_exact s who i s' :
  config_ok -> reachable s -> dispatch (Signed who) (C_revoke_contract i) s = (Ok tt, s') ->
  exists c other own theirs share, contracts (s_rent s) !! i = Some c /\ revokes c who other own theirs /\
    kept_share c (s_now s) own share /\ share <= token_deposit own /\
    (forall a, a <> rent_pot \/ ed <= 1 -> free (s_bal s') a + at_acc rent_pot a (deposits_of c) =
       free (s_bal s) a + at_acc who a share + at_acc other a (token_deposit own - share + token_deposit theirs)) /\
    contracts (s_rent s') = delete i (contracts (s_rent s)) /\ (forall b, ~ scheduled s' i b) /\
    (forall j d, nfts (s_nft s) !! j = Some d -> exists o, nfts (s_nft s') !! j = Some (freed i j o d) /\
       (secures c j -> o = other) /\ (~ secures c j -> o = owner d)).
Proof. exact (fact_revoke s who i s'). Qed.

(** C35, full claim: [C35_full_at_the_end_partial] without the bound on the duration; see
    [C35_refuted].  The first theorem says that the code computes [completed] (as parts per
    million), which is at most 100. *)
Theorem C35_percentage_is_completed c now pc st :
  percentage_of_completion c now = Some pc -> r_start c = Some st -> st <= now ->
  exists p, completed c now p /\ pc = p * 10000 /\ p <= 100.
Proof. exact (fact_completion c now pc st). Qed.
Theorem C35_zero_at_start c st p :
  r_start c = Some st -> completed c st p -> p = 0.
Proof. exact (fact_completed_start c st p). Qed.
Theorem C35_never_decreases c n1 n2 p1 p2 :
  n1 <= n2 -> completed c n1 p1 -> completed c n2 p2 -> p1 <= p2.
Proof. exact (fact_completed_mono c n1 n2 p1 p2). Qed.
Theorem C35_full_at_the_end_partial c st now p :
  r_start c = Some st -> 0 < total_of (r_duration c) -> 100 * total_of (r_duration c) <= 4294967295 ->
  now <= 4294967295 -> st + total_of (r_duration c) <= now -> completed c now p -> p = 100.
Proof. exact (fact_completed_end c st now p). Qed.
Theorem C35_share_within_deposit c now f x :
  kept_share c now f x -> x <= token_deposit f.
Proof. exact (fact_kept_le c now f x). Qed.

(** C36: the three queues. *)
Theorem C36_queues_sorted_disjoint_bounded s :
  config_ok -> reachable s ->
  let q := queues (s_rent s) in
  StronglySorted (fun x y => snd x <= snd y) (q_fixed q) /\ StronglySorted (fun x y => snd x <= snd y) (q_sub q) /\
  StronglySorted (fun x y => snd x <= snd y) (q_avail q) /\
  NoDup (map fst (q_fixed q ++ q_sub q ++ q_avail q)) /\
  nlen (q_fixed q) + nlen (q_sub q) + nlen (q_avail q) <= rent_limit.
Proof. exact (fact_rent_sorted s). Qed.
Theorem C36_every_contract_scheduled s i c :
  config_ok -> reachable s -> contracts (s_rent s) !! i = Some c ->
  match r_start c, r_duration c with
  | None, _ => (i, r_creation c + availability_limit) ∈ q_avail (queues (s_rent s)) /\ r_rentee c = None
  | Some st, Fixed n => (i, st + n) ∈ q_fixed (queues (s_rent s)) /\ r_rentee c <> None
  | Some st, Subscription _ => (exists b, (i, b) ∈ q_sub (queues (s_rent s)) /\ b <= s_now s + duration_limit) /\ r_rentee c <> None
  end.
Proof. exact (fact_rent_scheduled s i c). Qed.
Theorem C36_every_entry_has_a_contract s i b :
  config_ok -> reachable s -> scheduled s i b -> exists c, contracts (s_rent s) !! i = Some c.
Proof. exact (fact_rent_entry s i b). Qed.
Theorem C36_start_never_lacks_capacity s o i x e s' :
  config_ok -> reachable s -> (exists cb, x = C_rent i cb) \/ (exists t, x = C_accept_rent_offer i t) ->
  dispatch o x s = (Err e, s') -> e <> Rent_err R_MaxSimultaneousContractReached.
Proof. exact (fact_capacity s o i x e s'). Qed.

(** C37: what starting a contract costs, and the rentee of a running contract. *)
Theorem C37_rent_exact s who i cb s' :
  dispatch (Signed who) (C_rent i cb) s = (Ok tt, s') ->
  exists c, contracts (s_rent s) !! i = Some c /\ r_rentee c = None /\ r_renter c <> who /\ r_creation c = cb /\
    contracts (s_rent s') = <[i := c <| r_rentee := Some who |> <| r_start := Some (s_now s) |>]> (contracts (s_rent s)) /\
    forall k, pays2 s s' who (r_renter c) (token_fee (r_rent_fee c)) rent_pot (token_deposit (r_rentee_cf c)) k.
Proof. exact (fact_rent_charges s who i cb s'). Qed.
Theorem C37_accept_offer_exact s who i t s' :
  reachable s -> dispatch (Signed who) (C_accept_rent_offer i t) s = (Ok tt, s') ->
  exists c, contracts (s_rent s) !! i = Some c /\ r_rentee c = None /\ r_renter c = who /\ offered s i t /\
    contracts (s_rent s') = <[i := c <| r_rentee := Some t |> <| r_start := Some (s_now s) |>]> (contracts (s_rent s)) /\
    forall k, pays2 s s' t (r_renter c) (token_fee (r_rent_fee c)) rent_pot (token_deposit (r_rentee_cf c)) k.
Proof. exact (fact_accept_charges s who i t s'). Qed.
Theorem C37_rentee_never_replaced s a i c c' t :
  config_ok -> reachable s -> action_ok a -> contracts (s_rent s) !! i = Some c -> r_rentee c = Some t ->
  contracts (s_rent (step s a)) !! i = Some c' -> r_rentee c' = Some t /\ r_start c' = r_start c.
Proof. exact (fact_rentee_stays s a i c c' t). Qed.

(** C38, full claim: an offer standing at [s] was made for the contract that is there at [s].
    Proved: an offer is made by its maker for the contract there at that time, and while both
    stand only the end of the contract at a block start can separate them (it leaves the
    offers behind).  See [C38_refuted]. *)
Theorem C38_offer_made_by_its_maker s a i t :
  reachable s -> action_ok a -> offered (step s a) i t -> ~ offered s i t ->
  exists c, a = Extrinsic (Signed t) (C_make_rent_offer i (r_creation c)) /\ contracts (s_rent s) !! i = Some c /\
    r_renter c <> t /\ r_rentee c = None.
Proof. exact (fact_offer_made s a i t). Qed.
Theorem C38_offer_keeps_its_contract_partial s a i t c :
  config_ok -> reachable s -> action_ok a -> offered s i t -> offered (step s a) i t ->
  contracts (s_rent s) !! i = Some c ->
  contracts (s_rent (step s a)) !! i = Some c \/ a = NextBlock /\ contracts (s_rent (step s a)) !! i = None.
Proof. exact (fact_offer_binds s a i t c). Qed.

(** C39, full claim: the same without the two hypotheses that the contract is not changeable
    and was not created in the current block.  See [C39_refuted] and
    [C39_same_block_refuted]. *)
Theorem C39_terms_stay_partial s s' i c c' :
  config_ok -> reachable s -> later s s' -> contracts (s_rent s) !! i = Some c ->
  r_creation c < s_now s -> ~ changeable (r_duration c) ->
  contracts (s_rent s') !! i = Some c' -> r_creation c' = r_creation c -> same_terms c c'.
Proof. exact (fact_terms_stay s s' i c c'). Qed.

(** How a contract of one creation block changes at all. *)
Theorem C39_contract_life_cycle s a i c c' :
  config_ok -> reachable s -> action_ok a ->
  contracts (s_rent s) !! i = Some c -> contracts (s_rent (step s a)) !! i = Some c' -> contract_step s a i c c'.
Proof. exact (fact_contract_step s a i c c'). Qed.
Theorem C39_contract_created_by_owner s a i c :
  config_ok -> reachable s -> action_ok a ->
  contracts (s_rent s) !! i = None -> contracts (s_rent (step s a)) !! i = Some c ->
  exists who di acc cr fee cf1 cf2, a = Extrinsic (Signed who) (C_create_contract i di acc cr fee cf1 cf2) /\
    owner_of s i = Some who /\ c = mkContract None who None (to_duration di) acc cr fee cf1 cf2 (s_now s).
Proof. exact (fact_contract_new s a i c). Qed.

(** C40 is false: see [C40_refuted].  What holds is that only a change of terms opens them. *)
Theorem C40_only_the_renter_changes_terms_partial s a i c c' :
  config_ok -> reachable s -> action_ok a -> contracts (s_rent s) !! i = Some c ->
  contracts (s_rent (step s a)) !! i = Some c' -> ~ same_terms c c' ->
  changeable (r_duration c) /\ (exists fee p md ch, a = Extrinsic (Signed (r_renter c)) (C_change_subscription_terms i fee p md ch) /\
    r_rent_fee c' = RentTokens fee /\ period_of (r_duration c') = p) /\ terms_open (r_duration c').
Proof. exact (fact_terms_changed_by s a i c c'). Qed.

(** C74, full claim: no contract has the same renter and rentee; see [C74_refuted].  What holds is that the only
    way to rent from oneself is to accept one's own left-over offer. *)
Theorem C74_only_by_own_old_offer_partial s a i c' :
  config_ok -> reachable s -> action_ok a ->
  contracts (s_rent (step s a)) !! i = Some c' -> r_rentee c' = Some (r_renter c') ->
  (forall c, contracts (s_rent s) !! i = Some c -> r_rentee c <> Some (r_renter c)) ->
  a = Extrinsic (Signed (r_renter c')) (C_accept_rent_offer i (r_renter c')) /\ offered s i (r_renter c').
Proof. exact (fact_self_rent s a i c'). Qed.

(** C41: open terms are closed only by the rentee naming them; a contract with open terms is
    not renewed at a block start and ends when its period is due
    ([C33_due_contract_ends]). *)
Theorem C41_only_the_rentee_accepts s a i c c' :
  config_ok -> reachable s -> action_ok a -> contracts (s_rent s) !! i = Some c -> terms_open (r_duration c) ->
  contracts (s_rent (step s a)) !! i = Some c' -> ~ terms_open (r_duration c') ->
  exists t fee p md ch x, a = Extrinsic (Signed t) (C_accept_subscription_terms i fee p md ch) /\ r_rentee c = Some t /\
    r_rent_fee c = RentTokens fee /\ r_duration c = Subscription x /\ period_length x = p /\ is_changeable x = ch /\
    (forall m, md = Some m -> max_duration x = m) /\ same_terms c c'.
Proof. exact (fact_terms_accepted s a i c c'). Qed.
Theorem C41_open_terms_not_renewed s t t' i c :
  config_ok -> reachable s -> turn HookRent s t t' -> contracts (s_rent s) !! i = Some c ->
  terms_open (r_duration c) \/ over c (s_now s + 1) \/ (forall x, r_duration c <> Subscription x) \/ r_rentee c = None ->
  exists l, rent_effects t l t' /\ s_rent (next_block s) = s_rent t' /\ (i ∈ l -> contracts (s_rent (next_block s)) !! i = None).
Proof. exact (fact_open_not_charged s t t' i c). Qed.

(** C42: renewals. *)
Theorem C42_renewed_exactly_one_period_later s l i c b :
  config_ok -> reachable s -> all_due_fit s l -> contracts (s_rent s) !! i = Some c ->
  scheduled s i b -> b <= s_now s + 1 -> contracts (s_rent (next_block s)) !! i = Some c ->
  ~ terms_open (r_duration c) /\ ~ over c (s_now s + 1) /\
  (i, s_now s + 1 + period_of (r_duration c)) ∈ q_sub (queues (s_rent (next_block s))) /\
  forall b', scheduled (next_block s) i b' -> b' = s_now s + 1 + period_of (r_duration c).
Proof. exact (fact_rent_renewed s l i c b). Qed.
Theorem C42_renewed_iff_affordable s t t' i b c u fee :
  config_ok -> reachable s -> turn HookRent s t t' ->
  contracts (s_rent s) !! i = Some c -> r_rentee c = Some u -> r_rent_fee c = RentTokens fee ->
  (exists x, r_duration c = Subscription x) -> ~ terms_open (r_duration c) -> ~ over c (s_now s + 1) ->
  (forall j b', scheduled s j b' -> b' <= s_now s + 1 -> j = i) -> scheduled s i b -> b <= s_now s + 1 ->
  (affordable t u (r_renter c) fee <-> contracts (s_rent (next_block s)) !! i = Some c) /\
  (~ affordable t u (r_renter c) fee -> contracts (s_rent (next_block s)) !! i = None).
Proof. exact (fact_renew_iff s t t' i b c u fee). Qed.

(** C43, full claim: [nlen l <= rent_actions] instead of the bound below, for a positive
    limit.  See [C43_refuted]. *)
Theorem C43_hook_bounded_partial s :
  config_ok -> reachable s -> exists l, nlen l <= N.max 1 rent_actions + 2 /\
  forall i, i ∉ l -> contracts (s_rent (next_block s)) !! i = contracts (s_rent s) !! i /\ forall b, scheduled (next_block s) i b <-> scheduled s i b.
Proof. exact (fact_rent_bounded s). Qed.

(** C44, full claim: without the last hypothesis.  See [C44_refuted]. *)
Theorem C44_party_can_leave_partial s who i c other own theirs :
  config_ok -> reachable s -> i <= u32_max -> contracts (s_rent s) !! i = Some c ->
  revokes c who other own theirs -> (forall x, own <> FlexibleTokens x) \/ ed <= 1 ->
  exists s', dispatch (Signed who) (C_revoke_contract i) s = (Ok tt, s').
Proof. exact (fact_leave s who i c other own theirs). Qed.

(** C45, full claim: the first clause without [r_rentee_cf c <> FeeNFT j].  See
    [C45_refuted]. *)
Theorem C45_rent_nft_arrives_partial s o i x s' :
  (exists cb, x = C_rent i cb) \/ (exists t, x = C_accept_rent_offer i t) -> dispatch o x s = (Ok tt, s') ->
  exists c c' t, contracts (s_rent s) !! i = Some c /\ contracts (s_rent s') !! i = Some c' /\ r_rentee c' = Some t /\ 
    (forall j, r_rent_fee c = RentNFT j -> owner_of s j = Some t /\ (r_rentee_cf c <> FeeNFT j -> owner_of s' j = Some (r_renter c))) /\
    (forall j, r_rentee_cf c = FeeNFT j -> owner_of s j = Some t /\ owner_of s' j = Some rent_pot) /\
    (forall j, r_rent_fee c <> RentNFT j -> r_rentee_cf c <> FeeNFT j -> nfts (s_nft s') !! j = nfts (s_nft s) !! j).
Proof. exact (fact_start_nfts s o i x s'). Qed.
End props.

Local Notation by_ w c := (Extrinsic (Signed w) c).

(** * Refutations *)

(** The full claim of C35 for the end of a contract: saturation at 2^32 - 1 makes a completed
    contract of 50,000,000 blocks count as 85% completed. *)
Theorem C35_refuted : exists c st now pc, r_start c = Some st /\ 0 < total_of (r_duration c) /\ total_of (r_duration c) <= u32_max /\
  now <= u32_max /\ st + total_of (r_duration c) <= now /\ percentage_of_completion c now = Some pc /\ pc = 850000.
Proof.
  exists (mkContract (Some 1) 1 (Some 2) (Fixed 50000000) (AutoAcceptance None) true (RentTokens 1) NoFee (FlexibleTokens 100) 1),
    1, 50000001, 850000.
  vm_compute. split_and!; done.
Qed.

Section refutations.
Local Existing Instance demo1.

(** Account 3 offers to rent NFT 0 for a fee of 10.  The contract expires; the owner makes a
    new one with a fee of 500 and accepts the old offer. *)
Definition offer_before : list action :=
  [by_ 1 (C_create_nft [] 0 None false);
   by_ 1 (C_create_contract 0 (FixedIn 10) (ManualAcceptance None) true (RentTokens 10) NoFee NoFee)].
Definition offer_between : list action :=
  replicate 20 NextBlock ++
  [by_ 1 (C_create_contract 0 (FixedIn 10) (ManualAcceptance None) true (RentTokens 500) NoFee NoFee)].
Theorem C38_refuted : exists (C : Config) s s1 l s3 c c2, config_ok /\ reachable s /\
  contracts (s_rent s) !! 0 = Some c /\ r_rent_fee c = RentTokens 10 /\
  dispatch (Signed 3) (C_make_rent_offer 0 (r_creation c)) s = (Ok tt, s1) /\
  Forall action_ok l /\ (forall x, by_ 3 x ∉ l) /\
  contracts (s_rent (fold_left step l s1)) !! 0 = Some c2 /\ r_rent_fee c2 = RentTokens 500 /\ r_creation c2 <> r_creation c /\
  dispatch (Signed 1) (C_accept_rent_offer 0 3) (fold_left step l s1) = (Ok tt, s3) /\
  free (s_bal s3) 3 + 500 = free (s_bal (fold_left step l s1)) 3.
Proof.
  eexists demo1, (demo offer_before), _, offer_between, _, _, _. split; [apply demo1_ok|]. split; [by apply demo_reachable|].
  split; [vm_compute; reflexivity|]. split; [reflexivity|]. split; [vm_compute; reflexivity|].
  split; [by apply actions_ok|]. split.
  { intros x Hx. unfold offer_between in Hx. apply elem_of_app in Hx as [Hx|Hx].
    - apply elem_of_replicate in Hx as [Hx _]. done.
    - apply elem_of_list_singleton in Hx. done. }
  split; [vm_compute; reflexivity|]. split; [reflexivity|]. split; [done|]. split; [vm_compute; reflexivity|]. vm_compute. reflexivity.
Qed.

(** The renter raises the fee of an unrented subscription from 10 to 500; the creation block,
    which is all that the rentee names, stays the same. *)
Definition sub_demo : list action :=
  [by_ 1 (C_create_nft [] 0 None false);
   by_ 1 (C_create_contract 0 (SubscriptionIn 5 (Some 50) true) (AutoAcceptance None) true (RentTokens 10) NoFee NoFee); NextBlock].
Theorem C39_refuted : exists (C : Config) s a c s2, config_ok /\ reachable s /\
  contracts (s_rent s) !! 0 = Some c /\ r_rent_fee c = RentTokens 10 /\ r_creation c < s_now s /\
  action_ok a /\ a = by_ (r_renter c) (C_change_subscription_terms 0 500 5 (Some 50) true) /\
  dispatch (Signed 2) (C_rent 0 (r_creation c)) (step s a) = (Ok tt, s2) /\
  free (s_bal s2) 2 + 500 = free (s_bal (step s a)) 2.
Proof.
  eexists demo1, (demo sub_demo), _, _, _. split; [apply demo1_ok|]. split; [by apply demo_reachable|].
  split; [vm_compute; reflexivity|]. split; [reflexivity|]. split; [done|].
  split; [|split; [reflexivity|]]; [cbv -[not pots elem_of]; by apply memN_not_elem|].
  split; vm_compute; reflexivity.
Qed.
(** A fixed contract cancelled and made again in the same block has the same creation block. *)
Theorem C39_same_block_refuted : exists (C : Config) s l c s2, config_ok /\ reachable s /\
  contracts (s_rent s) !! 0 = Some c /\ r_rent_fee c = RentTokens 10 /\ ~ changeable (r_duration c) /\
  Forall action_ok l /\ (forall x, by_ 2 x ∉ l) /\
  dispatch (Signed 2) (C_rent 0 (r_creation c)) (fold_left step l s) = (Ok tt, s2) /\
  free (s_bal s2) 2 + 500 = free (s_bal (fold_left step l s)) 2.
Proof.
  eexists demo1, (demo [by_ 1 (C_create_nft [] 0 None false);
      by_ 1 (C_create_contract 0 (FixedIn 10) (AutoAcceptance None) true (RentTokens 10) NoFee NoFee)]),
    [by_ 1 (C_cancel_contract 0);
     by_ 1 (C_create_contract 0 (FixedIn 10) (AutoAcceptance None) true (RentTokens 500) NoFee NoFee)], _, _.
  split; [apply demo1_ok|]. split; [by apply demo_reachable|].
  split; [vm_compute; reflexivity|]. split; [reflexivity|]. split; [by intros (x&?&_)|].
  split; [by apply actions_ok|]. split.
  { intros x Hx. apply elem_of_cons in Hx as [Hx|Hx]; [done|]. apply elem_of_list_singleton in Hx. done. }
  split; vm_compute; reflexivity.
Qed.

(** The terms of an unrented subscription are changed, then account 2 rents it.  They could
    pay, and most of the duration remains, but the contract ends after the first period since
    they did not accept the terms once more. *)
Definition unrented_change : list action :=
  sub_demo ++ [by_ 1 (C_change_subscription_terms 0 20 5 (Some 50) true)].
Theorem C40_refuted : exists (C : Config) s s1 c c1, config_ok /\ reachable s /\
  contracts (s_rent s) !! 0 = Some c /\ r_rentee c = None /\
  dispatch (Signed 2) (C_rent 0 (r_creation c)) s = (Ok tt, s1) /\
  contracts (s_rent s1) !! 0 = Some c1 /\ terms_open (r_duration c1) /\
  ~ over c1 (s_now s1 + 5) /\ affordable (fold_left step (replicate 5 NextBlock) s1) 2 (r_renter c1) 20 /\
  contracts (s_rent (fold_left step (replicate 4 NextBlock) s1)) !! 0 = Some c1 /\
  contracts (s_rent (fold_left step (replicate 5 NextBlock) s1)) !! 0 = None.
Proof.
  eexists demo1, (demo unrented_change), _, _, _. split; [apply demo1_ok|]. split; [by apply demo_reachable|].
  split; [vm_compute; reflexivity|]. split; [reflexivity|]. split; [vm_compute; reflexivity|].
  split; [vm_compute; reflexivity|]. split; [reflexivity|]. split.
  { intros (st&[= <-]&H). vm_compute in H. by apply H. }
  split; [right; right; vm_compute; split; done|]. split; vm_compute; reflexivity.
Qed.

(** The rent fee NFT is also the rentee's deposit: it ends in the pot, not with the renter. *)
Theorem C45_refuted : exists (C : Config) s s' c, config_ok /\ reachable s /\ contracts (s_rent s) !! 0 = Some c /\
  r_rent_fee c = RentNFT 1 /\ dispatch (Signed 2) (C_rent 0 (r_creation c)) s = (Ok tt, s') /\
  owner_of s 1 = Some 2 /\ owner_of s' 1 = Some rent_pot /\ r_renter c <> rent_pot.
Proof.
  eexists demo1, (demo [by_ 1 (C_create_nft [] 0 None false); by_ 2 (C_create_nft [] 0 None false);
      by_ 1 (C_create_contract 0 (FixedIn 10) (AutoAcceptance None) true (RentNFT 1) NoFee (FeeNFT 1))]), _, _.
  split; [apply demo1_ok|]. split; [by apply demo_reachable|].
  split; [vm_compute; reflexivity|]. split; [reflexivity|]. split; [vm_compute; reflexivity|].
  split; [vm_compute; reflexivity|]. split; [vm_compute; reflexivity|]. done.
Qed.

(** Account 3 offers to rent NFT 0, the contract expires, account 3 becomes the owner, makes
    a contract and accepts their own old offer. *)
Definition self_rent : list action :=
  offer_before ++ [by_ 3 (C_make_rent_offer 0 1)] ++ replicate 20 NextBlock ++
  [by_ 1 (C_transfer_nft 0 3);
   by_ 3 (C_create_contract 0 (FixedIn 10) (ManualAcceptance None) true (RentTokens 500) NoFee NoFee);
   by_ 3 (C_accept_rent_offer 0 3)].
Theorem C74_refuted : exists (C : Config) s c, config_ok /\ reachable s /\ contracts (s_rent s) !! 0 = Some c /\ r_rentee c = Some (r_renter c).
Proof.
  eexists demo1, (demo self_rent), _. split; [apply demo1_ok|]. split; [by apply demo_reachable|]. split; vm_compute; reflexivity.
Qed.
(** The hypotheses of [C74_only_by_own_old_offer_partial]: just before the last call. *)
Example C74_case : let s := demo (take 25 self_rent) in let s' := step s (by_ 3 (C_accept_rent_offer 0 3)) in
  reachable s /\ (r_rentee <$> contracts (s_rent s) !! 0) = Some None /\ (r_renter <$> contracts (s_rent s) !! 0) = Some 3 /\
  (r_rentee <$> contracts (s_rent s') !! 0) = Some (Some 3) /\ (r_renter <$> contracts (s_rent s') !! 0) = Some 3.
Proof. cbv zeta. split; [by apply demo_reachable|]. do 3 (split; [vm_compute; reflexivity|]). vm_compute; reflexivity. Qed.
End refutations.

(** One action per block is allowed, but one contract of each queue is handled. *)
Definition demo_one : Config := demo_config_gen 1 1.
Lemma demo_one_ok : @config_ok demo_one.
Proof. split; try done. repeat constructor; set_solver. Qed.
Definition three_due : list action :=
  [by_ 1 (C_create_nft [] 0 None false); by_ 1 (C_create_nft [] 0 None false); by_ 1 (C_create_nft [] 0 None false);
   by_ 1 (C_create_contract 2 (FixedIn 10) (AutoAcceptance None) true (RentTokens 10) NoFee NoFee)] ++
  replicate 10 NextBlock ++
  [by_ 1 (C_create_contract 0 (FixedIn 10) (AutoAcceptance None) true (RentTokens 10) NoFee NoFee);
   by_ 1 (C_create_contract 1 (SubscriptionIn 10 (Some 10) false) (AutoAcceptance None) true (RentTokens 10) NoFee NoFee);
   by_ 2 (C_rent 0 11); by_ 2 (C_rent 1 11)] ++ replicate 9 NextBlock.
Theorem C43_refuted : exists (C : Config) s, config_ok /\ reachable s /\ rent_actions = 1 /\
  forall i, i ∈ [0; 1; 2] -> is_Some (contracts (s_rent s) !! i) /\ contracts (s_rent (next_block s)) !! i = None.
Proof.
  exists demo_one, (@demo demo_one three_due). split; [apply demo_one_ok|]. split.
  { apply (@run_reachable demo_one); [|by apply actions_ok].
    apply (@reach_init demo_one). exists 1, (Some 20), rich, ∅. split; [done|]. split; [|split; [|done]].
    - apply map_Forall_to_list. apply (bool_decide_unpack _). vm_compute. exact I.
    - vm_compute. done. }
  split; [done|]. intros i Hi. repeat (apply elem_of_cons in Hi as [->|Hi]; [split; [eexists|]; vm_compute; reflexivity|]).
  by apply elem_of_nil in Hi.
Qed.

(** Existential deposit 5, a flexible deposit of 8 alone in the pot.  At half time the
    revoking rentee would keep 4: paying these leaves 4 in the pot, which is dust, so the
    other 4 cannot be paid and the rentee cannot leave. *)
Definition stuck_rent : list action :=
  [by_ 1 (C_create_nft [] 0 None false);
   by_ 1 (C_create_contract 0 (FixedIn 10) (AutoAcceptance None) true (RentTokens 10) NoFee (FlexibleTokens 8));
   by_ 2 (C_rent 0 1)] ++ replicate 5 NextBlock.
Theorem C44_refuted : exists (C : Config) s c s' e, config_ok /\ reachable s /\ contracts (s_rent s) !! 0 = Some c /\
  revokes c 2 1 (FlexibleTokens 8) NoFee /\ dispatch (Signed 2) (C_revoke_contract 0) s = (Err e, s').
Proof.
  eexists demo5, (run5 stuck_rent), _, _, _. split; [apply demo5_ok|]. split; [by apply run5_reachable|].
  split; [vm_compute; reflexivity|]. split; [right; cbn; split_and!; done|]. vm_compute. reflexivity.
Qed.

(** * Concrete cases *)
Local Existing Instance demo1.

(** NFT 0: fixed for 10 blocks, fee 100, deposits 50 and (flexible) 200, rented by 2.
    NFT 1: subscription, period 5 of 20, fee 30, deposits NFT 2 and NFT 3, rented by 2 through
    an offer.  NFT 4: not rented. *)
Definition rent_demo : list action :=
  [by_ 1 (C_create_nft [] 0 None false); by_ 1 (C_create_nft [] 0 None false); by_ 1 (C_create_nft [] 0 None false);
   by_ 2 (C_create_nft [] 0 None false); by_ 2 (C_create_nft [] 0 None false);
   by_ 1 (C_create_contract 0 (FixedIn 10) (AutoAcceptance None) true (RentTokens 100) (FixedTokens 50) (FlexibleTokens 200));
   by_ 1 (C_create_contract 1 (SubscriptionIn 5 (Some 20) true) (ManualAcceptance (Some [2; 3])) false (RentTokens 30) (FeeNFT 2) (FeeNFT 3));
   by_ 2 (C_create_contract 4 (FixedIn 10) (AutoAcceptance None) true (RentTokens 10) (FixedTokens 7) NoFee);
   NextBlock; by_ 2 (C_make_rent_offer 1 1)].
Definition rent_running : list action := rent_demo ++ [by_ 2 (C_rent 0 1); by_ 1 (C_accept_rent_offer 1 2)].
Lemma rent_demo_reachable : reachable (demo rent_demo).
Proof. by apply demo_reachable. Qed.
Lemma rent_running_reachable : reachable (demo rent_running).
Proof. by apply demo_reachable. Qed.

Example C31_C32_C36_case :
  let s := demo rent_running in
  held_deposits s = 257 /\ free (s_bal s) rent_pot = 257 /\ owner_of s 2 = Some rent_pot /\ owner_of s 3 = Some rent_pot /\
  q_fixed (queues (s_rent s)) = [(0, 12)] /\ q_sub (queues (s_rent s)) = [(1, 7)] /\ q_avail (queues (s_rent s)) = [(4, 21)] /\
  (exists c, contracts (s_rent s) !! 1 = Some c /\ secures c 2 /\ secures c 3).
Proof.
  cbv zeta. do 7 (split; [vm_compute; reflexivity|]). eexists. split; [vm_compute; reflexivity|].
  split; [by left|right; by split].
Qed.
(** C37, C38, C45 *)
Example C37_case :
  let s := demo rent_demo in
  (exists s', dispatch (Signed 2) (C_rent 0 1) s = (Ok tt, s') /\ free (s_bal s') 2 + 300 = free (s_bal s) 2 /\
     free (s_bal s') 1 = free (s_bal s) 1 + 100 /\ free (s_bal s') rent_pot = free (s_bal s) rent_pot + 200) /\
  offers (s_rent s) !! 1 = Some [2] /\
  (exists s', dispatch (Signed 1) (C_accept_rent_offer 1 2) s = (Ok tt, s') /\ free (s_bal s') 2 + 30 = free (s_bal s) 2 /\
     owner_of s 3 = Some 2 /\ owner_of s' 3 = Some rent_pot) /\
  fst (dispatch (Signed 1) (C_rent 0 1) s) = Err (Rent_err R_CannotRentOwnContract) /\
  fst (dispatch (Signed 2) (C_rent 0 2) s) <> Ok tt.
Proof.
  cbv zeta. split; [eexists; vm_compute; auto|]. split; [vm_compute; reflexivity|]. split; [eexists; vm_compute; auto|].
  split; [vm_compute; reflexivity|vm_compute; discriminate].
Qed.
Example C45_case :
  let s := demo [by_ 1 (C_create_nft [] 0 None false); by_ 2 (C_create_nft [] 0 None false); by_ 2 (C_create_nft [] 0 None false);
      by_ 1 (C_create_contract 0 (FixedIn 10) (AutoAcceptance None) true (RentNFT 1) NoFee (FeeNFT 2))] in
  exists s', dispatch (Signed 2) (C_rent 0 1) s = (Ok tt, s') /\ owner_of s' 1 = Some 1 /\ owner_of s' 2 = Some rent_pot.
Proof. eexists. vm_compute. auto. Qed.
(** C34, C35, C44: after 4 of 10 blocks the rentee keeps 80 of the 200. *)
Example C34_C35_C44_case :
  let s := demo (rent_running ++ replicate 4 NextBlock) in
  exists c s', contracts (s_rent s) !! 0 = Some c /\ revokes c 2 1 (FlexibleTokens 200) (FixedTokens 50) /\
    percentage_of_completion c (s_now s) = Some 400000 /\ kept_share c (s_now s) (FlexibleTokens 200) 80 /\
    dispatch (Signed 2) (C_revoke_contract 0) s = (Ok tt, s') /\
    free (s_bal s') 2 = free (s_bal s) 2 + 80 /\ free (s_bal s') 1 = free (s_bal s) 1 + 170.
Proof.
  cbv zeta. eexists _, _. split; [vm_compute; reflexivity|]. split; [right; cbn; split_and!; done|].
  split; [vm_compute; reflexivity|]. split.
  { exists 40. split; [exists 2; split; vm_compute; reflexivity|]. vm_compute. split_and!; done. }
  split; [vm_compute; reflexivity|]. vm_compute. auto.
Qed.
(** C42: the first period of NFT 1 ends in block 7. *)
Example C42_case :
  let s := demo (rent_running ++ replicate 4 NextBlock) in
  s_now s = 6 /\ scheduled s 1 7 /\ (forall j b, scheduled s j b -> b <= s_now s + 1 -> j = 1) /\ all_due_fit s [1] /\
  exists c, contracts (s_rent s) !! 1 = Some c /\ ~ terms_open (r_duration c) /\ ~ over c 7 /\
    contracts (s_rent (next_block s)) !! 1 = Some c /\ scheduled (next_block s) 1 12 /\
    free (s_bal (next_block s)) 2 + 30 = free (s_bal s) 2 /\ free (s_bal (next_block s)) 1 = free (s_bal s) 1 + 30.
Proof.
  cbv zeta. assert (Hd : forall j b, scheduled (demo (rent_running ++ replicate 4 NextBlock)) j b -> b <= s_now (demo (rent_running ++ replicate 4 NextBlock)) + 1 -> j = 1).
  { intros j b Hs Hb. unfold scheduled in Hs.
    assert (Eq : queues (s_rent (demo (rent_running ++ replicate 4 NextBlock))) = mkQueues [(0, 12)] [(1, 7)] [(4, 21)]) by (vm_compute; reflexivity).
    rewrite Eq in Hs. cbn in Hs. rewrite !elem_of_list_singleton in Hs.
    destruct Hs as [[= -> ->]|[[= -> ->]|[= -> ->]]]; [|done|]; exfalso; vm_compute in Hb; by apply Hb. }
  split; [vm_compute; reflexivity|]. split; [right; left; vm_compute; left|]. split; [done|]. split.
  { split; [|done]. intros i b Hs Hb. rewrite (Hd i b Hs Hb). left. }
  eexists. split; [vm_compute; reflexivity|]. split; [cbn; done|]. split.
  { intros (st&[= <-]&H). vm_compute in H. by apply H. }
  split; [vm_compute; reflexivity|]. split; [right; left; vm_compute; left|]. vm_compute. auto.
Qed.
(** C33: NFT 0 ends in block 12; both deposits go back. *)
Example C33_case :
  let s := demo (rent_running ++ replicate 9 NextBlock) in
  s_now s = 11 /\ scheduled s 0 12 /\ contracts (s_rent (next_block s)) !! 0 = None /\
  free (s_bal s) rent_pot = 257 /\ free (s_bal (next_block s)) rent_pot = 7 /\
  free (s_bal (next_block s)) 1 = free (s_bal s) 1 + 50 + 30 /\ free (s_bal (next_block s)) 2 + 30 = free (s_bal s) 2 + 200 /\
  exists t t', turn HookRent s t t'.
Proof.
  cbv zeta. split; [vm_compute; reflexivity|]. split; [left; vm_compute; left|].
  do 5 (split; [vm_compute; reflexivity|]). apply turn_exists, demo1_ok.
Qed.
(** C39 to C41: the renter raises the fee of the running subscription. *)
Definition changed_demo : list action := rent_running ++ [by_ 1 (C_change_subscription_terms 1 60 5 (Some 20) true)].
Example C39_C40_C41_case :
  let s := demo changed_demo in
  (exists c, contracts (s_rent s) !! 1 = Some c /\ terms_open (r_duration c) /\ r_rent_fee c = RentTokens 60) /\
  (exists s' c', dispatch (Signed 2) (C_accept_subscription_terms 1 60 5 (Some 20) true) s = (Ok tt, s') /\
     contracts (s_rent s') !! 1 = Some c' /\ ~ terms_open (r_duration c')) /\
  fst (dispatch (Signed 2) (C_accept_subscription_terms 1 30 5 (Some 20) true) s) <> Ok tt /\
  contracts (s_rent (demo (changed_demo ++ replicate 4 NextBlock))) !! 1 <> None /\
  contracts (s_rent (demo (changed_demo ++ replicate 5 NextBlock))) !! 1 = None /\
  owner_of (demo (changed_demo ++ replicate 5 NextBlock)) 3 = Some 2 /\
  (exists c, contracts (s_rent s) !! 0 = Some c /\ r_creation c < s_now s /\ ~ changeable (r_duration c)).
Proof.
  cbv zeta. split; [eexists; vm_compute; auto|]. split; [eexists _, _; split; [vm_compute; reflexivity|]; split; [vm_compute; reflexivity|vm_compute; discriminate]|].
  split; [vm_compute; discriminate|]. split; [vm_compute; discriminate|]. split; [vm_compute; reflexivity|]. split; [vm_compute; reflexivity|].
  eexists. split; [vm_compute; reflexivity|]. split; [done|]. by intros (x&?&_).
Qed.

Print Assumptions C31_pot_covers_deposits.
Print Assumptions C32_deposit_in_custody.
Print Assumptions C32_one_contract_per_deposit.
Print Assumptions C32_renter_and_rentee_deposit_differ.
Print Assumptions C33_block_start_exact.
Print Assumptions C33_due_contract_ends.
Print Assumptions C33_only_due_contracts_end.
Print Assumptions C34_revoke_exact.
Print Assumptions C35_percentage_is_completed.
Print Assumptions C35_zero_at_start.
Print Assumptions C35_never_decreases.
Print Assumptions C35_full_at_the_end_partial.
Print Assumptions C35_share_within_deposit.
Print Assumptions C36_queues_sorted_disjoint_bounded.
Print Assumptions C36_every_contract_scheduled.
Print Assumptions C36_every_entry_has_a_contract.
Print Assumptions C36_start_never_lacks_capacity.
Print Assumptions C37_rent_exact.
Print Assumptions C37_accept_offer_exact.
Print Assumptions C37_rentee_never_replaced.
Print Assumptions C38_offer_made_by_its_maker.
Print Assumptions C38_offer_keeps_its_contract_partial.
Print Assumptions C39_terms_stay_partial.
Print Assumptions C39_contract_life_cycle.
Print Assumptions C39_contract_created_by_owner.
Print Assumptions C40_only_the_renter_changes_terms_partial.
Print Assumptions C41_only_the_rentee_accepts.
Print Assumptions C41_open_terms_not_renewed.
Print Assumptions C42_renewed_exactly_one_period_later.
Print Assumptions C42_renewed_iff_affordable.
Print Assumptions C43_hook_bounded_partial.
Print Assumptions C44_party_can_leave_partial.
Print Assumptions C45_rent_nft_arrives_partial.
Print Assumptions C35_refuted.
Print Assumptions C38_refuted.
Print Assumptions C39_refuted.
Print Assumptions C39_same_block_refuted.
Print Assumptions C40_refuted.
Print Assumptions C45_refuted.
Print Assumptions C74_only_by_own_old_offer_partial.
Print Assumptions C74_refuted.
Print Assumptions C43_refuted.
Print Assumptions C44_refuted.
