(** Facts behind the rent properties: the life of a contract. *)
From Verif Require Export RentFacts.
Local Open Scope N_scope.

Section facts.
Context {C : Config}.

(** ** Steps of contracts and offers *)
Lemma block_contract s i c : config_ok -> reachable s -> contracts (s_rent s) !! i = Some c ->
  contracts (s_rent (next_block s)) !! i = Some c \/ contracts (s_rent (next_block s)) !! i = None.
Proof.
  intros HC Hs Hc. destruct (turn_exists HookRent s HC) as (t&t'&Ht).
  destruct (fact_rent_turn s t t' HC Hs Ht) as (_&Er&En&l'&[Ro Ri _ _ _ _]&_). rewrite En. rewrite Er in *.
  destruct (decide (i ∈ l')) as [Hi|Hi]; [|left; by rewrite Ro].
  destruct (Ri i Hi) as (c'&Hc'&[E|E]); [by right|left; congruence].
Qed.
Lemma fact_contract_step s a i c c' : config_ok -> reachable s -> action_ok a ->
  contracts (s_rent s) !! i = Some c -> contracts (s_rent (step s a)) !! i = Some c' -> contract_step s a i c c'.
Proof.
  intros HC Hs Ha Hc. revert c'.
  set (Rr := fun t : state => forall c', contracts (s_rent t) !! i = Some c' -> contract_step s a i c c').
  change (Rr (step s a)).
  assert (R0 : Rr s). { intros c' H. left. congruence. }
  assert (Hk : forall t, s_rent t = s_rent s -> Rr t). { intros t E c' H. rewrite E in H. by apply R0. }
  pose proof (reachable_inv1 s Hs) as HI.
  apply step_cases; try done.
  - intros x s' Hm He. apply Hk. assert (pallet_of x = PRent \/ pallet_of x <> PRent) as [Hp|Hp] by (destruct (pallet_of x); auto).
    + destruct x; try discriminate Hp; discriminate He.
    + by eapply call_rent_kept.
  - intros o x s' -> Hm _ He. assert (pallet_of x = PRent \/ pallet_of x <> PRent) as [Hp|Hp] by (destruct (pallet_of x); auto).
    2: { apply Hk. by eapply call_rent_kept. }
    destruct x; try discriminate Hp; clear Hp Hm; cbn [exec_call] in He; unfold signed in He; destruct o as [who| |]; try done.
    + apply rcreate_ok in He as (b&nd&Hd&_&Hr&_&_&_&_&_&_&_&_&_&_&E).
      pose proof (no_contract s id nd HI Hd Hr) as Hn. intros c' Hc'. rewrite E in Hc'. cbn [contracts] in Hc'.
      rewrite lookup_insert_ne in Hc' by congruence. by apply R0.
    + apply rcancel_ok in He as (x&b1&_&_&_&_&_&E). intros c' Hc'. rewrite E in Hc'. cbn [contracts] in Hc'.
      apply lookup_delete_Some in Hc' as [_ Hc']. by apply R0.
    + apply rrevoke_ok in He as (x&t&b1&b2&_&_&_&He). cbv zeta in He. destruct He as (_&_&_&E). intros c' Hc'. rewrite E in Hc'. cbn [contracts] in Hc'.
      apply lookup_delete_Some in Hc' as [_ Hc']. by apply R0.
    + apply rent_ok in He as (x&b1&b2&Hx&Hcb&Hr&_&_&_&_&_&_&E). intros c' Hc'. rewrite E in Hc'. cbn [contracts] in Hc'.
      apply lookup_insert_Some in Hc' as [[-> <-]|[_ Hc']]; [|by apply R0]. assert (x = c) as -> by congruence.
      right; left. exists who. split_and!; [done|done|]. left. by rewrite <- Hcb.
    + apply roffer_ok in He as (x&_&_&_&_&_&_&_&_&_&E). intros c' Hc'. rewrite E in Hc'. cbn [contracts] in Hc'. by apply R0.
    + apply raccept_ok in He as (x&l&b1&b2&Hx&Hl&Hr&Hin&_&_&_&E). intros c' Hc'. rewrite E in Hc'. cbn [contracts] in Hc'.
      apply lookup_insert_Some in Hc' as [[-> <-]|[_ Hc']]; [|by apply R0]. assert (x = c) as -> by congruence.
      right; left. eexists. split_and!; [by eapply offered_not_running|done|]. right. rewrite Hr, Hl. done.
    + apply rretract_ok in He as (l&k&_&_&_&E). intros c' Hc'. rewrite E in Hc'. cbn [contracts] in Hc'. by apply R0.
    + apply rchange_ok in He as (x&o&Hx&Hr&Hadj&_&_&_&_&_&E). intros c' Hc'. rewrite E in Hc'. cbn [contracts] in Hc'.
      apply lookup_insert_Some in Hc' as [[-> <-]|[_ Hc']]; [|by apply R0]. assert (x = c) as -> by congruence.
      right; right; left. subst who. unfold can_adjust in Hadj. destruct (r_duration c) as [n|y] eqn:Ed; [done|].
      eexists _, _, _, _, y. split_and!; done.
    + apply raccterms_ok in He as (x&sub&Hx&Hd&Hr&Hnt&Hf&Hp&Hmd&Hch&_&_&E). intros c' Hc'. rewrite E in Hc'. cbn [contracts] in Hc'.
      apply lookup_insert_Some in Hc' as [[-> <-]|[_ Hc']]; [|by apply R0]. assert (x = c) as -> by congruence.
      right; right; right. eexists who, _, _, _, _, sub. split_and!; try done.
  - intros ->. intros c' Hc'. destruct (block_contract s i c HC Hs Hc) as [E|E]; [left|]; congruence.
  - intros e s' -> He. apply Hk. by apply env_kept in He as (_&_&_&_&?&_).
Qed.

(** A contract appears only by [create_contract] of the owner, as given. *)
Lemma fact_contract_new s a i c : config_ok -> reachable s -> action_ok a ->
  contracts (s_rent s) !! i = None -> contracts (s_rent (step s a)) !! i = Some c ->
  exists who di acc cr fee cf1 cf2, a = Extrinsic (Signed who) (C_create_contract i di acc cr fee cf1 cf2) /\
    owner_of s i = Some who /\ c = mkContract None who None (to_duration di) acc cr fee cf1 cf2 (s_now s).
Proof.
  intros HC Hs Ha Hc. revert c.
  set (Rr := fun t : state => forall c, contracts (s_rent t) !! i = Some c ->
    exists who di acc cr fee cf1 cf2, a = Extrinsic (Signed who) (C_create_contract i di acc cr fee cf1 cf2) /\
    owner_of s i = Some who /\ c = mkContract None who None (to_duration di) acc cr fee cf1 cf2 (s_now s)).
  change (Rr (step s a)).
  assert (R0 : Rr s). { intros c' H. congruence. }
  assert (Hk : forall t, s_rent t = s_rent s -> Rr t). { intros t E c' H. rewrite E in H. by apply R0. }
  pose proof (reachable_inv1 s Hs) as HI.
  apply step_cases; try done.
  - intros x s' Hm He. apply Hk. assert (pallet_of x = PRent \/ pallet_of x <> PRent) as [Hp|Hp] by (destruct (pallet_of x); auto).
    + destruct x; try discriminate Hp; discriminate He.
    + by eapply call_rent_kept.
  - intros o x s' -> Hm _ He. assert (pallet_of x = PRent \/ pallet_of x <> PRent) as [Hp|Hp] by (destruct (pallet_of x); auto).
    2: { apply Hk. by eapply call_rent_kept. }
    destruct x; try discriminate Hp; clear Hp Hm; cbn [exec_call] in He; unfold signed in He; destruct o as [who| |]; try done.
    + apply rcreate_ok in He as (b&nd&Hd&Ho&Hr&_&_&_&_&_&_&_&_&_&_&E). intros c' Hc'. rewrite E in Hc'. cbn [contracts] in Hc'.
      apply lookup_insert_Some in Hc' as [[-> <-]|[_ Hc']]; [|by apply R0]. eexists who, _, _, _, _, _, _. split; [done|]. split; [|done].
      unfold owner_of. rewrite Hd. cbn. by rewrite Ho.
    + apply rcancel_ok in He as (x&b1&_&_&_&_&_&E). intros c' Hc'. rewrite E in Hc'. cbn [contracts] in Hc'.
      apply lookup_delete_Some in Hc' as [_ Hc']. by apply R0.
    + apply rrevoke_ok in He as (x&t&b1&b2&_&_&_&He). cbv zeta in He. destruct He as (_&_&_&E). intros c' Hc'. rewrite E in Hc'. cbn [contracts] in Hc'.
      apply lookup_delete_Some in Hc' as [_ Hc']. by apply R0.
    + apply rent_ok in He as (x&b1&b2&Hx&Hcb&Hr&_&_&_&_&_&_&E). intros c' Hc'. rewrite E in Hc'. cbn [contracts] in Hc'.
      apply lookup_insert_Some in Hc' as [[-> <-]|[_ Hc']]; [congruence|by apply R0].
    + apply roffer_ok in He as (x&_&_&_&_&_&_&_&_&_&E). intros c' Hc'. rewrite E in Hc'. cbn [contracts] in Hc'. by apply R0.
    + apply raccept_ok in He as (x&l&b1&b2&Hx&Hl&Hr&Hin&_&_&_&E). intros c' Hc'. rewrite E in Hc'. cbn [contracts] in Hc'.
      apply lookup_insert_Some in Hc' as [[-> <-]|[_ Hc']]; [congruence|by apply R0].
    + apply rretract_ok in He as (l&k&_&_&_&E). intros c' Hc'. rewrite E in Hc'. cbn [contracts] in Hc'. by apply R0.
    + apply rchange_ok in He as (x&o&Hx&Hr&Hadj&_&_&_&_&_&E). intros c' Hc'. rewrite E in Hc'. cbn [contracts] in Hc'.
      apply lookup_insert_Some in Hc' as [[-> <-]|[_ Hc']]; [congruence|by apply R0].
    + apply raccterms_ok in He as (x&sub&Hx&Hd&Hr&Hnt&Hf&Hp&Hmd&Hch&_&_&E). intros c' Hc'. rewrite E in Hc'. cbn [contracts] in Hc'.
      apply lookup_insert_Some in Hc' as [[-> <-]|[_ Hc']]; [congruence|by apply R0].
  - intros ->. intros c' Hc'. exfalso. destruct (turn_exists HookRent s HC) as (t&t'&Ht).
    destruct (fact_rent_turn s t t' HC Hs Ht) as (_&Er&En&l'&[Ro Ri _ _ _ _]&_). rewrite En in Hc'. rewrite Er in *.
    destruct (decide (i ∈ l')) as [Hi|Hi]; [|rewrite Ro in Hc' by done; congruence].
    destruct (Ri i Hi) as (c0&Hc0&_). congruence.
  - intros e s' -> He. apply Hk. by apply env_kept in He as (_&_&_&_&?&_).
Qed.

Lemma finished_offers i s : offers (s_rent (snd (handle_finished i s))) = offers (s_rent s).
Proof.
  assert (H : pres (fun t => offers (s_rent t) = offers (s_rent s)) (handle_finished i)) by (pres_go; st_cbn; assumption). by apply H.
Qed.
Lemma block_offers s : offers (s_rent (next_block s)) = offers (s_rent s).
Proof.
  apply next_block_ind; [done|]. intros h t Ht. destruct h; try (by rewrite hook_rent_kept).
  cut (pres (fun t => offers (s_rent t) = offers (s_rent s)) (run_hook HookRent)); [intros H; by apply H|].
  cbn [run_hook]. apply pres_rent_hook; try (intros; st_cbn; assumption).
  all: intros; try (pres_go; st_cbn; assumption).
Qed.

Lemma fact_offer_made s a i t : reachable s -> action_ok a -> offered (step s a) i t -> ~ offered s i t ->
  exists c, a = Extrinsic (Signed t) (C_make_rent_offer i (r_creation c)) /\ contracts (s_rent s) !! i = Some c /\
    r_renter c <> t /\ r_rentee c = None.
Proof.
  intros Hs Ha Ho Hn. revert Ho.
  set (Rr := fun x : state => offered x i t -> exists c, a = Extrinsic (Signed t) (C_make_rent_offer i (r_creation c)) /\
    contracts (s_rent s) !! i = Some c /\ r_renter c <> t /\ r_rentee c = None).
  change (Rr (step s a)).
  assert (R0 : Rr s). { by intros H. }
  assert (Hk : forall x, (forall l, offers (s_rent x) !! i = Some l -> offers (s_rent s) !! i = Some l) -> Rr x).
  { intros x E (l&Hl&Hin). apply R0. exists l. auto. }
  pose proof (reachable_inv1 s Hs) as HI.
  apply step_cases; try done.
  - intros x s' Hm He. apply Hk. assert (pallet_of x = PRent \/ pallet_of x <> PRent) as [Hp|Hp] by (destruct (pallet_of x); auto).
    + destruct x; try discriminate Hp; discriminate He.
    + by rewrite (call_rent_kept _ _ _ _ Hm He Hp).
  - intros o x s' -> Hm _ He. assert (pallet_of x = PRent \/ pallet_of x <> PRent) as [Hp|Hp] by (destruct (pallet_of x); auto).
    2: { apply Hk. by rewrite (call_rent_kept _ _ _ _ Hm He Hp). }
    assert (Hdel : forall id l, delete id (offers (s_rent s)) !! i = Some l -> offers (s_rent s) !! i = Some l).
    { intros id l H. by apply lookup_delete_Some in H as [_ H]. }
    destruct x; try discriminate Hp; clear Hp Hm; cbn [exec_call] in He; unfold signed in He; destruct o as [who| |]; try done.
    + apply rcreate_ok in He as (b&nd&Hd&_&Hr&_&_&_&_&_&_&_&_&_&_&E). apply Hk. by rewrite E.
    + apply rcancel_ok in He as (x&b1&_&_&_&_&_&E). apply Hk. rewrite E. apply Hdel.
    + apply rrevoke_ok in He as (x&y&b1&b2&_&_&_&He). cbv zeta in He. destruct He as (_&_&_&E). apply Hk. by rewrite E.
    + apply rent_ok in He as (x&b1&b2&Hx&Hcb&Hr&_&_&_&_&_&_&E). apply Hk. rewrite E. apply Hdel.
    + apply roffer_ok in He as (x&Hx&Hcb&Hst&Hne&_&_&_&_&_&E). intros (l&Hl&Hin). rewrite E in Hl. cbn [offers] in Hl.
      apply lookup_insert_Some in Hl as [[-> <-]|[_ Hl]]; [|exfalso; apply Hn; by exists l].
      apply elem_of_app in Hin as [Hin|Hin]; [|apply elem_of_list_singleton in Hin as ->].
      * exfalso. apply Hn. destruct (offers (s_rent s) !! i) as [l|] eqn:El; [by exists l|]. by apply elem_of_nil in Hin.
      * exists x. rewrite Hcb. split_and!; try done. pose proof (i_view s HI i) as V. unfold view_ok in V. rewrite Hx in V.
        destruct (nfts (s_nft s) !! i); [|by apply vn_con in V]. destruct (v_con _ _ _ _ _ _ _ _ _ _ _ _ _ V x eq_refl) as (_&HH&_).
        destruct (r_rentee x); [|done]. by rewrite Hst in HH.
    + apply raccept_ok in He as (x&l&b1&b2&Hx&Hl&Hr&Hin&_&_&_&E). apply Hk. rewrite E. apply Hdel.
    + apply rretract_ok in He as (l&k&Hl0&_&_&E). intros (l'&Hl&Hin). rewrite E in Hl. cbn [offers] in Hl.
      apply lookup_insert_Some in Hl as [[-> <-]|[_ Hl]]; [|exfalso; apply Hn; by exists l'].
      exfalso. apply Hn. exists l. split; [done|]. apply elem_of_list_lookup in Hin as [n Hin]. apply elem_of_list_lookup.
      destruct (decide (n < k)%nat) as [Hlt|Hge]; [rewrite lookup_delete_lt in Hin by done|rewrite lookup_delete_ge in Hin by lia]; eauto.
    + apply rchange_ok in He as (x&o&Hx&Hr&Hadj&_&_&_&_&Eo&E). apply Hk. rewrite E. cbn [offers]. subst o. destruct (r_rentee x); [done|apply Hdel].
    + apply raccterms_ok in He as (x&sub&Hx&Hd&Hr&Hnt&Hf&Hp&Hmd&Hch&_&_&E). apply Hk. by rewrite E.
  - intros ->. apply Hk. by rewrite block_offers.
  - intros e s' -> He. apply Hk. apply env_kept in He as (_&_&_&_&Er&_). by rewrite Er.
Qed.

(** While an offer stands, the contract it was made for stays exactly as it is, unless it
    expires at the start of a block. *)
Lemma fact_offer_binds s a i t c : config_ok -> reachable s -> action_ok a -> offered s i t -> offered (step s a) i t ->
  contracts (s_rent s) !! i = Some c ->
  contracts (s_rent (step s a)) !! i = Some c \/ a = NextBlock /\ contracts (s_rent (step s a)) !! i = None.
Proof.
  intros HC Hs Ha Ho1 Ho2 Hc. revert Ho2.
  set (Rr := fun x : state => offered x i t -> contracts (s_rent x) !! i = Some c \/ a = NextBlock /\ contracts (s_rent x) !! i = None).
  change (Rr (step s a)).
  assert (R0 : Rr s). { by left. }
  assert (Hk : forall x, s_rent x = s_rent s -> Rr x). { intros x E _. left. by rewrite E. }
  pose proof (reachable_inv1 s Hs) as HI.
  assert (Hnr : r_rentee c = None). { destruct Ho1 as (l&Hl&_). by eapply offered_not_running. }
  assert (Hno : forall id x, id <> i -> <[id := x]> (contracts (s_rent s)) !! i = Some c). { intros. by rewrite lookup_insert_ne. }
  apply step_cases; try done.
  - intros x s' Hm He. apply Hk. assert (pallet_of x = PRent \/ pallet_of x <> PRent) as [Hp|Hp] by (destruct (pallet_of x); auto).
    + destruct x; try discriminate Hp; discriminate He.
    + by eapply call_rent_kept.
  - intros o x s' -> Hm _ He. assert (pallet_of x = PRent \/ pallet_of x <> PRent) as [Hp|Hp] by (destruct (pallet_of x); auto).
    2: { apply Hk. by eapply call_rent_kept. }
    destruct x; try discriminate Hp; clear Hp Hm; cbn [exec_call] in He; unfold signed in He; destruct o as [who| |]; try done.
    + apply rcreate_ok in He as (b&nd&Hd&_&Hr&_&_&_&_&_&_&_&_&_&_&E).
      pose proof (no_contract s id nd HI Hd Hr) as Hn. intros _. left. rewrite E. cbn [contracts]. apply Hno. congruence.
    + apply rcancel_ok in He as (x&b1&_&_&_&_&_&E). intros (l&Hl&_). rewrite E in Hl |- *. cbn [contracts offers] in *. left.
      apply lookup_delete_Some in Hl as [Hne _]. by rewrite lookup_delete_ne.
    + apply rrevoke_ok in He as (x&y&b1&b2&Hx&Hy&_&He). cbv zeta in He. destruct He as (_&_&_&E). intros _. left. rewrite E. cbn [contracts].
      rewrite lookup_delete_ne by congruence. done.
    + apply rent_ok in He as (x&b1&b2&Hx&Hcb&Hr&_&_&_&_&_&_&E). intros (l&Hl&_). rewrite E in Hl |- *. cbn [contracts offers] in *. left.
      apply lookup_delete_Some in Hl as [Hne _]. by apply Hno.
    + apply roffer_ok in He as (x&_&_&_&_&_&_&_&_&_&E). intros _. left. by rewrite E.
    + apply raccept_ok in He as (x&l&b1&b2&Hx&Hl&Hr&Hin&_&_&_&E). intros (l'&Hl'&_). rewrite E in Hl' |- *. cbn [contracts offers] in *. left.
      apply lookup_delete_Some in Hl' as [Hne _]. by apply Hno.
    + apply rretract_ok in He as (l&k&_&_&_&E). intros _. left. by rewrite E.
    + apply rchange_ok in He as (x&o&Hx&Hr&Hadj&_&_&_&_&Eo&E). intros (l&Hl&_). rewrite E in Hl |- *. cbn [contracts offers] in *. left.
      destruct (decide (id = i)) as [->|Hne]; [|by apply Hno]. assert (x = c) as -> by congruence. rewrite Hnr in Eo. subst o. by rewrite lookup_delete in Hl.
    + apply raccterms_ok in He as (x&sub&Hx&Hd&Hr&Hnt&Hf&Hp&Hmd&Hch&_&_&E). intros _. left. rewrite E. cbn [contracts]. apply Hno. congruence.
  - intros ->. intros _. destruct (block_contract s i c HC Hs Hc) as [E|E]; [by left|by right].
  - intros e s' -> He. apply Hk. by apply env_kept in He as (_&_&_&_&?&_).
Qed.
End facts.
