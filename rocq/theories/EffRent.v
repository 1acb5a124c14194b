(** What the calls of pallet rent do. *)
From Verif Require Import SpecEffects EffCalc EffAuc RentHook RuleRent.
Local Open Scope N_scope.

Section rows.
Context {C : Config}.

Lemma passed_is j o s s' : change_nft_ownership j o s = (Ok tt, s') -> s' = passed j o s.
Proof.
  intros H. unfold change_nft_ownership in H. minv H. subst. unfold passed. apply nft_upd_ext.
  by rewrite <- (insert_alter_like _ _ _ (fun y => y <| owner := o |>) U).
Qed.
Lemma deposit_is f o s s' : on_some (cf_nft f) (fun i => change_nft_ownership i o) s = (Ok tt, s') -> s' = deposit_to f o s.
Proof.
  intros H. destruct f; cbn [cf_nft on_some] in H; try (by injection H as <-). by apply passed_is.
Qed.
Lemma bal_passed j o s b : passed j o (s <| s_bal := b |>) = passed j o s <| s_bal := b |>.
Proof. done. Qed.
Lemma bal_deposit f o s b : deposit_to f o (s <| s_bal := b |>) = deposit_to f o s <| s_bal := b |>.
Proof. by destruct f. Qed.
Lemma bal_rent f o s b : rent_to f o (s <| s_bal := b |>) = rent_to f o s <| s_bal := b |>.
Proof. by destruct f. Qed.

Lemma create_con_does w i di acc cr fee cf1 cf2 s s' : config_ok -> reachable s ->
  exec_call (Signed w) (C_create_contract i di acc cr fee cf1 cf2) s = (Ok tt, s') ->
  rent_does s w (C_create_contract i di acc cr fee cf1 cf2) s'.
Proof.
  intros HC R H. destruct (reachable_rent s HC R) as [HR _]. cbn [rent_does]. cbn [exec_call signed] in H.
  apply create_contract_run in H as (b&n1&q&d&Hd&Ho&Hr&T&Hn&Hq&->).
  cbn [queues_insert] in Hq. apply fmap_Some in Hq as (l&Hl&->). apply q_insert_some in Hl as [_ ->].
  eexists d, _. split; [done|]. split; [split; [apply q_ins_sorted, (r_av _ _ _ HR)|apply q_ins_perm]|].
  assert (En : n1 = nfts (s_nft (deposit_to cf1 rent_pot s))).
  { destruct Hn as [[-> E]|(j&x&E&Hx&_&_&->)]; destruct cf1; try discriminate E; try done.
    injection E as ->. cbn. by rewrite <- (insert_alter_like _ _ _ (fun y => y <| owner := rent_pot |>) Hx). }
  subst n1. destruct cf1; cbn [deposit_to]; eff_eq.
Qed.
Lemma cancel_con_does w i s s' : config_ok -> reachable s ->
  exec_call (Signed w) (C_cancel_contract i) s = (Ok tt, s') -> rent_does s w (C_cancel_contract i) s'.
Proof.
  intros HC R H. destruct (reachable_rent s HC R) as [HR _]. cbn [rent_does]. cbn [exec_call signed] in H.
  unfold cancel_contract in H. do 6 mstep H. apply bind_ok in H as ([]&s1&H1&H).
  unfold handle_finished in H1. do 5 mstep H1. st_cbn_in U0. rewrite U in U0. injection U0 as <-. st_cbn_in U1.
  destruct (r_rentee x) eqn:Er; [done|]. cbn [on_some] in H1.
  unfold bind at 1 in H1. cbn [ret] in H1. apply bind_ok in H1 as ([]&s2&H2&H1). apply deposit_is in H2. subst s2.
  minv H1. minv H. subst. exists x1, x. split; [done|]. split; [done|].
  assert (Hq : queues_remove i QAvail (queues (s_rent s)) = unscheduled i (queues (s_rent s))).
  { pose proof (r_cok _ _ _ HR i x U) as Hc. unfold unscheduled. cbn [queues_remove].
    assert (Hs : isS (r_start x) = false) by (rewrite (c_run _ _ Hc), Er; done).
    pose proof (r_fix _ _ _ HR) as LF. pose proof (r_subs _ _ _ HR) as LS. pose proof (r_av _ _ _ HR) as LA.
    destruct (queues (s_rent s)) as [qf qs qa]. unfold set. cbn in *. f_equal.
    - symmetry. apply without_none. eapply listing_notin; [apply LF|]. intros c E P. unfold in_fixed in P. rewrite U in E. injection E as <-. destruct P. congruence.
    - symmetry. apply without_none. eapply listing_notin; [apply LS|]. intros c E P. unfold in_sub in P. rewrite U in E. injection E as <-. destruct P. congruence.
    - apply without_del, LA. }
  rewrite !bal_deposit. destruct (r_renter_cf x); cbn [deposit_to]; eff_eq; exact Hq.
Qed.
Lemma unsched_kind s i c : config_ok -> reachable s -> contracts (s_rent s) !! i = Some c -> is_Some (r_rentee c) ->
  queues_remove i (kind_of (r_duration c)) (queues (s_rent s)) = unscheduled i (queues (s_rent s)).
Proof.
  intros HC R Hc [t Ht]. destruct (reachable_rent s HC R) as [HR _]. pose proof (r_cok _ _ _ HR i c Hc) as Hok.
  assert (Hs : isS (r_start c) = true) by (rewrite (c_run _ _ Hok), Ht; done).
  assert (Ha : without i (q_avail (queues (s_rent s))) = q_avail (queues (s_rent s))).
  { apply without_none. eapply listing_notin; [apply (r_av _ _ _ HR)|]. intros c0 E P. unfold in_avail in P. congruence. }
  unfold unscheduled. rewrite Ha. destruct (r_duration c) as [n|x] eqn:Ed; cbn [kind_of queues_remove].
  - assert (Hb : without i (q_sub (queues (s_rent s))) = q_sub (queues (s_rent s))).
    { apply without_none. eapply listing_notin; [apply (r_subs _ _ _ HR)|]. intros c0 E [_ P]. rewrite Hc in E. injection E as <-. by rewrite Ed in P. }
    rewrite Hb. rewrite <- without_del by apply (r_fix _ _ _ HR). by destruct (queues (s_rent s)).
  - assert (Hb : without i (q_fixed (queues (s_rent s))) = q_fixed (queues (s_rent s))).
    { apply without_none. eapply listing_notin; [apply (r_fix _ _ _ HR)|]. intros c0 E [_ P]. rewrite Hc in E. injection E as <-. by rewrite Ed in P. }
    rewrite Hb. rewrite <- without_del by apply (r_subs _ _ _ HR). by destruct (queues (s_rent s)).
Qed.
Lemma return_is f o s s' : return_cancellation_fee f o s = (Ok tt, s') -> exists b, s' = deposit_to f o s <| s_bal := b |>.
Proof.
  intros H. unfold return_cancellation_fee in H. mstep H. apply deposit_is in H. subst. exists b. apply bal_deposit.
Qed.
Lemma revoke_does w i s s' : config_ok -> reachable s ->
  exec_call (Signed w) (C_revoke_contract i) s = (Ok tt, s') -> rent_does s w (C_revoke_contract i) s'.
Proof.
  intros HC R H. cbn [rent_does]. cbn [exec_call signed] in H. unfold revoke_contract in H. do 5 mstep H.
  apply bind_ok in H as ([]&s0&HW&H).
  assert (Hw : s0 = s /\ revokes x w (if r_renter x =? w then x0 else r_renter x)
     (if r_renter x =? w then r_renter_cf x else r_rentee_cf x) (if r_renter x =? w then r_rentee_cf x else r_renter_cf x)).
  { unfold revokes. destruct (N.eqb_spec (r_renter x) w) as [<-|Hne]; cbn [when orb] in *; minv HW; subst.
    - split; [done|]. left. done.
    - split; [done|]. right. destruct E as [?|E]; [done|]. split_and!; try done; congruence. }
  destruct Hw as [-> Hw]. clear HW E. cbv zeta in H.
  set (other := if r_renter x =? w then x0 else r_renter x) in *.
  set (own := if r_renter x =? w then r_renter_cf x else r_rentee_cf x) in *.
  set (theirs := if r_renter x =? w then r_rentee_cf x else r_renter_cf x) in *.
  exists x, other, own, theirs. split; [done|]. split; [done|].
  apply bind_ok in H as ([]&s1&H1&H). apply return_is in H1 as [b1 ->].
  apply bind_ok in H as ([]&s2&H2&H).
  assert (exists b2, s2 = deposit_to own other (deposit_to theirs other s) <| s_bal := b2 |>) as [b2 ->].
  { destruct own; cbn [cf_flexible] in H2; try (apply return_is in H2 as [b2 ->]; exists b2; by rewrite bal_deposit).
    mstep H2. apply return_flexible_run in H2 as [b2 ->]. exists b2. done. }
  clear H2. minv H. subst s'. st_cbn_in U1.
  assert (Er : s_rent (deposit_to own other (deposit_to theirs other s)) = s_rent s) by (by destruct own, theirs).
  assert (Eo : deposit_to own other (deposit_to theirs other s) = s <| s_nft := s_nft (deposit_to own other (deposit_to theirs other s)) |>)
    by (destruct s, own, theirs; reflexivity).
  pose proof (unsched_kind s i x HC R U ltac:(eauto)) as Hq.
  rewrite <- Hq. clear Hq.
  pose proof (insert_alter_like _ _ _ (fun d => d <| nstate ::= fun f => f <| is_rented := false |> |>) U1) as En. cbv beta in En.
  set (sx := deposit_to own other (deposit_to theirs other s)) in *. clearbody sx.
  unfold becomes. rewrite <- Er. apply state_ext; st_cbn; try reflexivity.
  - apply nft_st_ext; st_cbn; try reflexivity. exact En.
Qed.

Lemma take_is t c s s' : take_rent_and_cancellation_fee t c s = (Ok tt, s') ->
  exists b, s' = deposit_to (r_rentee_cf c) rent_pot (rent_to (r_rent_fee c) (r_renter c) s) <| s_bal := b |>.
Proof.
  intros H. unfold take_rent_and_cancellation_fee in H.
  apply bind_map_err in H. mstep H. apply bind_map_err in H. mstep H.
  apply bind_ok in H as ([]&s1&H1&H). assert (s1 = s <| s_bal := b |> <| s_bal := b0 |>) as ->.
  { destruct (rf_nft (r_rent_fee c)); unfold check_fee_nft in H1; cbn [on_some] in H1; by minv H1. }
  clear H1. apply bind_ok in H as ([]&s1&H1&H). assert (s1 = s <| s_bal := b |> <| s_bal := b0 |>) as ->.
  { destruct (cf_nft (r_rentee_cf c)); unfold check_fee_nft in H1; cbn [on_some] in H1; by minv H1. }
  clear H1. apply bind_ok in H as ([]&s1&H1&H).
  assert (Hm : forall e j o t t', map_err e (change_nft_ownership j o) t = (Ok tt, t') -> t' = passed j o t).
  { clear. intros e j o t t' H. unfold map_err in H. destruct (change_nft_ownership j o t) as [[[]|?] t1] eqn:E; [|done].
    injection H as <-. by apply passed_is. }
  assert (s1 = rent_to (r_rent_fee c) (r_renter c) s <| s_bal := b0 |>) as ->.
  { destruct (r_rent_fee c) as [f|j]; cbn [rf_nft on_some rent_to] in *; [by injection H1 as <-|]. by apply Hm in H1 as ->. }
  clear H1. exists b0. rewrite <- bal_deposit.
  destruct (r_rentee_cf c); cbn [cf_nft on_some deposit_to] in *; try (by injection H as <-). by apply Hm in H as ->.
Qed.
Lemma starts_is s i c q : config_ok -> reachable s ->
  queues_insert i (s_now s + duration_or_period (r_duration c)) (kind_of (r_duration c)) (queues_remove i QAvail (queues (s_rent s))) = Some q ->
  starts i (s_now s) c (queues (s_rent s)) q.
Proof.
  intros HC R Hq. destruct (reachable_rent s HC R) as [HR _]. unfold starts.
  destruct (r_duration c) as [n|x]; cbn [kind_of queues_insert queues_remove duration_or_period] in Hq;
    apply fmap_Some in Hq as (l&Hl&->); apply q_insert_some in Hl as [_ ->]; st_cbn.
  - cbn [q_fixed q_sub q_avail]. split; [apply without_del, (r_av _ _ _ HR)|]. split; [|done]. split; [apply q_ins_sorted; apply HR|apply q_ins_perm].
  - cbn [q_fixed q_sub q_avail]. split; [apply without_del, (r_av _ _ _ HR)|]. split; [done|]. split; [apply q_ins_sorted; apply HR|apply q_ins_perm].
Qed.
Lemma begun_is i t c s s1 s2 q b : 
  s1 = deposit_to (r_rentee_cf c) rent_pot (rent_to (r_rent_fee c) (r_renter c) s) <| s_bal := b |> ->
  s2 = s1 <| s_rent ::= fun r => r <| queues := q |> <| offers ::= delete i |>
        <| contracts ::= <[i := c <| r_rentee := Some t |> <| r_start := Some (s_now s1) |>]> |> |> ->
  s2 = begun i t c q s <| s_bal := b |>.
Proof.
  intros -> ->. unfold begun. destruct (r_rentee_cf c), (r_rent_fee c); reflexivity.
Qed.
Lemma start_is w i t c s s1 s2 s' : config_ok -> reachable s ->
  take_rent_and_cancellation_fee t c s = (Ok tt, s1) -> start_contract i t c s1 = (Ok tt, s2) -> emit (Ev_ContractStarted i w) s2 = (Ok tt, s') ->
  exists q, starts i (s_now s) c (queues (s_rent s)) q /\ becomes s' (begun i t c q s) [Ev_ContractStarted i w].
Proof.
  intros HC R H1 H2 H. apply take_is in H1 as [b H1]. apply start_contract_run in H2 as (q&Hq&H2).
  assert (En : s_now s1 = s_now s) by (subst s1; by destruct (r_rentee_cf c), (r_rent_fee c)).
  assert (Er : s_rent s1 = s_rent s) by (subst s1; by destruct (r_rentee_cf c), (r_rent_fee c)).
  rewrite En, Er in Hq. exists q. split; [by apply starts_is|].
  pose proof (begun_is _ _ _ _ _ _ _ _ H1 H2) as H3. minv H. subst s'. rewrite H3. clear.
  unfold becomes. destruct (begun i t c q s). reflexivity.
Qed.
Lemma rent_call_does w i k s s' : config_ok -> reachable s -> exec_call (Signed w) (C_rent i k) s = (Ok tt, s') ->
  rent_does s w (C_rent i k) s'.
Proof.
  intros HC R H. cbn [rent_does]. cbn [exec_call signed] in H. unfold rent in H. do 7 mstep H.
  apply bind_ok in H as ([]&s1&H1&H). apply bind_ok in H as ([]&s2&H2&H).
  destruct (start_is _ _ _ _ _ _ _ _ HC R H1 H2 H) as (q&Hq&Hs). exists x, q. done.
Qed.
Lemma accept_does w i k s s' : config_ok -> reachable s -> exec_call (Signed w) (C_accept_rent_offer i k) s = (Ok tt, s') ->
  rent_does s w (C_accept_rent_offer i k) s'.
Proof.
  intros HC R H. cbn [rent_does]. cbn [exec_call signed] in H. unfold accept_rent_offer in H. do 6 mstep H.
  apply bind_ok in H as ([]&s1&H1&H). apply bind_ok in H as ([]&s2&H2&H).
  destruct (start_is _ _ _ _ _ _ _ _ HC R H1 H2 H) as (q&Hq&Hs). exists x, q. done.
Qed.
Lemma offer_does w i k s s' : exec_call (Signed w) (C_make_rent_offer i k) s = (Ok tt, s') -> rent_does s w (C_make_rent_offer i k) s'.
Proof.
  intros H. cbn [rent_does]. cbn [exec_call signed] in H. unfold make_rent_offer in H. do 13 mstep H.
  all: apply bind_ok in H as ([]&s0&HW&H); assert (s0 = s) as -> by (by minv HW); clear HW.
  all: minv H; subst s'; eff_eq.
Qed.
Lemma position_split {A} f (l : list A) p : position f l = Some p -> exists l1 y l2, l = l1 ++ y :: l2 /\ f y = true /\ delete p l = l1 ++ l2.
Proof.
  intros H. destruct (position_lookup _ _ _ H) as (y&Hy&Hf). exists (take p l), y, (drop (S p) l).
  split; [symmetry; by apply take_drop_middle|]. split; [done|]. apply delete_take_drop.
Qed.
Lemma retract_does w i s s' : exec_call (Signed w) (C_retract_rent_offer i) s = (Ok tt, s') -> rent_does s w (C_retract_rent_offer i) s'.
Proof.
  intros H. cbn [rent_does]. eff_run H retract_rent_offer.
  destruct (position_split _ _ _ U0) as (l1&y&l2&->&Hf&E). apply N.eqb_eq in Hf as <-. exists l1, l2. split; [done|]. rewrite E. eff_eq.
Qed.
Lemma change_does w i fee p md ch s s' : exec_call (Signed w) (C_change_subscription_terms i fee p md ch) s = (Ok tt, s') ->
  rent_does s w (C_change_subscription_terms i fee p md ch) s'.
Proof.
  intros H. cbn [rent_does]. cbn [exec_call signed] in H. unfold change_subscription_terms in H. do 8 mstep H.
  exists x. split; [done|]. cbn zeta. destruct (r_rentee x); cbn [negb when] in H; minv H; subst; destruct md; eff_eq.
Qed.
Lemma acc_terms_does w i fee p md ch s s' : exec_call (Signed w) (C_accept_subscription_terms i fee p md ch) s = (Ok tt, s') ->
  rent_does s w (C_accept_subscription_terms i fee p md ch) s'.
Proof.
  intros H. cbn [rent_does]. cbn [exec_call signed] in H. unfold accept_subscription_terms in H. minv H. subst s'.
  destruct (r_duration x) as [|sub] eqn:Ed; [done|]. injection U0 as <-.
  exists x, sub. split; [done|]. split; [done|].
  assert (x <| r_duration ::= set_terms_changed false |> = x <| r_duration := Subscription (mkSub (period_length sub) (max_duration sub) (is_changeable sub) false) |>) as ->.
  { unfold set. cbn [r_duration]. destruct x. cbn in Ed. subst. done. }
  eff_eq.
Qed.
End rows.
