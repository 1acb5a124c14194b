(** The rent account covers all cancellation deposits; the rent hook never loses a contract. *)
From Verif Require Export RentOk AucHook.
Local Open Scope N_scope.

Section rsolv.
Context {C : Config}.

Definition rdue (c : contract) : N := cf_amount (r_renter_cf c) + (if isS (r_rentee c) then cf_amount (r_rentee_cf c) else 0).
Definition rescrow (cs : gmap N contract) : N := msum (rdue <$> cs).
Definition rsolv (s : state) : Prop := rescrow (contracts (s_rent s)) <= free (s_bal s) rent_pot.
Definition rinv (s : state) : Prop := rok (s_now s) (contracts (s_rent s)) (queues (s_rent s)).

Lemma zb_whole n : ed <= rent_ed -> zero_or_big n -> whole n.
Proof. intros He [->|H]; [by left|right; lia]. Qed.
Lemma rdue_whole now c : ed <= rent_ed -> cok now c -> whole (rdue c).
Proof.
  intros He [_ _ H1 H2 _ _ _ _ _ _]. apply whole_add; [by apply zb_whole|]. destruct (isS _); [by apply zb_whole|by left].
Qed.
Lemma whole_rescrow now cs q : ed <= rent_ed -> rok now cs q -> whole (rescrow cs).
Proof.
  intros He H. apply whole_msum. intros k v. rewrite lookup_fmap. intros (c&Hc&->)%fmap_Some.
  eapply rdue_whole; [done|]. by eapply r_cok.
Qed.
Lemma rpot_pays to amt keep b b' n : transfer_b rent_pot to amt keep b = Ok b' -> whole n ->
  n + amt <= free b rent_pot -> n <= free b' rent_pot.
Proof.
  intros H Hn Hb. destruct Hn as [->|Hn]; [lia|].
  pose proof (transfer_free _ _ _ _ _ _ H) as Hf.
  assert (Hc : keep = true \/ ed <= free b rent_pot - amt \/ free b rent_pot = amt) by lia.
  specialize (Hf Hc rent_pot). unfold at_acc in Hf. rewrite decide_True in Hf by done. destruct (decide _); lia.
Qed.
(** An unlocked account can pay a whole amount it has. *)
Lemma can_pay_whole p to amt b : whole amt -> bsum b 0 -> frozen b p = 0 -> amt <= free b p -> exists b', transfer_b p to amt false b = Ok b'.
Proof.
  intros He Hb Hf Ha. unfold transfer_b. destruct ((amt =? 0) || (p =? to)) eqn:E0; [eauto|].
  apply orb_false_iff in E0 as [E0%N.eqb_neq E1%N.eqb_neq].
  destruct (free b p <? amt) eqn:E2; [apply N.ltb_lt in E2; lia|]. rewrite Hf, N.add_0_r, E2.
  unfold untouchable, has_lock. rewrite Hf. cbn [orb N.ltb N.compare N.max]. rewrite N.add_0_r, E2.
  destruct (free b to + amt <? ed) eqn:E3; [apply N.ltb_lt in E3; unfold whole in He; lia|].
  destruct (u128_max <? free b to + amt) eqn:E4; [|eauto]. apply N.ltb_lt in E4.
  pose proof (bsum_two b 0 p to Hb E1). destruct Hb as (_&_&?). lia.
Qed.

(** ** Calls *)
Lemma no_contract s i d : inv1 s -> nfts (s_nft s) !! i = Some d -> rentable_state (nstate d) = true -> contracts (s_rent s) !! i = None.
Proof.
  intros HI Hd Hr. pose proof (i_view s HI i) as V. unfold view_ok in V. rewrite Hd in V. apply v_rented in V.
  unfold rentable_state in Hr. rewrite !andb_true_iff, !negb_true_iff in Hr. destruct Hr as [[[_ Hr] _] _]. rewrite Hr in V.
  symmetry in V. by apply isS_false.
Qed.
Lemma offered_not_running s i c l : inv1 s -> contracts (s_rent s) !! i = Some c -> offers (s_rent s) !! i = Some l -> r_rentee c = None.
Proof.
  intros HI Hc Ho. pose proof (i_view s HI i) as V. unfold view_ok in V. rewrite Hc in V.
  destruct (nfts (s_nft s) !! i); [|by apply vn_con in V]. destruct (v_con _ _ _ _ _ _ _ _ _ _ _ _ _ V c eq_refl) as (_&_&H&_).
  destruct (r_rentee c); [|done]. specialize (H eq_refl). congruence.
Qed.

Lemma rinv_kept s s' : s_now s' = s_now s -> s_rent s' = s_rent s -> rinv s -> rinv s'.
Proof. unfold rinv. by intros -> ->. Qed.
Lemma call_now s o c s' : is_mandate c = false -> exec_call o c s = (Ok tt, s') -> s_now s' = s_now s.
Proof. intros Hm He. pose proof (call_kept _ _ _ _ Hm He) as Hk. unfold kept in Hk. destruct (pallet_of c); by destruct Hk as [? _]. Qed.
Lemma call_rent_kept s o c s' : is_mandate c = false -> exec_call o c s = (Ok tt, s') -> pallet_of c <> PRent -> s_rent s' = s_rent s.
Proof.
  intros Hm He Hp. pose proof (call_kept _ _ _ _ Hm He) as Hk. unfold kept in Hk. destruct (pallet_of c); try done; destruct_and! Hk; done.
Qed.

Lemma cok_new who di acc cr fee cf1 cf2 now :
  0 < full_duration (to_duration di) <= duration_limit -> 0 < duration_or_period (to_duration di) <= duration_limit ->
  allows_rent_fee (to_duration di) fee = true -> allows_cancellation (to_duration di) cf1 = true -> allows_cancellation (to_duration di) cf2 = true ->
  zero_or_big (cf_amount cf1) -> zero_or_big (cf_amount cf2) -> cok now (mkContract None who None (to_duration di) acc cr fee cf1 cf2 now).
Proof. intros. constructor; cbn; try done; lia. Qed.

Lemma rinv_call s o c s' : config_ok -> inv1 s -> rinv s -> action_ok (Extrinsic o c) -> is_mandate c = false ->
  exec_call o c s = (Ok tt, s') -> rinv s'.
Proof.
  intros HC HI HR Ho Hm He. pose proof (call_now _ _ _ _ Hm He) as En.
  assert (pallet_of c = PRent \/ pallet_of c <> PRent) as [Hpal|Hpal] by (destruct (pallet_of c); auto).
  2: { eapply rinv_kept; [exact En|by eapply call_rent_kept|done]. }
  unfold rinv in *. rewrite En. clear En.
  destruct c; try discriminate Hpal; clear Hpal Hm; cbn [exec_call] in He; unfold signed in He; destruct o as [who| |]; try done; cbn [action_ok] in Ho.
  - apply rcreate_ok in He as (b&nd&Hd&_&Hr&Hz&H1&H2&H3&H4&H5&H6&H7&_&_&->). cbn [contracts queues].
    eapply (rok_put (s_now s) _ _ id (mkContract None who None (to_duration d) acc can_revoke fee renter_cf rentee_cf (s_now s))); [done| |by apply cok_new|done|done].
    by eapply no_contract.
  - apply rcancel_ok in He as (c&b1&Hc&_&Hr&_&_&->). cbn [contracts queues].
    eapply rok_del_avail; [done|exact Hc|]. rewrite (c_run _ _ (r_cok _ _ _ HR _ _ Hc)), Hr. done.
  - apply rrevoke_ok in He as (c&t&b1&b2&Hc&Hr&_&_&_&_&->). cbn [contracts queues].
    eapply rok_del_kind; [done|exact Hc|]. rewrite (c_run _ _ (r_cok _ _ _ HR _ _ Hc)), Hr. done.
  - apply rent_ok in He as (c&b1&b2&Hc&_&Hr&_&_&_&_&_&_&->). cbn [contracts queues].
    apply rok_start; [done|exact Hc|]. rewrite (c_run _ _ (r_cok _ _ _ HR _ _ Hc)), Hr. done.
  - apply roffer_ok in He as (c&_&_&_&_&_&_&_&_&_&->). exact HR.
  - apply raccept_ok in He as (c&l&b1&b2&Hc&Hl&_&_&_&_&_&->). cbn [contracts queues].
    apply rok_start; [done|exact Hc|]. rewrite (c_run _ _ (r_cok _ _ _ HR _ _ Hc)).
    by rewrite (offered_not_running _ _ _ _ HI Hc Hl).
  - apply rretract_ok in He as (l&k&_&_&_&->). exact HR.
  - apply rchange_ok in He as (c&ofs&Hc&_&Hadj&H1&H2&_&_&_&->). cbn [contracts queues].
    destruct (r_duration c) as [|sb] eqn:Ed; [done|].
    eapply rok_upd; [exact HR|exact Hc| |done|done|by rewrite Ed|done].
    pose proof (r_cok _ _ _ HR _ _ Hc) as [c1 c2 c3 c4 c5 c6 c7 c8 c9 c10]. rewrite Ed in *. constructor; try done.
  - apply raccterms_ok in He as (c&sb&Hc&Ed&_&_&Hfee&_&_&_&_&_&->). cbn [contracts queues].
    eapply rok_upd; [exact HR|exact Hc| |done|done|by rewrite Ed|done].
    pose proof (r_cok _ _ _ HR _ _ Hc) as [c1 c2 c3 c4 c5 c6 c7 c8 c9 c10]. rewrite Ed in *. constructor; try done.
Qed.

Lemma rescrow_del cs i c : cs !! i = Some c -> rescrow cs = rdue c + rescrow (delete i cs).
Proof. intros H. unfold rescrow. by apply msumf_delete. Qed.
Lemma rescrow_upd cs i c c' : cs !! i = Some c -> rescrow (<[i := c']> cs) + rdue c = rescrow cs + rdue c'.
Proof. intros H. unfold rescrow. by apply msumf_insert. Qed.

Lemma rpot_in : rent_pot ∈ pots.
Proof. unfold pots. right. left. Qed.

(** Starting a contract brings the rentee's deposit. *)
Lemma rsolv_start s id c t b1 b2 now : contracts (s_rent s) !! id = Some c -> r_rentee c = None -> rsolv s -> binv s -> t <> rent_pot ->
  transfer_b t (r_renter c) (tokens (r_rent_fee c)) true (s_bal s) = Ok b1 ->
  transfer_b t rent_pot (cf_amount (r_rentee_cf c)) true b1 = Ok b2 ->
  rescrow (<[id := c <| r_rentee := Some t |> <| r_start := Some now |>]> (contracts (s_rent s))) <= free b2 rent_pot.
Proof.
  intros Hc Hr HS HB Ht T1 T2. unfold rsolv in HS.
  pose proof (rescrow_upd _ id c (c <| r_rentee := Some t |> <| r_start := Some now |>) Hc) as E.
  unfold rdue in E. rewrite Hr in E. cbn [isS r_rentee r_renter_cf r_rentee_cf set] in E.
  assert (free (s_bal s) rent_pot <= free b1 rent_pot).
  { rewrite (transfer_free_other _ _ _ _ _ _ rent_pot T1) by done. lia. }
  rewrite (transfer_free_other _ _ _ _ _ _ rent_pot T2) by done. unfold at_acc. rewrite decide_True by done. lia.
Qed.

Lemma rsolv_call s o c s' : config_ok -> inv1 s -> binv s -> rinv s -> rsolv s -> action_ok (Extrinsic o c) ->
  is_mandate c = false -> exec_call o c s = (Ok tt, s') -> rsolv s'.
Proof.
  intros HC HI HB HR HS Ho Hm He. pose proof (rinv_call s o c s' HC HI HR Ho Hm He) as HR'.
  pose proof (whole_rescrow _ _ _ (ok_rent_ed HC) HR') as HW.
  pose proof rpot_in as Hrp.
  assert (Hpg : forall v, v <= free (s_bal s) rent_pot -> potge rent_pot v (s_bal s)).
  { intros v Hv. split; [apply HB|done]. }
  unfold rsolv in *.
  assert (pallet_of c = PRent \/ pallet_of c <> PRent) as [Hpal|Hpal] by (destruct (pallet_of c); auto).
  2: { rewrite (call_rent_kept _ _ _ _ Hm He Hpal).
       apply (pg_call rent_pot (rescrow (contracts (s_rent s))) o c s s'); [apply HC|done| |done|done|done|exact He|by apply Hpg].
       pose proof (pots_ne (ok_pots HC)) as (N1&N2&N3&N4&_). destruct (pallet_of c); cbn [pot_of]; congruence. }
  destruct c; try discriminate Hpal; clear Hpal Hm; cbn [exec_call] in He; unfold signed in He; destruct o as [who| |]; try done; cbn [action_ok] in Ho.
  all: assert (Hwp : who <> rent_pot) by (intros ->; done).
  - apply rcreate_ok in He as (b&nd&Hd&_&Hr&Hz&_&_&_&_&_&_&_&T&Eb&E). rewrite E, Eb in *. cbn [contracts].
    unfold rescrow. rewrite msumf_new by (by eapply no_contract). unfold rdue at 1. cbn [isS r_rentee r_renter_cf].
    rewrite (transfer_free_other _ _ _ _ _ _ rent_pot T) by done. unfold at_acc. rewrite decide_True by done. unfold rescrow in HS. lia.
  - apply rcancel_ok in He as (c&b1&Hc&_&Hr&T&Eb&E). rewrite E, Eb in *. cbn [contracts] in *.
    eapply rpot_pays; [exact T|exact HW|]. rewrite (rescrow_del _ _ _ Hc) in HS. unfold rdue in HS. lia.
  - apply rrevoke_ok in He as (c&t&b1&b2&Hc&Hr&_&HT1&HT2&Eb&E). rewrite E, Eb in *. cbn [contracts] in *.
    rewrite (rescrow_del _ _ _ Hc) in HS. unfold rdue in HS. rewrite Hr in HS. cbn [isS] in HS.
    set (R := rescrow _) in *. destruct HW as [->|HW]; [lia|].
    set (ir := r_renter c =? who) in *.
    assert (Hsum : cf_amount (if ir then r_rentee_cf c else r_renter_cf c) + cf_amount (if ir then r_renter_cf c else r_rentee_cf c) =
      cf_amount (r_renter_cf c) + cf_amount (r_rentee_cf c)) by (destruct ir; lia).
    eapply (rpot_pays _ _ _ _ _ (R + cf_amount (if ir then r_renter_cf c else r_rentee_cf c))) in HT1; [|right; lia|lia].
    destruct (cf_flexible _) as [full|] eqn:Ef.
    + destruct HT2 as (pc&bx&Hpc&T2&T3).
      assert (cf_amount (if ir then r_renter_cf c else r_rentee_cf c) = full) as Efull.
      { destruct (if ir then _ else _); try done. by injection Ef. }
      rewrite Efull in *.
      assert (permill_mul pc full <= full).
      { apply permill_mul_le. unfold percentage_of_completion in Hpc. destruct (r_start c); [|done]. destruct (_ =? 0); [done|].
        injection Hpc as <-. unfold permill_from_percent. clear. lia. }
      eapply (rpot_pays _ _ _ _ _ (R + (full - permill_mul pc full))) in T2; [|right; lia|lia].
      eapply (rpot_pays _ _ _ _ _ R) in T3; [done|by right|lia].
    + eapply (rpot_pays _ _ _ _ _ R) in HT2; [done|by right|lia].
  - apply rent_ok in He as (c&b1&b2&Hc&_&Hr&_&_&_&T1&T2&Eb&E). rewrite E, Eb in *. cbn [contracts].
    by eapply rsolv_start.
  - apply roffer_ok in He as (c&_&_&_&_&_&_&_&Eb&_&E). by rewrite E, Eb.
  - apply raccept_ok in He as (c&l&b1&b2&Hc&Hl&_&Ht&T1&T2&Eb&E). rewrite E, Eb in *. cbn [contracts].
    eapply rsolv_start; [done|by eapply offered_not_running|done|done| |done|done].
    pose proof (i_offers s HI _ _ Hl) as Hf. rewrite Forall_forall in Hf. intros ->. by apply (Hf _ Ht).
  - apply rretract_ok in He as (l&k&_&Eb&_&E). by rewrite E, Eb.
  - apply rchange_ok in He as (c&ofs&Hc&_&_&_&_&Eb&_&_&E). rewrite E, Eb. cbn [contracts].
    pose proof (rescrow_upd _ id c (c <| r_duration := Subscription (mkSub period (default duration_limit max_dur) changeable true) |> <| r_rent_fee := RentTokens fee |>) Hc) as Eq.
    unfold rdue in Eq. cbn [r_rentee r_renter_cf r_rentee_cf set] in Eq. lia.
  - apply raccterms_ok in He as (c&sb&Hc&_&_&_&_&_&_&_&Eb&_&E). rewrite E, Eb. cbn [contracts].
    pose proof (rescrow_upd _ id c (c <| r_duration := Subscription (sb <| new_terms := false |>) |>) Hc) as Eq.
    unfold rdue in Eq. cbn [r_rentee r_renter_cf r_rentee_cf set] in Eq. lia.
Qed.
End rsolv.
