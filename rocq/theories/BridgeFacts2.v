(** Rewards, mandate, supply, and hooks. *)
From Verif Require Export BridgeFacts.
Local Open Scope N_scope.

Section facts.
Context {C : Config}.

(** What a step does to the waiting fees. *)
Lemma charge_ok w f t au s s' : charge_fee w f t au s = (Ok tt, s') ->
  exists b1, withdraw_b w (f + t) true (s_bal s) = Ok b1 /\
    s_srw s' = s_srw s <| session_era_payout := sadd (waiting_fees s) f |> /\
    s_bal s' = match au with Some a => resolve_creating_b a t (burn_b f b1) | None => burn_b t (burn_b f b1) end.
Proof.
  intros H. unfold charge_fee, on_unbalanceds in H. cbn [on_some] in H. destruct au as [a|].
  all: minv H; subst s'; st_cbn; eauto.
Qed.
Lemma env_waiting e s s' : run_env e s = (Ok tt, s') ->
  match e with
  | EnvFee _ f _ _ => waiting_fees s' = sadd (waiting_fees s) f
  | EnvEraPayout => waiting_fees s' = 0
  | _ => waiting_fees s' = waiting_fees s
  end.
Proof.
  unfold waiting_fees. destruct e; cbn [run_env]; intros H.
  - minv H. by subst s'.
  - unfold burn_from in H. minv H. by subst s'.
  - minv H. by subst s'.
  - minv H. subst s'. by destruct (_ !! _).
  - minv H. by subst s'.
  - minv H. subst s'. destruct (s_era s); [destruct (_ <? _)|]; done.
  - apply charge_ok in H as (b1&_&->&_). done.
  - unfold era_payout, bind, gets, mod_srw, modify, free_balance, catch, lift_bal, ret in H. cbn in H.
    destruct (_ =? 0); [by injection H as <-|]. destruct (withdraw_b _ _ _ _); by injection H as <-.
Qed.
Lemma step_waiting s a : 
  match a with
  | Env (EnvFee w f t au) => waiting_fees (step s a) = match fst (run_env (EnvFee w f t au) s) with Ok _ => sadd (waiting_fees s) f | Err _ => waiting_fees s end
  | Env EnvEraPayout => True
  | _ => waiting_fees (step s a) = waiting_fees s
  end.
Proof.
  destruct (step_runs s a) as [(o&c&s1&Hr&Hm&He&l&Hl)|[[l Hl]|[->|(e&s'&->&He&Hs)]]].
  - assert (waiting_fees (step s a) = waiting_fees s) as E.
    { rewrite Hl. unfold waiting_fees. cbn. pose proof (call_kept _ _ _ _ Hm He) as Hk. unfold kept in Hk.
      destruct c; try discriminate Hm; cbn [pallet_of] in Hk; try (by destruct_and! Hk; congruence).
      cbn [exec_call] in He. unfold external in He. destruct (external_ok o); [|done]. unfold set_session_extra_reward_payout in He. minv He. by subst s1. }
    destruct a; try done. by inversion Hr.
  - assert (waiting_fees (step s a) = waiting_fees s) as E by (rewrite Hl; done).
    destruct a as [| |e]; try done. destruct e; try done. rewrite E. cbn [step] in E. 
    destruct (transactional_cases (run_env (EnvFee who fee tip author)) s) as [(s2&Hok&Ht)|(x&s2&Herr&Ht)].
    + rewrite Ht in E. cbn [snd] in E. rewrite <- E at 1. rewrite Hok. cbn [fst]. by apply env_waiting in Hok.
    + by rewrite Herr.
  - cbn [step]. unfold next_block, run_hooks, waiting_fees.
    assert (H : forall l t, s_srw t = s_srw s -> s_srw (fold_left (fun s h => snd (run_hook h s)) l t) = s_srw s).
    { induction l as [|h l IH]; intros t Ht; [done|]. cbn [fold_left]. apply IH. rewrite <- Ht. pose proof (hook_kept h t) as Hk. unfold kept in Hk.
      destruct h; cbn [hook_pallet] in Hk; by destruct_and! Hk. }
    by rewrite H.
  - rewrite Hs. pose proof (env_waiting e s s' He) as H. destruct e; try done. by rewrite He.
Qed.
Definition srw_fit (s : state) : Prop := waiting_fees s <= u128_max.
Lemma reachable_srw s : reachable s -> srw_fit s.
Proof.
  induction 1 as [s Hs|s a Hs IH Ha]; unfold srw_fit in *.
  - destruct Hs as (now&era&bal&lk&->&_). unfold waiting_fees. cbn. apply N.le_0_l.
  - pose proof (step_waiting s a) as H. destruct a as [o c| |e]; try (by rewrite H). destruct e; try (by rewrite H).
    + rewrite H. destruct (fst _); [|done]. unfold sadd. lia.
    + cbn [step]. destruct (transactional_cases (run_env EnvEraPayout) s) as [(s2&Hok&Ht)|(x&s2&Herr&Ht)]; rewrite Ht; cbn [snd]; [|done].
      apply env_waiting in Hok. lia.
Qed.

(** *** C68 *)
Lemma staking_pot_in : staking_pot ∈ pots.
Proof. unfold pots. set_solver. Qed.
Lemma era_ok s : reachable s -> exists b dust,
  era_payout s = (Ok (wadd (waiting_fees s) (pot_part s), 0), s <| s_bal := b |> <| s_srw ::= fun x => x <| session_era_payout := 0 |> |>) /\
  (dust = 0 \/ (dust < ed /\ free b staking_pot = 0)) /\
  (forall a, free b a + at_acc staking_pot a (pot_part s + dust) = free (s_bal s) a) /\
  issuance b + pot_part s + dust = issuance (s_bal s).
Proof.
  intros Hs. pose proof (reachable_binv s Hs) as Hb. unfold binv in Hb. pose proof (pot_unfrozen s _ (reachable_sreach s Hs) staking_pot_in) as Hfr.
  pose proof (reachable_srw s Hs) as Hfit. unfold srw_fit in Hfit.
  unfold era_payout. unfold bind, gets, free_balance, mod_srw, modify. cbn. unfold ret.
  fold (pot_part s). fold (waiting_fees s). destruct (pot_part s =? 0) eqn:E0.
  - apply N.eqb_eq in E0. rewrite E0. exists (s_bal s), 0. split; [|split; [by left|split; [|lia]]].
    + unfold wadd. rewrite N.add_0_r, N.mod_small by lia. by destruct s.
    + intros a. unfold at_acc. destruct (decide _); lia.
  - apply N.eqb_neq in E0. unfold catch, lift_bal. cbn.
    assert (Hle : pot_part s <= free (s_bal s) staking_pot) by (unfold pot_part; lia).
    assert (Hw : exists b1, withdraw_b staking_pot (pot_part s) false (s_bal s) = Ok b1).
    { unfold withdraw_b. rewrite (proj2 (N.eqb_neq _ _) E0). rewrite (proj2 (N.ltb_ge _ _) Hle). cbn [andb]. unfold has_lock. rewrite Hfr. cbv zeta.
      rewrite (proj2 (N.ltb_ge _ _) (N.le_0_l _)). eauto. }
    destruct Hw as (b1&Hw). rewrite Hw. cbn. exists (burn_b (pot_part s) b1).
    destruct (withdraw_effect _ _ _ _ _ _ Hb Hw) as (_&dust&Hdu&Hf&Hi). exists dust. split; [done|].
    split; [destruct Hdu as [?|(_&?&?)]; [by left|by right]|]. split; [exact Hf|].
    pose proof (bsum_le b1 _ staking_pot (withdraw_bsum _ _ _ _ _ _ Hb Hw)). unfold burn_b. st_cbn. lia.
Qed.
Lemma fact_era s : reachable s -> waiting_fees s + pot_part s <= u128_max ->
  exists s' dust, era_payout s = (Ok (waiting_fees s + pot_part s, 0), s') /\
    waiting_fees s' = 0 /\ session_extra (s_srw s') = session_extra (s_srw s) /\
    (dust = 0 \/ (dust < ed /\ free (s_bal s') staking_pot = 0)) /\
    free (s_bal s') staking_pot + pot_part s + dust = free (s_bal s) staking_pot /\
    (forall a, a <> staking_pot -> free (s_bal s') a = free (s_bal s) a) /\
    issuance (s_bal s') + pot_part s + dust = issuance (s_bal s) /\
    (exists b w, s' = s <| s_bal := b |> <| s_srw := w |>).
Proof.
  intros Hs Hfit. destruct (era_ok s Hs) as (b&dust&He&Hdu&Hf&Hi). eexists _, dust.
  split. { rewrite He. unfold wadd. rewrite N.mod_small by lia. reflexivity. }
  split; [done|]. split; [done|]. split; [done|]. split. { specialize (Hf staking_pot). unfold at_acc in Hf. rewrite decide_True in Hf by done. cbn. lia. }
  split. { intros a Ha. specialize (Hf a). unfold at_acc in Hf. rewrite decide_False in Hf by done. cbn. lia. }
  split; [done|]. eexists _, _. by destruct s.
Qed.

(** *** C67 *)
Lemma collected_app s l1 l2 : collected s (l1 ++ l2) = collected s l1 + collected (after s l1) l2.
Proof.
  revert s. induction l1 as [|a l1 IH]; intros s; [done|]. cbn [app collected]. rewrite IH. unfold after. cbn [fold_left]. lia.
Qed.
Lemma paid_app s l1 l2 : paid_out s (l1 ++ l2) = paid_out s l1 + paid_out (after s l1) l2.
Proof.
  revert s. induction l1 as [|a l1 IH]; intros s; [done|]. cbn [app paid_out]. rewrite IH. unfold after. cbn [fold_left]. lia.
Qed.
Lemma fact_fees s0 acts : genesis s0 -> Forall action_ok acts ->
  (forall l1 l2, acts = l1 ++ l2 -> collected s0 l1 + issuance (s_bal (after s0 l1)) <= u128_max) ->
  paid_out s0 acts + waiting_fees (after s0 acts) = collected s0 acts.
Proof.
  intros H0. induction acts as [|a acts IH] using rev_ind; intros Hacts Hmax.
  - destruct H0 as (now&era&bal&lk&->&_). done.
  - apply acts_snoc in Hacts as [Hacts Ha]. assert (Hmax' : forall l1 l2, acts = l1 ++ l2 -> collected s0 l1 + issuance (s_bal (after s0 l1)) <= u128_max).
    { intros l1 l2 ->. apply (Hmax l1 (l2 ++ [a])). by rewrite app_assoc. }
    specialize (IH Hacts Hmax'). rewrite paid_app, collected_app, after_snoc. set (s := after s0 acts) in *.
    assert (Hs : reachable s) by (apply after_reachable; [by apply reach_init|done]).
    pose proof (Hmax (acts ++ [a]) [] (eq_sym (app_nil_r _))) as HM. rewrite collected_app in HM. fold s in HM.
    pose proof (Hmax' acts [] (eq_sym (app_nil_r _))) as HM'. fold s in HM'.
    cbn [paid_out collected]. cbn [collected] in HM. fold (waiting_fees (step s a)). fold (waiting_fees s) in IH.
    pose proof (step_waiting s a) as Hw.
    assert (Hsame : waiting_fees (step s a) = waiting_fees s -> fee_part s a = 0 -> fee_of s a = 0 ->
      paid_out s0 acts + (fee_part s a + 0) + waiting_fees (step s a) = collected s0 acts + (fee_of s a + 0)) by (intros -> -> ->; lia).
    destruct a as [o c| |e]; [by apply Hsame..|]. destruct e; try (by apply Hsame).
    + rewrite Hw. cbn [fee_part fee_of] in *. destruct (fst (run_env _ s)); [|lia]. unfold sadd. lia.
    + clear Hsame Hw. destruct (era_ok s Hs) as (b&dust&He&_&_&Hi). 
      assert (pot_part s <= issuance (s_bal s)). { lia. }
      assert (Es : waiting_fees (step s (Env EnvEraPayout)) = 0).
      { cbn [step run_env]. unfold transactional, bind. rewrite He. done. }
      rewrite Es. cbn [fee_part fee_of]. unfold era_result. rewrite He. cbn [fst]. unfold wadd. rewrite N.mod_small by lia. lia.
Qed.
Lemma fact_fee_effect s w f t au s' : reachable s -> run_env (EnvFee w f t au) s = (Ok tt, s') ->
  f + t <= free (s_bal s) w /\
  exists got, (got = t \/ got = 0) /\
    (forall k, au = Some k -> free (s_bal s) k <> 0 \/ ed <= t -> got = t) /\ (au = None -> got = 0) /\
    (forall a, free (s_bal s') a + at_acc w a (f + t) = free (s_bal s) a + (if decide (au = Some a) then got else 0)) /\
    issuance (s_bal s') + f + t = issuance (s_bal s) + got.
Proof.
  intros Hs H. cbn [run_env] in H. apply charge_ok in H as (b1&Hw&_&Hb'). pose proof (reachable_binv s Hs) as Hb. unfold binv in Hb.
  pose proof (withdraw_bsum _ _ _ _ _ _ Hb Hw) as Hb1. destruct (withdraw_effect _ _ _ _ _ _ Hb Hw) as (Hle&dust&Hdu&Hf&Hi). split; [done|].
  destruct Hdu as [->|[? _]]; [|done]. rewrite N.add_0_r in Hf, Hi. pose proof (bsum_le b1 _ w Hb1) as Hle1.
  assert (Hb2 : bsum (burn_b f b1) (0 + t)). { apply burn_bsum. by replace (0 + t + f) with (0 + (f + t)) by lia. }
  assert (Hff : forall a, free (burn_b f b1) a = free b1 a) by done. assert (Hii : issuance (burn_b f b1) + f = issuance b1) by (unfold burn_b; st_cbn; lia).
  rewrite Hb'. destruct au as [k|].
  - destruct (resolve_effect k t (burn_b f b1) 0 Hb2) as (_&H1&H2).
    assert (free b1 k <> 0 \/ ed <= t \/ (free b1 k = 0 /\ t < ed)) as [Hc|[Hc|[Hc1 Hc2]]] by lia.
    1, 2: destruct H1 as [H1 H3]; [by auto|]; exists t; split; [by left|]; split; [done|]; split; [done|]; split; [|lia];
      intros a; rewrite H1, Hff, <- (Hf a); unfold at_acc at 1; destruct (decide (Some k = Some a)) as [[= ->]|Hne];
        [rewrite decide_True by done; lia|rewrite decide_False by congruence; lia].
    destruct (H2 Hc1 Hc2) as [H3 H4]. exists 0. split; [by right|]. split.
    + intros k0 [= <-] [Hk|]; [|lia]. specialize (Hf k). rewrite Hc1 in Hf. unfold at_acc in Hf. destruct (decide (k = w)) as [->|]; [|lia]. 
      destruct (bsum_ed (s_bal s) 0 w Hb); [lia|]. destruct (decide (f + t = 0)); [lia|].
      pose proof (withdraw_alive _ _ _ _ _ Hb Hw n). lia.
    + split; [done|]. split; [|lia]. intros a. rewrite H3, Hff, <- (Hf a). destruct (decide _); lia.
  - exists 0. split; [by right|]. split; [done|]. split; [done|]. split; [intros a; rewrite <- (Hf a); rewrite decide_False by done; unfold burn_b, free; cbn; lia|].
    unfold burn_b. st_cbn. lia.
Qed.

(** *** C69 *)
Lemma fact_mandate o c s :
  (external_ok o = false -> dispatch o (C_mandate c) s = (Err (if wf_call c then BadOrigin else DecodeError), s)) /\
  (external_ok o = true -> wf_call c = true ->
     dispatch o (C_mandate c) s = match dispatch Root c s with
       | (Ok _, s1) => (Ok tt, s1 <| s_events ::= cons (Ev_RootOp None) |>)
       | (Err e, _) => (Ok tt, s <| s_events ::= cons (Ev_RootOp (Some e)) |>)
       end).
Proof.
  unfold dispatch. cbn [wf_call]. split.
  - intros He. destruct (wf_call c); [|done]. unfold transactional. cbn [exec_call]. unfold external. by rewrite He.
  - intros He Hw. rewrite Hw. unfold transactional at 1. cbn [exec_call]. unfold external. rewrite He. unfold bind, catch, emit, modify.
    unfold transactional. destruct (exec_call Root c s) as [[[]|e] s1]; done.
Qed.
End facts.
