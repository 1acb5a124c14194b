(** Nobody's tokens are taken without their consent; pallet accounts pay only their own
    pallet's obligations. *)
From Verif Require Export SpecTokens Pots RentFacts4.
Local Open Scope N_scope.

Section tokens.
Context {C : Config}.

Lemma pres_ge p v (m : M unit) s s' : pres (pg p v) m -> m s = (Ok tt, s') -> pg p v s -> pg p v s'.
Proof. intros H1 H2 H3. specialize (H1 s H3). by rewrite H2 in H1. Qed.

(** Root calls take from nobody. *)
Lemma pg_root p v c : is_mandate c = false -> pres (pg p v) (exec_call Root c).
Proof.
  intros Hm. destruct c; try discriminate Hm; cbn [exec_call]; unfold signed, root, external; repeat pot_step.
Qed.
Lemma pg_mandate p v c : forall o, is_mandate c = true -> pres (pg p v) (exec_call o c).
Proof.
  assert (H : forall c, pres (pg p v) (exec_call Root c)).
  { clear c. intros c. induction c; try (apply pg_root; done).
    cbn [exec_call]. unfold external. destruct (external_ok _); [|apply pres_fail].
    apply pres_bind; [apply pres_catch, pres_transactional, IHc|]. intros r. apply pres_modify. intros ? Hx; exact Hx. }
  intros o Hm. destruct c; try discriminate Hm. cbn [exec_call]. unfold external. destruct (external_ok _); [|apply pres_fail].
  apply pres_bind; [apply pres_catch, pres_transactional, H|]. intros r. apply pres_modify. intros ? Hx; exact Hx.
Qed.

(** A signed call takes from its signer, from an account whose offer is accepted, and from
    pallet accounts only. *)
Lemma pg_signed p v w c : p ∉ pots -> w <> p -> (forall i, c <> C_accept_rent_offer i p) ->
  is_mandate c = false -> pres (pg p v) (exec_call (Signed w) c).
Proof.
  intros Hp Hw Hacc Hm. unfold pots in Hp. rewrite !not_elem_of_cons in Hp. destruct Hp as (P1&P2&P3&P4&_).
  assert (auction_pot <> p) by congruence. assert (rent_pot <> p) by congruence. assert (tee_pot <> p) by congruence.
  destruct c; try discriminate Hm; cbn [exec_call]; unfold signed, root, external.
  all: try (assert (rentee <> p) by (intros ->; by apply (Hacc id))).
  all: repeat pot_step.
Qed.

Lemma reachable_pg s p : reachable s -> pg p (free (s_bal s) p) s.
Proof. intros Hs. split; [|lia]. apply (reachable_binv s Hs). Qed.
Lemma pg_le p v s : pg p v s -> v <= free (s_bal s) p.
Proof. by intros [_ H]. Qed.
Lemma step_extrinsic_pg p v s o c : pres (pg p v) (exec_call o c) -> pg p v s -> pg p v (step s (Extrinsic o c)).
Proof.
  intros H Hs. cbn [step]. destruct (dispatch_cases o c s) as [(s'&Hw&He&->)|[e ->]]; cbn [snd]; [|done]. by eapply pres_ge.
Qed.

(** The part of a block before and after the rent work. *)
Lemma pg_hook_any p v h s : p ∉ pots -> h <> HookRent -> pg p v s -> pg p v (snd (run_hook h s)).
Proof.
  intros Hp Hh Hs. unfold pots in Hp. rewrite !not_elem_of_cons in Hp. destruct Hp as (P1&P2&P3&P4&_).
  assert (auction_pot <> p) by congruence.
  destruct h; cbn [run_hook]; try done; revert s Hs.
  - change (pres (pg p v) auction_on_initialize). apply pres_auction_hook; [|intros ? ? H0; exact H0]. intros id. repeat pot_step.
  - change (pres (pg p v) trans_on_initialize). apply pres_trans_hook; [| |intros ? ? H0; exact H0]; intros; repeat pot_step.
  - change (pres (pg p v) tee_on_initialize). repeat pot_step.
Qed.
Lemma pg_hooks p v l s : p ∉ pots -> HookRent ∉ l -> pg p v s -> pg p v (fold_left (fun s h => snd (run_hook h s)) l s).
Proof.
  intros Hp. revert s. induction l as [|h l IH]; intros s Hl Hs; cbn [fold_left]; [done|].
  apply not_elem_of_cons in Hl as [Hh Hl]. apply IH; [done|]. by apply pg_hook_any.
Qed.

(** The fees an account pays at the start of a block. *)
Definition renewals (s s' : state) (w : N) (l : list N) : list (N * N) :=
  flat_map (fun i => match contracts (s_rent s) !! i, contracts (s_rent s') !! i with
    | Some c, Some _ => if decide (r_rentee c = Some w) then [(i, token_fee (r_rent_fee c))] else []
    | _, _ => [] end) l.
Lemma renewals_sum s s' w l : w <> rent_pot -> sum_of (map (pays_by s s' w) l) = sum_of ((renewals s s' w l).*2).
Proof.
  intros Hw. unfold renewals. induction l as [|i l IH]; [done|]. cbn [map flat_map]. rewrite fmap_app, sum_of_app, <- IH.
  cbn [sum_of fold_right]. f_equal. unfold pays_by. destruct (contracts (s_rent s) !! i) as [c|]; [|done].
  destruct (contracts (s_rent s') !! i) as [c'|].
  - unfold renew_pays. destruct (r_rentee c) as [t|]; [|by destruct (decide (None = Some w))].
    unfold at_acc. destruct (decide (Some t = Some w)) as [[= ->]|Hne]; destruct (decide (w = _)); try congruence; cbn; lia.
  - unfold end_pays, at_acc. by rewrite decide_False.
Qed.
Lemma renewals_in s s' w l i fee : (i, fee) ∈ renewals s s' w l -> i ∈ l /\ exists c c', contracts (s_rent s) !! i = Some c /\
  contracts (s_rent s') !! i = Some c' /\ r_rentee c = Some w /\ fee = token_fee (r_rent_fee c).
Proof.
  intros H. unfold renewals in H. apply elem_of_list_In, in_flat_map in H as (j&Hj&H). apply elem_of_list_In in Hj.
  destruct (contracts (s_rent s) !! j) as [c|] eqn:E1; [|done]. destruct (contracts (s_rent s') !! j) as [c'|] eqn:E2; [|done].
  destruct (decide _) as [Hd|]; [|done]. destruct H as [H|[]]. injection H as <- <-. eauto 10.
Qed.
Lemma renewals_nodup s s' w l : NoDup l -> NoDup ((renewals s s' w l).*1).
Proof.
  induction 1 as [|i l Hi Hl IH]; [constructor|]. unfold renewals. cbn [flat_map]. rewrite fmap_app. apply NoDup_app. split_and!.
  - destruct (contracts (s_rent s) !! i); [|constructor]. destruct (contracts (s_rent s') !! i); [|constructor].
    destruct (decide _); [|constructor]. cbn. apply NoDup_singleton.
  - intros j Hj Hj2. assert (j = i) as ->.
    { destruct (contracts (s_rent s) !! i); [|by apply elem_of_nil in Hj]. destruct (contracts (s_rent s') !! i); [|by apply elem_of_nil in Hj].
      destruct (decide _); [|by apply elem_of_nil in Hj]. by apply elem_of_list_singleton in Hj. }
    apply elem_of_list_fmap in Hj2 as ([j fee]&->&Hj2). apply renewals_in in Hj2 as [Hj2 _]. done.
  - exact IH.
Qed.

Lemma block_pays s w : config_ok -> reachable s -> w ∉ pots ->
  exists l, NoDup (l.*1) /\ (forall i fee, (i, fee) ∈ l -> owes s w i fee) /\
    free (s_bal s) w <= free (s_bal (next_block s)) w + sum_of (l.*2).
Proof.
  intros HC Hs Hw. destruct (turn_exists HookRent s HC) as (t&t'&Ht).
  destruct (fact_rent_turn s t t' HC Hs Ht) as (Hnow&Er&En&l0&Heff&Hdue&Hre&_).
  assert (Hrp : w <> rent_pot) by (intros ->; apply Hw; unfold pots; set_solver).
  exists (renewals t t' w l0). split_and!.
  - apply renewals_nodup, (re_nodup _ _ _ Heff).
  - intros i fee Hi. apply renewals_in in Hi as (Hi&c&c'&Hc&Hc'&Hr&->).
    destruct (re_in _ _ _ Heff i Hi) as (c0&Hc0&[Hn|Hk]); [congruence|]. assert (c0 = c) as -> by congruence.
    assert (c' = c) as -> by congruence. destruct (Hre i c Hi Hc') as (_&Hopen&Hov&(x&Hx)&_). destruct (Hdue i Hi) as (b&Hb&Hle).
    rewrite Er in Hc. destruct (reachable_rent s HC Hs) as [HR _]. pose proof (c_fee _ _ (r_cok _ _ _ HR _ _ Hc)) as Hf.
    exists c, b, x. split_and!; try done.
    + rewrite Hx in Hf. destruct (r_rent_fee c); done.
    + rewrite Hx in Hopen. cbn in Hopen. by destruct (new_terms x).
  - rewrite <- renewals_sum by done. pose proof (re_bal _ _ _ Heff w (or_introl Hrp)) as Hb.
    destruct Ht as (l1&l2&El&Et&Et'). pose proof (reachable_pg s w Hs) as Hp.
    assert (Hnd : NoDup hook_order). { rewrite (ok_hooks HC). repeat (apply NoDup_cons; split; [set_solver|]). apply NoDup_nil_2. }
    rewrite El in Hnd. apply NoDup_app in Hnd as (_&Hd&Hnd). apply NoDup_cons in Hnd as [Hl2 _].
    assert (Hl1 : HookRent ∉ l1). { intros H. apply (Hd _ H). by left. }
    assert (P1 : pg w (free (s_bal s) w) t). { rewrite Et. apply pg_hooks; done. }
    assert (P2 : pg w (free (s_bal t') w) (next_block s)).
    { unfold next_block, run_hooks. rewrite El, fold_left_app. cbn [fold_left]. rewrite <- Et, <- Et'. apply pg_hooks; [done|done|].
      split; [|lia]. assert (Hst : sreach t'). { rewrite Et', Et. apply sr_hook, sreach_hooks, sr_tick. by apply reachable_sreach. }
      apply (sreach_binv _ Hst). }
    apply pg_le in P1, P2. lia.
Qed.

(** The environment takes from the account it names. *)
Lemma env_pays s e w : w ∉ pots -> ~ env_takes e w -> forall v, pg w v s -> pg w v (step s (Env e)).
Proof.
  intros Hw Hne v Hv. cbn [step]. destruct (transactional_cases (run_env e) s) as [(s2&Hok&->)|(x&s2&_&->)]; cbn [snd]; [|done].
  unfold pots in Hw. rewrite !not_elem_of_cons in Hw. destruct Hw as (P1&P2&P3&P4&_). assert (staking_pot <> w) by congruence.
  cut (pres (pg w v) (run_env e)); [intros H0; by eapply pres_ge|]. clear Hok Hv s s2.
  destruct e; cbn [run_env env_takes] in *; unfold burn_from, charge_fee, era_payout; repeat pot_step.
  all: try (apply pres_modify; intros t Ht; first [destruct (_ !! _); exact Ht|destruct (s_era t); [destruct (_ <? _)|]; exact Ht]).
  all: unfold pg in *; st_cbn; try assumption.
  eapply withdraw_potge; [|eassumption|eassumption]. pot_ne.
Qed.

Lemma pg_other p v n c : is_mandate c = false -> pres (pg p v) (exec_call (OtherOrigin n) c).
Proof.
  intros Hm. destruct c; try discriminate Hm; cbn [exec_call]; unfold signed, root, external; repeat pot_step.
Qed.

Lemma fact_consent s a w : config_ok -> reachable s -> w ∉ pots ->
  free (s_bal (step s a)) w < free (s_bal s) w ->
  (exists c, a = Extrinsic (Signed w) c) \/
  (exists i c, contracts (s_rent s) !! i = Some c /\ r_rentee c = None /\
     a = Extrinsic (Signed (r_renter c)) (C_accept_rent_offer i w) /\ offered s i w /\
     free (s_bal s) w <= free (s_bal (step s a)) w + token_fee (r_rent_fee c) + token_deposit (r_rentee_cf c)) \/
  (a = NextBlock /\ exists l, l <> [] /\ NoDup (l.*1) /\ (forall i fee, (i, fee) ∈ l -> owes s w i fee) /\
     free (s_bal s) w <= free (s_bal (step s a)) w + sum_of (l.*2)) \/
  (exists e, a = Env e /\ env_takes e w).
Proof.
  intros HC Hs Hw Hlt. pose proof (reachable_pg s w Hs) as Hp. destruct a as [o c| |e].
  - destruct (is_mandate c) eqn:Hm.
    { apply (step_extrinsic_pg w _ s o c (pg_mandate w _ c o Hm)), pg_le in Hp. lia. }
    destruct o as [|x|n].
    + exfalso. apply (step_extrinsic_pg w _ s _ c (pg_root w _ c Hm)), pg_le in Hp. lia.
    + destruct (decide (x = w)) as [->|Hx]; [left; eauto|].
      assert (Hacc : (exists i, c = C_accept_rent_offer i w) \/ forall i, c <> C_accept_rent_offer i w).
      { destruct c; try (right; intros ?; discriminate).
        match goal with |- context [C_accept_rent_offer _ ?r = _] => destruct (decide (r = w)) as [->|] end; [left; eauto|right; intros ? [=]; congruence]. }
      destruct Hacc as [[i ->]|Hacc].
      * right; left. clear Hp. revert Hlt. cbn [step]. destruct (dispatch_cases (Signed x) (C_accept_rent_offer i w) s) as [(s'&Hwf&He&Hd)|[e Hd]];
          rewrite Hd; cbn [snd]; [|lia]. intros Hlt.
        destruct (fact_accept_charges s x i w s' Hs Hd) as (c&Hc&Hn&Hr&Ho&_&Hb). exists i, c. subst x. split_and!; try done.
        specialize (Hb w). unfold pays2, at_acc in Hb.
        assert (w <> rent_pot) by (intros ->; apply Hw; unfold pots; set_solver).
        repeat match type of Hb with context [decide ?P] => destruct (decide P) end; try congruence; lia.
      * exfalso. assert (Hpr := pg_signed w (free (s_bal s) w) x c Hw Hx Hacc Hm).
        apply (step_extrinsic_pg w _ s _ c Hpr), pg_le in Hp. lia.
    + exfalso. apply (step_extrinsic_pg w _ s _ c (pg_other w _ n c Hm)), pg_le in Hp. lia.
  - right; right; left. split; [done|]. cbn [step] in *. destruct (block_pays s w HC Hs Hw) as (l&Hn&Hl&Hb). exists l. split_and!; try done.
    intros ->. cbn in Hb. lia.
  - right; right; right. exists e. split; [done|].
    assert (Hd : env_takes e w \/ ~ env_takes e w).
    { destruct e; cbn [env_takes]; first [right; intros []; fail|match goal with |- ?x = w \/ _ => destruct (decide (x = w)); auto end]. }
    destruct Hd as [|Hn]; [done|exfalso]. apply (env_pays s e w Hw Hn), pg_le in Hp. lia.
Qed.

(** Pallet accounts. *)
Lemma pg_pot_call p v o c s s' : p ∈ pots -> pays_from c <> Some p -> inv1 s ->
  action_ok (Extrinsic o c) -> is_mandate c = false -> exec_call o c s = (Ok tt, s') -> pg p v s -> pg p v s'.
Proof.
  intros Hp Hne HI Ha Hm He Hg.
  assert (Hpr : forall m : M unit, pres (pg p v) m -> m s = (Ok tt, s') -> pg p v s').
  { intros m H1 H2. specialize (H1 s Hg). by rewrite H2 in H1. }
  destruct (match c with C_accept_rent_offer _ _ => true | _ => false end) eqn:Hacc.
  - destruct c; try discriminate Hacc. cbn [exec_call] in He. unfold signed in He. destruct o as [who| |]; try done. cbn [action_ok] in Ha.
    unfold accept_rent_offer in He. do 6 mstep He.
    assert (Hr : rentee ∉ pots).
    { pose proof (i_offers s HI id x0 U0) as Hl. rewrite Forall_forall in Hl. apply Hl. by apply memN_iff. }
    revert He. apply Hpr. repeat pot_step.
  - revert He. apply Hpr. clear Hpr Hg.
    assert (Hne' : forall q, pays_from c = Some q -> q <> p) by (intros q Hq ->; congruence).
    destruct c; try discriminate Hm; try discriminate Hacc; clear Hm Hacc Hne; cbn [exec_call pays_from] in *; unfold signed, root, external.
    all: try (specialize (Hne' _ eq_refl)).
    all: try (destruct o; cbn [action_ok] in Ha).
    all: repeat pot_step.
Qed.
Lemma pg_pot_env p v e s s' : p ∈ pots -> (e = EnvEraPayout -> p <> staking_pot) -> action_ok (Env e) -> run_env e s = (Ok tt, s') ->
  pg p v s -> pg p v s'.
Proof.
  intros Hp Hst Ha He Hs. cut (pres (pg p v) (run_env e)); [intros H; specialize (H s Hs); by rewrite He in H|]. clear He Hs s s'.
  destruct e; cbn [run_env action_ok] in *; try specialize (Hst eq_refl); unfold burn_from, charge_fee, era_payout; repeat pot_step.
  all: try (apply pres_modify; intros t Ht; first [destruct (_ !! _); exact Ht|destruct (s_era t); [destruct (_ <? _)|]; exact Ht]).
  all: unfold pg in *; st_cbn; try assumption.
  - eapply withdraw_potge; [|eassumption|eassumption]. pot_ne.
Qed.
Lemma pg_pot_hook p v h s : NoDup pots -> p ∈ pots -> p <> auction_pot -> p <> rent_pot -> inv1 s -> pg p v s -> pg p v (snd (run_hook h s)).
Proof.
  intros Hnd Hp H1 H2 HI Hs. destruct h; try (apply pg_hook; try done; cbn [hook_pallet pot_of]; congruence).
  cbn [run_hook]. revert s HI Hs. cut (pres (pg p v) tee_on_initialize); [eauto|]. repeat pot_step.
Qed.

Lemma fact_pots s a p : config_ok -> reachable s -> action_ok a -> p ∈ pots ->
  free (s_bal (step s a)) p < free (s_bal s) p ->
  (exists w c, a = Extrinsic (Signed w) c /\ pays_from c = Some p) \/
  (a = NextBlock /\ (p = auction_pot \/ p = rent_pot)) \/
  (a = Env EnvEraPayout /\ p = staking_pot).
Proof.
  intros HC Hs Ha Hp Hlt. pose proof (reachable_pg s p Hs) as Hg. destruct a as [o c| |e].
  - left. destruct (is_mandate c) eqn:Hm.
    { apply (step_extrinsic_pg p _ s o c (pg_mandate p _ c o Hm)), pg_le in Hg. lia. }
    destruct o as [|x|n].
    + exfalso. apply (step_extrinsic_pg p _ s _ c (pg_root p _ c Hm)), pg_le in Hg. lia.
    + exists x, c. split; [done|]. destruct (decide (pays_from c = Some p)) as [|Hne]; [done|exfalso].
      cbn [step] in Hlt. destruct (dispatch_cases (Signed x) c s) as [(s'&Hwf&He&Hd)|[e Hd]]; rewrite Hd in Hlt; cbn [snd] in Hlt; [|lia].
      apply (pg_pot_call p _ (Signed x) c s s' Hp Hne (reachable_inv1 s Hs) Ha Hm He), pg_le in Hg. lia.
    + exfalso. apply (step_extrinsic_pg p _ s _ c (pg_other p _ n c Hm)), pg_le in Hg. lia.
  - right; left. split; [done|]. destruct (decide (p = auction_pot)) as [|H1]; [by left|]. destruct (decide (p = rent_pot)) as [|H2]; [by right|].
    exfalso. cbn [step] in Hlt.
    assert (H : forall l t, sreach t -> pg p (free (s_bal s) p) t -> pg p (free (s_bal s) p) (fold_left (fun s h => snd (run_hook h s)) l t)).
    { intros l. induction l as [|h l IH]; intros t Ht Hgt; cbn [fold_left]; [done|]. apply IH; [by apply sr_hook|].
      apply pg_pot_hook; try done; [apply HC|by apply sreach_inv1]. }
    assert (Hn : pg p (free (s_bal s) p) (next_block s)).
    { unfold next_block, run_hooks. apply H; [apply sr_tick; by apply reachable_sreach|]. exact Hg. }
    apply pg_le in Hn. lia.
  - right; right. cbn [step] in Hlt.
    assert (Hd : e = EnvEraPayout \/ e <> EnvEraPayout) by (destruct e; auto; right; discriminate).
    destruct (transactional_cases (run_env e) s) as [(s2&Hok&Ht)|(x&s2&_&Ht)]; rewrite Ht in Hlt; cbn [snd] in Hlt; [|lia].
    destruct Hd as [->|Hd].
    + split; [done|]. destruct (decide (p = staking_pot)) as [|Hne]; [done|exfalso].
      apply (pg_pot_env p _ EnvEraPayout s s2 Hp (fun _ => Hne) Ha Hok), pg_le in Hg. lia.
    + exfalso. apply (pg_pot_env p _ e s s2 Hp (fun H => False_ind _ (Hd H)) Ha Hok), pg_le in Hg. lia.
Qed.
End tokens.
