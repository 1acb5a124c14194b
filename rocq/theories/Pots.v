(** Nobody but its own pallet takes money out of a pallet account. *)
From Verif Require Export MktFacts.
Local Open Scope N_scope.

Section pots.
Context {C : Config}.

(** Every account holds at least the existential deposit, and [p] holds at least [v]. *)
Definition fed (b : balances) : Prop := map_Forall (fun _ v => ed <= v) (free_m b).
Definition potge (p v : N) (b : balances) : Prop := fed b /\ v <= free b p.
Definition pg (p v : N) (s : state) : Prop := potge p v (s_bal s).

Lemma fed_free b a : fed b -> free b a = 0 \/ ed <= free b a.
Proof. intros H. unfold free. destruct (free_m b !! a) eqn:E; [right; by apply (H a)|by left]. Qed.
Lemma set_free_fed a v b : fed b -> fed (set_free a v b).
Proof.
  intros H. unfold fed, set_free. destruct (v <? ed) eqn:Ev; st_cbn; intros i x Hx.
  - apply lookup_delete_Some in Hx as [_ Hx]. by apply (H i).
  - apply lookup_insert_Some in Hx as [[_ <-]|[_ Hx]]; [by apply N.ltb_ge|by apply (H i)].
Qed.
Lemma set_free_other p v a x b : a <> p -> potge p v b -> potge p v (set_free a x b).
Proof.
  intros Hne [H1 H2]. split; [by apply set_free_fed|]. rewrite free_set_free, decide_False by done. done.
Qed.
Lemma set_free_up p v a amt b : (free_m b !! a = None -> ed <= amt) -> potge p v b -> potge p v (set_free a (free b a + amt) b).
Proof.
  intros Ha [H1 H2]. split; [by apply set_free_fed|]. rewrite free_set_free. destruct (decide _) as [->|]; [|done].
  assert (ed <= free b a + amt) as H.
  { unfold free. destruct (free_m b !! a) eqn:E; cbn; [pose proof (H1 _ _ E); cbn in *; lia|]. specialize (Ha eq_refl). lia. }
  apply N.ltb_ge in H. rewrite H. lia.
Qed.

Lemma transfer_potge p v from to amt keep b b' : from <> p -> transfer_b from to amt keep b = Ok b' -> potge p v b -> potge p v b'.
Proof.
  intros Hf H Hb. unfold transfer_b in H. destruct (_ || _) eqn:E0; [by injection H as <-|].
  apply orb_false_iff in E0 as [_ E0%N.eqb_neq].
  destruct (free b from <? amt); [done|]. destruct (free b from <? amt + frozen b from); [done|].
  destruct (free b from <? amt + untouchable b from keep); [done|].
  destruct (free b to + amt <? ed) eqn:E; [done|]. destruct (u128_max <? free b to + amt); [done|]. injection H as <-.
  apply (set_free_other p v from (free b from - amt)) in Hb; [|done].
  replace (free b to + amt) with (free (set_free from (free b from - amt) b) to + amt).
  - apply set_free_up; [|done]. intros Hn. apply N.ltb_ge in E.
    assert (free b to = 0) as Hz; [|lia]. unfold set_free in Hn. unfold free.
    destruct (_ <? _); st_cbn_in Hn; [rewrite lookup_delete_ne in Hn by done|rewrite lookup_insert_ne in Hn by done]; by rewrite Hn.
  - rewrite free_set_free, decide_False by done. done.
Qed.
Lemma withdraw_potge p v who amt keep b b' : who <> p -> withdraw_b who amt keep b = Ok b' -> potge p v b -> potge p v b'.
Proof.
  intros Hf H Hb. unfold withdraw_b in H. destruct (_ =? _); [by injection H as <-|]. destruct (_ <? _); [done|]. cbv zeta in H.
  destruct (_ && _ && _); [done|]. destruct (_ <? frozen _ _); [done|]. destruct (has_lock _ _ && _); [done|]. injection H as <-.
  by apply set_free_other.
Qed.
Lemma resolve_potge p v who amt b : potge p v b -> potge p v (resolve_creating_b who amt b).
Proof.
  intros Hb. unfold resolve_creating_b, deposit_creating_b. destruct (_ =? _); [exact Hb|].
  destruct (_ && _) eqn:E; [exact Hb|]. destruct (u128_max <? free b who + amt); [exact Hb|].
  apply (set_free_up p v who amt b); [|done]. intros Hn. rewrite Hn in E. cbn in E. by apply N.ltb_ge.
Qed.
Lemma collect_potge p v amt b : potge p v b -> potge p v (collect_b amt b).
Proof. intros H. unfold collect_b. destruct fees_collector; [by apply resolve_potge|done]. Qed.

Lemma pg_transfer p v from to amt keep : from <> p -> pres (pg p v) (transfer from to amt keep).
Proof. intros Hf. apply pres_lift_bal. intros s b Hb H. unfold pg. st_cbn. by eapply transfer_potge. Qed.
Lemma pg_pay_fee p v who amt : who <> p -> pres (pg p v) (pay_fee who amt).
Proof.
  intros Hf. apply pres_lift_bal. intros s b Hb H. destruct (withdraw_b _ _ _ _) eqn:E; [|done]. injection H as <-.
  apply collect_potge. by eapply withdraw_potge.
Qed.
Lemma pg_wburn p v who amt keep : who <> p -> pres (pg p v) (lift_bal (fun b => match withdraw_b who amt keep b with
   | Ok b1 => Ok (burn_b amt b1) | Err e => Err e end)).
Proof.
  intros Hf. apply pres_lift_bal. intros s b Hb H. destruct (withdraw_b _ _ _ _) eqn:E; [|done]. injection H as <-.
  eapply withdraw_potge in E; [|done|exact Hb]. exact E.
Qed.
Lemma pg_mod_bal p v f : (forall b, potge p v b -> potge p v (f b)) -> pres (pg p v) (mod_bal f).
Proof. intros H. apply pres_modify. intros s Hs. by apply H. Qed.
Lemma mint_potge p v who amt b : potge p v b -> potge p v (let (i, x1) := issue_b amt b in resolve_creating_b who i x1).
Proof. intros H. unfold issue_b. by apply resolve_potge. Qed.
Lemma pg_set_lock p v who amt : pres (pg p v) (set_lock who amt).
Proof. apply pg_mod_bal. intros b. unfold set_lock_b. by destruct (_ =? _), zero_lock_clears. Qed.
Lemma pg_remove_lock p v who : pres (pg p v) (remove_lock who).
Proof. by apply pg_mod_bal. Qed.
End pots.

Ltac pot_ne :=
  first [ assumption | congruence
        | match goal with H : ?w ∉ pots, H2 : ?p ∈ pots |- ?w <> ?p => intros ->; exact (H H2) end ].
Ltac pot_step :=
  lazymatch goal with
  | |- pres (pg _ _) (transfer _ _ _ _) => apply pg_transfer; try pot_ne
  | |- pres (pg _ _) (pay_fee _ _) => apply pg_pay_fee; try pot_ne
  | |- pres (pg _ _) (set_lock _ _) => apply pg_set_lock
  | |- pres (pg _ _) (remove_lock _) => apply pg_remove_lock
  | |- pres (pg _ _) (mod_bal (burn_b _)) => apply pg_mod_bal; intros ? ?; assumption
  | |- pres (pg _ _) (mod_bal (resolve_creating_b _ _)) => apply pg_mod_bal; intros ? ?; by apply resolve_potge
  | |- pres (pg _ _) (mod_bal (fun b => let (_, _) := issue_b _ _ in _)) => apply pg_mod_bal; intros ? ?; by apply mint_potge
  | |- pres (pg _ _) (lift_bal (fun x => match withdraw_b _ _ _ _ with Ok _ => Ok (burn_b _ _) | Err _ => _ end)) =>
      apply pg_wburn; try pot_ne
  | |- pres (pg _ _) (modify _) => apply pres_modify; intros ? ?; unfold pg in *; st_cbn; assumption
  | |- _ => pres_step
  end.

Section pots2.
Context {C : Config}.

(** The account of a pallet. *)
Definition pot_of (q : pallet) : option N :=
  match q with PAuction => Some auction_pot | PRent => Some rent_pot | PTee => Some tee_pot | _ => None end.

Lemma pots_ne : NoDup pots -> auction_pot <> rent_pot /\ auction_pot <> tee_pot /\ auction_pot <> staking_pot /\
  rent_pot <> tee_pot /\ rent_pot <> staking_pot /\ tee_pot <> staking_pot.
Proof.
  unfold pots. rewrite !NoDup_cons, !not_elem_of_cons. intros (H1&H2&H3&H4&_). tauto.
Qed.

Lemma pg_call p v o c s s' : NoDup pots -> p ∈ pots -> Some p <> pot_of (pallet_of c) -> inv1 s ->
  action_ok (Extrinsic o c) -> is_mandate c = false -> exec_call o c s = (Ok tt, s') -> pg p v s -> pg p v s'.
Proof.
  intros Hnd Hp Hne HI Ha Hm He Hg.
  assert (Hpr : forall m : M unit, pres (pg p v) m -> m s = (Ok tt, s') -> pg p v s').
  { intros m H1 H2. specialize (H1 s Hg). by rewrite H2 in H1. }
  destruct (match c with C_accept_rent_offer _ _ => true | _ => false end) eqn:Hacc.
  - destruct c; try discriminate Hacc. cbn [exec_call] in He. unfold signed in He. destruct o as [who| |]; try done. cbn [action_ok] in Ha.
    cbn [pot_of pallet_of] in Hne.
    unfold accept_rent_offer in He. do 6 mstep He.
    assert (Hr : rentee ∉ pots).
    { pose proof (i_offers s HI id x0 U0) as Hl. rewrite Forall_forall in Hl. apply Hl. by apply memN_iff. }
    revert He. apply Hpr. repeat pot_step.
  - revert He. apply Hpr. clear Hpr Hg.
    assert (Hne' : forall q, pot_of (pallet_of c) = Some q -> q <> p) by (intros q Hq ->; congruence).
    destruct c; try discriminate Hm; try discriminate Hacc; clear Hm Hacc Hne; cbn [exec_call pot_of pallet_of] in *; unfold signed, root, external.
    all: try (specialize (Hne' _ eq_refl)).
    all: try (destruct o; cbn [action_ok] in Ha).
    all: repeat pot_step.
Qed.

(** The rent hook takes from rentees only. *)
Definition rentees_ok (s : state) : Prop :=
  forall i c r, contracts (s_rent s) !! i = Some c -> r_rentee c = Some r -> r ∉ pots.
Lemma inv1_rentees s : inv1 s -> rentees_ok s.
Proof.
  intros HI i c r Hc Hr. pose proof (i_view s HI i) as V. unfold view_ok in V. rewrite Hc in V.
  destruct (nfts (s_nft s) !! i); [|by apply vn_con in V]. destruct (v_con _ _ _ _ _ _ _ _ _ _ _ _ _ V c eq_refl) as (_&_&_&H). eauto.
Qed.
Lemma handle_finished_rent i s : contracts (s_rent (snd (handle_finished i s))) ⊆ contracts (s_rent s).
Proof.
  assert (H : pres (fun t => contracts (s_rent t) ⊆ contracts (s_rent s)) (handle_finished i)).
  { pres_go; st_cbn; try assumption. etrans; [apply delete_subseteq|done]. }
  by apply H.
Qed.
Lemma pg_handle_finished p v i : rent_pot <> p -> pres (pg p v) (handle_finished i).
Proof. intros Hne. unfold handle_finished. repeat pot_step. Qed.
Lemma pg_subscription p v i now s : p ∈ pots -> rentees_ok s -> pg p v s -> pg p v (snd (handle_subscription i now s)).
Proof.
  intros Hp Hr Hs. unfold handle_subscription, get_contract, bind at 1, gets at 1.
  destruct (contracts (s_rent s) !! i) as [c|] eqn:Ec; [|done]. destruct (r_rentee c) as [r|] eqn:Er; [|done].
  destruct (rf_tokens _); [|done]. destruct (_ || _); [done|].
  assert (r ∉ pots) by eauto. unfold bind, catch.
  pose proof (pg_transfer p v r (r_renter c) n true) as H1. specialize (H1 ltac:(pot_ne) s Hs).
  destruct (transfer _ _ _ _ s) as [[]?]; done.
Qed.
Lemma subscription_rent i now s : s_rent (snd (handle_subscription i now s)) = s_rent s.
Proof.
  assert (H : pres (fun t => s_rent t = s_rent s) (handle_subscription i now)).
  { pres_go; st_cbn; assumption. }
  by apply H.
Qed.
Lemma pg_hook p v h s : NoDup pots -> p ∈ pots -> Some p <> pot_of (hook_pallet h) -> inv1 s -> pg p v s -> pg p v (snd (run_hook h s)).
Proof.
  intros Hnd Hp Hne HI Hs. destruct h; cbn [run_hook hook_pallet pot_of] in *.
  - revert s HI Hs. cut (pres (pg p v) auction_on_initialize); [eauto|].
    assert (auction_pot <> p) by congruence.
    apply pres_auction_hook; [|intros ? ? H0; exact H0]. intros id. repeat pot_step.
  - assert (rent_pot <> p) by congruence.
    cut (pres (fun t => pg p v t /\ rentees_ok t) rent_on_initialize).
    { intros H0. apply H0. split; [done|]. by apply inv1_rentees. }
    apply pres_rent_hook.
    + intros id t [H1 H2]. split; [by apply pg_handle_finished|]. intros j c r Hc. eapply (H2 j).
      eapply lookup_weaken; [exact Hc|apply handle_finished_rent].
    + intros e t [H1 H2]. split; [exact H1|exact H2].
    + intros id now t [H1 H2]. split; [by apply pg_subscription|]. unfold rentees_ok. by rewrite subscription_rent.
    + intros t q [H1 H2]. split; [exact H1|exact H2].
  - revert s HI Hs. cut (pres (pg p v) trans_on_initialize); [eauto|].
    apply pres_trans_hook; [| |intros ? ? H0; exact H0]; intros; repeat pot_step.
  - revert s HI Hs. cut (pres (pg p v) tee_on_initialize); [eauto|]. repeat pot_step.
Qed.
Lemma pg_env p v e s s' : p ∈ pots -> p <> staking_pot -> action_ok (Env e) -> run_env e s = (Ok tt, s') -> pg p v s -> pg p v s'.
Proof.
  intros Hp Hst Ha He Hs. cut (pres (pg p v) (run_env e)); [intros H; specialize (H s Hs); by rewrite He in H|]. clear He Hs s s'.
  destruct e; cbn [run_env action_ok] in *; unfold burn_from, charge_fee, era_payout; repeat pot_step.
  all: try (apply pres_modify; intros t Ht; first [destruct (_ !! _); exact Ht|destruct (s_era t); [destruct (_ <? _)|]; exact Ht]).
  all: unfold pg in *; st_cbn; try assumption.
  - eapply withdraw_potge; [|eassumption|eassumption]. pot_ne.
Qed.
End pots2.
