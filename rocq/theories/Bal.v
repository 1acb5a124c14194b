(** Balances: what each operation does to every account, and the invariant that the total
    issuance is the sum of the balances. *)
From Verif Require Export Frame Later.
Local Open Scope N_scope.

Lemma msum_empty : msum ∅ = 0.
Proof. apply map_fold_empty. Qed.
Lemma msum_insert m (k v : N) : m !! k = None -> msum (<[k := v]> m) = v + msum m.
Proof. intros H. unfold msum. rewrite map_fold_insert_L; [done| |done]. intros. lia. Qed.
Lemma msum_delete m (k v : N) : m !! k = Some v -> msum m = v + msum (delete k m).
Proof. intros H. rewrite <- (insert_delete m k v H) at 1. by rewrite msum_insert by apply lookup_delete. Qed.
Lemma msum_lookup m (k : N) : msum m = default 0 (m !! k) + msum (delete k m).
Proof.
  destruct (m !! k) as [v|] eqn:H; cbn; [by apply msum_delete|]. by rewrite delete_notin.
Qed.
Lemma msum_le m (k : N) : default 0 (m !! k) <= msum m.
Proof. rewrite (msum_lookup m k). lia. Qed.

Section bal.
Context {C : Config}.
Implicit Types (b : balances).

Lemma free_set_free a v b x : free (set_free a v b) x = if decide (x = a) then (if v <? ed then 0 else v) else free b x.
Proof.
  unfold free, set_free. destruct (v <? ed); st_cbn; destruct (decide (x = a)) as [->|];
    rewrite ?lookup_delete, ?lookup_insert, ?lookup_delete_ne, ?lookup_insert_ne by done; done.
Qed.

(** [bsum b g]: every entry reaches the existential deposit, and the issuance is the sum of
    the balances plus [g] (an imbalance not yet disposed of). *)
Definition bsum b (g : N) : Prop :=
  map_Forall (fun _ v => ed <= v) (free_m b) /\ issuance b = msum (free_m b) + g /\ issuance b <= u128_max.

Lemma bsum_ed b g a : bsum b g -> free b a = 0 \/ ed <= free b a.
Proof.
  intros (H&_). unfold free. destruct (free_m b !! a) eqn:E; [right; by apply (H a)|by left].
Qed.
Lemma bsum_le b g a : bsum b g -> free b a + g <= issuance b.
Proof. intros (_&H&_). rewrite H. pose proof (msum_le (free_m b) a). unfold free. lia. Qed.
Lemma bsum_max b g a : bsum b g -> free b a + g <= u128_max.
Proof. intros H. pose proof (bsum_le b g a H). destruct H as (_&_&?). lia. Qed.
Lemma bsum_two b g a x : bsum b g -> a <> x -> free b a + free b x + g <= issuance b.
Proof.
  intros (_&H&_) Hne. rewrite H. unfold free. rewrite (msum_lookup (free_m b) a).
  pose proof (msum_le (delete a (free_m b)) x) as Hx. rewrite lookup_delete_ne in Hx by done. lia.
Qed.

Lemma set_free_bsum a v b g g' : bsum b g -> free b a + g = v + g' -> bsum (set_free a v b) g'.
Proof.
  intros (H1&H2&H3) E. unfold free in E. rewrite (msum_lookup (free_m b) a) in H2.
  unfold set_free. destruct (v <? ed) eqn:Ev; split_and!; st_cbn.
  - intros i x Hx. apply lookup_delete_Some in Hx as [_ Hx]. by apply (H1 i).
  - lia.
  - lia.
  - intros i x Hx. destruct (decide (i = a)) as [->|].
    + rewrite lookup_insert in Hx. injection Hx as <-. apply N.ltb_ge in Ev. done.
    + rewrite lookup_insert_ne in Hx by done. by apply (H1 i).
  - rewrite <- insert_delete_insert, msum_insert by apply lookup_delete. lia.
  - done.
Qed.

(** Transfers. *)
Lemma transfer_bsum from to amt keep b b' g : bsum b g -> transfer_b from to amt keep b = Ok b' -> bsum b' g.
Proof.
  intros Hb H. unfold transfer_b in H. destruct ((amt =? 0) || (from =? to)) eqn:E0; [by injection H as <-|].
  apply orb_false_iff in E0 as [_ Ene%N.eqb_neq].
  destruct (free b from <? amt) eqn:E1; [done|]. apply N.ltb_ge in E1.
  destruct (free b from <? amt + frozen b from); [done|].
  destruct (free b from <? amt + untouchable b from keep); [done|].
  destruct (free b to + amt <? ed); [done|]. destruct (u128_max <? free b to + amt); [done|]. injection H as <-.
  eapply (set_free_bsum _ _ _ (g + amt)).
  - eapply set_free_bsum; [exact Hb|]. lia.
  - rewrite free_set_free, decide_False by done. lia.
Qed.
(** With [KeepAlive], or when the sender keeps the existential deposit, no dust is lost. *)
Lemma transfer_free from to amt keep b b' :
  transfer_b from to amt keep b = Ok b' -> keep = true \/ ed <= free b from - amt \/ free b from = amt ->
  forall a, free b' a + at_acc from a amt = free b a + at_acc to a amt.
Proof.
  intros H Hk a. unfold transfer_b in H. unfold at_acc. destruct ((amt =? 0) || (from =? to)) eqn:E0.
  { injection H as <-. apply orb_true_iff in E0 as [->%N.eqb_eq| ->%N.eqb_eq]; [by destruct (decide _), (decide _)|done]. }
  apply orb_false_iff in E0 as [E0%N.eqb_neq Ene%N.eqb_neq].
  destruct (free b from <? amt) eqn:E1; [done|]. apply N.ltb_ge in E1.
  destruct (free b from <? amt + frozen b from); [done|].
  destruct (free b from <? amt + untouchable b from keep) eqn:E2; [done|]. apply N.ltb_ge in E2.
  destruct (free b to + amt <? ed) eqn:E3; [done|]. apply N.ltb_ge in E3.
  destruct (u128_max <? free b to + amt); [done|]. injection H as <-.
  rewrite !free_set_free. rewrite (proj2 (N.ltb_ge _ _) E3).
  destruct (decide (a = to)) as [->|]; [rewrite decide_False by done; lia|].
  destruct (decide (a = from)) as [->|]; [|lia].
  destruct (free b from - amt <? ed) eqn:E4; [|apply N.ltb_ge in E4; lia]. apply N.ltb_lt in E4.
  assert (keep = true -> ed <= untouchable b from keep) by (intros ->; unfold untouchable; cbn; lia).
  destruct Hk as [->|[?|?]]; [specialize (H eq_refl)|..]; lia.
Qed.
(** In any case nobody but the sender loses and everybody else gets exactly the amount. *)
Lemma transfer_free_other from to amt keep b b' a :
  transfer_b from to amt keep b = Ok b' -> a <> from -> free b' a = free b a + at_acc to a amt.
Proof.
  intros H Ha. unfold transfer_b in H. unfold at_acc. destruct ((amt =? 0) || (from =? to)) eqn:E0.
  { injection H as <-. apply orb_true_iff in E0 as [->%N.eqb_eq| ->%N.eqb_eq]; [destruct (decide _); lia|].
    rewrite decide_False by done. lia. }
  apply orb_false_iff in E0 as [E0%N.eqb_neq Ene%N.eqb_neq].
  destruct (free b from <? amt) eqn:E1; [done|]. apply N.ltb_ge in E1.
  destruct (free b from <? amt + frozen b from); [done|].
  destruct (free b from <? amt + untouchable b from keep) eqn:E2; [done|]. apply N.ltb_ge in E2.
  destruct (free b to + amt <? ed) eqn:E3; [done|]. apply N.ltb_ge in E3.
  destruct (u128_max <? free b to + amt); [done|]. injection H as <-.
  rewrite !free_set_free. rewrite (proj2 (N.ltb_ge _ _) E3).
  destruct (decide (a = to)) as [->|]; [lia|]. rewrite decide_False by done. lia.
Qed.

(** Withdrawals, deposits, imbalances. *)
Lemma withdraw_bsum who amt keep b b' g : bsum b g -> withdraw_b who amt keep b = Ok b' -> bsum b' (g + amt).
Proof.
  intros Hb H. unfold withdraw_b in H. destruct (amt =? 0) eqn:E0.
  { apply N.eqb_eq in E0 as ->. injection H as <-. by rewrite N.add_0_r. }
  destruct (free b who <? amt) eqn:E1; [done|]. apply N.ltb_ge in E1. cbv zeta in H.
  destruct (_ && _ && _); [done|]. destruct (_ <? frozen _ _); [done|]. destruct (has_lock _ _ && _); [done|]. injection H as <-.
  eapply set_free_bsum; [exact Hb|]. lia.
Qed.
Lemma withdraw_free who amt keep b b' g a : bsum b g -> withdraw_b who amt keep b = Ok b' ->
  keep = true \/ ed <= free b who - amt \/ free b who = amt -> free b' a + at_acc who a amt = free b a.
Proof.
  intros Hb H Hk. unfold at_acc. unfold withdraw_b in H. destruct (amt =? 0) eqn:E0.
  { apply N.eqb_eq in E0 as ->. injection H as <-. destruct (decide _); lia. }
  apply N.eqb_neq in E0.
  destruct (free b who <? amt) eqn:E1; [done|]. apply N.ltb_ge in E1. cbv zeta in H.
  destruct (keep && (free b who - amt <? ed) && (ed <=? free b who)) eqn:E2; [done|].
  destruct (_ <? frozen _ _); [done|]. destruct (has_lock _ _ && _); [done|]. injection H as <-.
  rewrite free_set_free. destruct (decide (a = who)) as [->|]; [|lia].
  destruct (free b who - amt <? ed) eqn:E4; [|lia]. apply N.ltb_lt in E4.
  assert (ed <= free b who) as E5. { destruct (bsum_ed b g who Hb); [lia|done]. }
  apply N.leb_le in E5. rewrite E5 in E2. destruct Hk as [->|[?|?]]; [done|lia|lia].
Qed.
Lemma withdraw_alive who amt b b' g : bsum b g -> withdraw_b who amt true b = Ok b' -> amt <> 0 -> ed <= free b' who.
Proof.
  intros Hb H E0%N.eqb_neq. unfold withdraw_b in H. rewrite E0 in H. apply N.eqb_neq in E0.
  destruct (free b who <? amt) eqn:E1; [done|]. apply N.ltb_ge in E1. cbv zeta in H. cbn [andb] in H.
  destruct ((free b who - amt <? ed) && (ed <=? free b who)) eqn:E2; [done|].
  destruct (_ <? frozen _ _); [done|]. destruct (has_lock _ _ && _); [done|]. injection H as <-.
  rewrite free_set_free, decide_True by done.
  assert (ed <= free b who) as E5. { destruct (bsum_ed b g who Hb); [lia|done]. }
  apply N.leb_le in E5. rewrite E5, andb_true_r in E2. rewrite E2. by apply N.ltb_ge.
Qed.

Lemma deposit_bsum who amt b g : bsum b (g + amt) ->
  bsum (snd (deposit_creating_b who amt b)) (g + (amt - fst (deposit_creating_b who amt b))) /\
  fst (deposit_creating_b who amt b) <= amt.
Proof.
  intros Hb. unfold deposit_creating_b. destruct (amt =? 0) eqn:E0.
  { apply N.eqb_eq in E0 as ->. cbn. rewrite N.add_0_r in *. done. }
  destruct (_ && _); cbn; [by rewrite N.sub_0_r; split; [|lia]|].
  destruct (_ <? _); cbn; [by rewrite N.sub_0_r; split; [|lia]|].
  split; [|lia]. eapply set_free_bsum; [exact Hb|]. lia.
Qed.
Lemma deposit_free who amt b a : (free_m b !! who = None -> ed <= amt) -> free b who + amt <= u128_max ->
  (forall v, free_m b !! who = Some v -> ed <= v) ->
  free (snd (deposit_creating_b who amt b)) a = free b a + at_acc who a amt /\
  fst (deposit_creating_b who amt b) = amt.
Proof.
  intros He Hm Hed. unfold deposit_creating_b, at_acc. destruct (amt =? 0) eqn:E0.
  { apply N.eqb_eq in E0 as ->. cbn. split; [|done]. destruct (decide _); lia. }
  assert (ed <= free b who + amt) as Hge.
  { unfold free. destruct (free_m b !! who) as [v|] eqn:E; cbn; [specialize (Hed v eq_refl)|specialize (He eq_refl)]; lia. }
  assert (((match free_m b !! who with None => true | Some _ => false end) && (amt <? ed)) = false) as ->.
  { destruct (free_m b !! who); cbn; [done|]. apply N.ltb_ge. auto. }
  rewrite (proj2 (N.ltb_ge _ _) Hm). cbn. split; [|done]. rewrite free_set_free, (proj2 (N.ltb_ge _ _) Hge).
  destruct (decide _) as [->|]; lia.
Qed.

Lemma burn_bsum amt b g : bsum b (g + amt) -> bsum (burn_b amt b) g.
Proof. intros (H1&H2&H3). split_and!; cbn; [done|lia|lia]. Qed.
Lemma resolve_bsum who amt b g : bsum b (g + amt) -> bsum (resolve_creating_b who amt b) g.
Proof.
  intros Hb. unfold resolve_creating_b. destruct (deposit_bsum who amt b g Hb) as [H _].
  destruct (deposit_creating_b who amt b) as [d b1]. cbn in H. by apply burn_bsum.
Qed.
Lemma issue_bsum amt b g : bsum b g -> bsum (snd (issue_b amt b)) (g + fst (issue_b amt b)).
Proof. intros (H1&H2&H3). unfold issue_b. cbn [fst snd]. split_and!; st_cbn; [done|lia|lia]. Qed.
Lemma collect_bsum amt b g : bsum b (g + amt) -> bsum (collect_b amt b) g.
Proof. unfold collect_b. destruct fees_collector; [apply resolve_bsum|apply burn_bsum]. Qed.

(** Operations on the locks only. *)
Lemma set_lock_free who amt b : free_m (set_lock_b who amt b) = free_m b /\ issuance (set_lock_b who amt b) = issuance b.
Proof. unfold set_lock_b. by destruct (amt =? 0), zero_lock_clears. Qed.
Lemma bsum_same b b' g : free_m b' = free_m b -> issuance b' = issuance b -> bsum b g -> bsum b' g.
Proof. intros E1 E2. unfold bsum. by rewrite E1, E2. Qed.

(** The invariant. *)
Definition binv (s : state) : Prop := bsum (s_bal s) 0.

Lemma binv_transfer from to amt keep : pres binv (transfer from to amt keep).
Proof. apply pres_lift_bal. intros s b Hb H. by eapply transfer_bsum. Qed.
Lemma pay_fee_bsum who amt b b' g : bsum b g ->
  match withdraw_b who amt true b with Ok b1 => Ok (collect_b amt b1) | Err e => Err e end = Ok b' -> bsum b' g.
Proof.
  intros Hb H. destruct (withdraw_b who amt true b) as [b1|] eqn:E; [|done]. injection H as <-.
  apply collect_bsum. by eapply withdraw_bsum.
Qed.
Lemma binv_pay_fee who amt : pres binv (pay_fee who amt).
Proof. apply pres_lift_bal. intros s b Hb H. by eapply pay_fee_bsum. Qed.
Lemma wburn_bsum who amt keep b b' g : bsum b g ->
  match withdraw_b who amt keep b with Ok b1 => Ok (burn_b amt b1) | Err e => Err e end = Ok b' -> bsum b' g.
Proof.
  intros Hb H. destruct (withdraw_b who amt keep b) as [b1|] eqn:E; [|done]. injection H as <-.
  apply burn_bsum. by eapply withdraw_bsum.
Qed.
Lemma mint_bsum who amt b g : bsum b g ->
  bsum (let (i, x1) := issue_b amt b in resolve_creating_b who i x1) g.
Proof.
  intros Hb. pose proof (issue_bsum amt b g Hb) as H. destruct (issue_b amt b) as [i x1]. by apply resolve_bsum.
Qed.
Lemma binv_mod_bal f : (forall b, bsum b 0 -> bsum (f b) 0) -> pres binv (mod_bal f).
Proof. intros H. apply pres_modify. intros s Hs. by apply H. Qed.
Lemma binv_set_lock who amt : pres binv (set_lock who amt).
Proof. apply binv_mod_bal. intros b. by apply bsum_same; apply set_lock_free. Qed.
Lemma binv_remove_lock who : pres binv (remove_lock who).
Proof. apply binv_mod_bal. intros b. by apply bsum_same. Qed.
End bal.

Ltac bal_step :=
  lazymatch goal with
  | |- pres binv (transfer _ _ _ _) => apply binv_transfer
  | |- pres binv (pay_fee _ _) => apply binv_pay_fee
  | |- pres binv (set_lock _ _) => apply binv_set_lock
  | |- pres binv (remove_lock _) => apply binv_remove_lock
  | |- pres binv (mod_bal (burn_b _)) => fail
  | |- pres binv (mod_bal (fun b => let (_, _) := issue_b _ _ in _)) => apply binv_mod_bal; intros ? ?; by apply mint_bsum
  | |- pres binv (lift_bal (fun x => match withdraw_b _ _ _ _ with Ok _ => Ok (burn_b _ _) | Err _ => _ end)) =>
      apply pres_lift_bal; intros ? ? ? ?; by eapply wburn_bsum
  | |- pres binv (modify _) => apply pres_modify; intros ? ?; unfold binv in *; st_cbn; assumption
  | |- _ => pres_step
  end.

Section bal2.
Context {C : Config}.

Lemma binv_call o c : is_mandate c = false -> pres binv (exec_call o c).
Proof.
  intros Hm. destruct c; try discriminate Hm; clear Hm; cbn [exec_call]; unfold signed, root, external.
  all: repeat bal_step.
Qed.
End bal2.

Section bal3.
Context {C : Config}.

Lemma binv_hook h : pres binv (run_hook h).
Proof.
  destruct h; cbn [run_hook].
  - apply pres_auction_hook; [intros id; repeat bal_step|done].
  - apply pres_rent_hook; [intros id; repeat bal_step|intros e; repeat bal_step|intros id now; repeat bal_step|done].
  - apply pres_trans_hook; [intros id; repeat bal_step|intros e; repeat bal_step|done].
  - repeat bal_step.
Qed.

Lemma charge_fee_bsum who fee tip author s s' : binv s -> charge_fee who fee tip author s = (Ok tt, s') -> binv s'.
Proof.
  unfold binv. intros Hb H. unfold charge_fee, on_unbalanceds in H. cbn [on_some] in H.
  apply bind_ok in H as ([]&s1&H1&H). unfold lift_bal in H1.
  destruct (withdraw_b who (fee + tip) true (s_bal s)) as [b1|] eqn:E; [|done]. injection H1 as <-.
  assert (Hb1 : bsum b1 (0 + tip + fee)).
  { replace (0 + tip + fee) with (0 + (fee + tip)) by lia. by eapply withdraw_bsum. }
  apply burn_bsum in Hb1. destruct author as [a|]; unfold mod_srw, mod_bal in H; minv H; subst s'; st_cbn.
  - by apply resolve_bsum.
  - by apply burn_bsum.
Qed.

Lemma binv_env e s s' : binv s -> run_env e s = (Ok tt, s') -> binv s'.
Proof.
  intros Hb H. assert (Hp : forall (m : M unit), pres binv m -> m s = (Ok tt, s') -> binv s').
  { intros m Hm E. specialize (Hm s Hb). by rewrite E in Hm. }
  destruct e; cbn [run_env] in H; try (by eapply charge_fee_bsum); revert H; apply Hp; unfold burn_from.
  all: repeat bal_step.
  - apply pres_modify. intros t Ht. destruct (_ !! _); [|done]. exact Ht.
  - apply pres_modify. intros t Ht. destruct (s_era t); [destruct (_ <? _)|]; exact Ht.
Qed.

Lemma binv_sstep s s' : binv s -> sstep s s' -> binv s'.
Proof.
  intros Hb [o c s2 ? ? Hm He| | |h|e s2 ? He]; try done.
  - pose proof (binv_call o c Hm s Hb) as HH. by rewrite He in HH.
  - by apply binv_hook.
  - by eapply binv_env.
Qed.
Lemma sreach_binv s : sreach s -> binv s.
Proof.
  induction 1 as [s Hs|s o c s' Hs IH Ha Hw Hm He|s ev Hs IH|s Hs IH|s h Hs IH|s e s' Hs IH Ha He].
  - destruct Hs as (now&era&bal&lk&->&H1&H2&H3). split_and!; cbn; [done|lia|done].
  - eapply binv_sstep; [exact IH|]. by eapply ss_call.
  - done.
  - done.
  - by apply binv_hook.
  - by eapply binv_env.
Qed.
Lemma reachable_binv s : reachable s -> binv s.
Proof. intros H. by apply sreach_binv, reachable_sreach. Qed.

(** Pallet accounts are never locked. *)
Definition nolock (s : state) : Prop :=
  forall a, a ∈ pots -> tee_lock (s_bal s) !! a = None /\ other_lock (s_bal s) !! a = None.

(** Everything but the lock operations keeps the locks. *)
Definition same_locks (b b' : balances) : Prop := tee_lock b' = tee_lock b /\ other_lock b' = other_lock b.
Lemma set_free_locks a v b : same_locks b (set_free a v b).
Proof. unfold set_free. by destruct (_ <? _). Qed.
Lemma same_locks_trans b1 b2 b3 : same_locks b1 b2 -> same_locks b2 b3 -> same_locks b1 b3.
Proof. intros [] []. split; congruence. Qed.
Lemma transfer_locks from to amt keep b b' : transfer_b from to amt keep b = Ok b' -> same_locks b b'.
Proof.
  intros H. unfold transfer_b in H. destruct (_ || _); [by injection H as <-|].
  do 5 (destruct (_ <? _); [done|]). injection H as <-. eapply same_locks_trans; apply set_free_locks.
Qed.
Lemma withdraw_locks who amt keep b b' : withdraw_b who amt keep b = Ok b' -> same_locks b b'.
Proof.
  intros H. unfold withdraw_b in H. destruct (_ =? _); [by injection H as <-|]. destruct (_ <? _); [done|]. cbv zeta in H.
  destruct (_ && _ && _); [done|]. destruct (_ <? frozen _ _); [done|]. destruct (has_lock _ _ && _); [done|]. injection H as <-.
  apply set_free_locks.
Qed.
Lemma resolve_locks who amt b : same_locks b (resolve_creating_b who amt b).
Proof.
  unfold resolve_creating_b, deposit_creating_b. destruct (_ =? _); [done|]. destruct (_ && _); [done|].
  destruct (_ <? _); [done|]. destruct (set_free_locks who (free b who + amt) b) as [H1 H2]. done.
Qed.
Lemma collect_locks amt b : same_locks b (collect_b amt b).
Proof. unfold collect_b. destruct fees_collector; [apply resolve_locks|done]. Qed.
Lemma nolock_same s s' : same_locks (s_bal s) (s_bal s') -> nolock s -> nolock s'.
Proof. intros [E1 E2] H a Ha. rewrite E1, E2. auto. Qed.

Lemma nolock_transfer from to amt keep : pres nolock (transfer from to amt keep).
Proof. apply pres_lift_bal. intros s b Hb H. eapply nolock_same; [|exact Hb]. by eapply transfer_locks. Qed.
Lemma nolock_pay_fee who amt : pres nolock (pay_fee who amt).
Proof.
  apply pres_lift_bal. intros s b Hb H. eapply nolock_same; [|exact Hb].
  destruct (withdraw_b _ _ _ _) eqn:E; [|done]. injection H as <-. eapply same_locks_trans; [by eapply withdraw_locks|apply collect_locks].
Qed.
Lemma nolock_wburn who amt keep : pres nolock (lift_bal (fun b => match withdraw_b who amt keep b with
   | Ok b1 => Ok (burn_b amt b1) | Err e => Err e end)).
Proof.
  apply pres_lift_bal. intros s b Hb H. eapply nolock_same; [|exact Hb].
  destruct (withdraw_b _ _ _ _) eqn:E; [|done]. injection H as <-. eapply same_locks_trans; [by eapply withdraw_locks|done].
Qed.
Lemma nolock_mod_bal f : (forall b, same_locks b (f b)) -> pres nolock (mod_bal f).
Proof. intros H. apply pres_modify. intros s Hs. eapply nolock_same; [|exact Hs]. apply H. Qed.
Lemma mint_locks who amt b : same_locks b (let (i, x1) := issue_b amt b in resolve_creating_b who i x1).
Proof. unfold issue_b. eapply same_locks_trans; [|apply resolve_locks]. done. Qed.
Lemma nolock_set_lock who amt : who ∉ pots -> pres nolock (set_lock who amt).
Proof.
  intros Hw. apply pres_modify. intros s Hs a Ha. destruct (Hs a Ha) as [H1 H2]. st_cbn. unfold set_lock_b.
  destruct (amt =? 0); [destruct zero_lock_clears; [|done]; st_cbn; split; [|done]; by apply lookup_delete_None; right|].
  st_cbn. split; [|done]. rewrite lookup_insert_ne; [done|]. by intros ->.
Qed.
Lemma nolock_remove_lock who : pres nolock (remove_lock who).
Proof.
  apply pres_modify. intros s Hs a Ha. destruct (Hs a Ha) as [H1 H2]. unfold remove_lock_b. st_cbn. split; [|done].
  apply lookup_delete_None. auto.
Qed.
End bal3.

Ltac lock_step :=
  lazymatch goal with
  | |- pres nolock (transfer _ _ _ _) => apply nolock_transfer
  | |- pres nolock (pay_fee _ _) => apply nolock_pay_fee
  | |- pres nolock (set_lock _ _) => apply nolock_set_lock; assumption
  | |- pres nolock (remove_lock _) => apply nolock_remove_lock
  | |- pres nolock (mod_bal (burn_b _)) => apply nolock_mod_bal; intros ?; done
  | |- pres nolock (mod_bal (resolve_creating_b _ _)) => apply nolock_mod_bal; intros ?; apply resolve_locks
  | |- pres nolock (mod_bal (fun b => let (_, _) := issue_b _ _ in _)) => apply nolock_mod_bal; intros ?; apply mint_locks
  | |- pres nolock (lift_bal (fun x => match withdraw_b _ _ _ _ with Ok _ => Ok (burn_b _ _) | Err _ => _ end)) =>
      apply nolock_wburn
  | |- pres nolock (modify _) => apply pres_modify; intros ? ?; unfold nolock in *; st_cbn; assumption
  | |- _ => pres_step
  end.

Section bal4.
Context {C : Config}.
Lemma nolock_call o c : action_ok (Extrinsic o c) -> is_mandate c = false -> pres nolock (exec_call o c).
Proof.
  intros Ha Hm. destruct c; try discriminate Hm; clear Hm; cbn [exec_call]; unfold signed, root, external.
  all: try (destruct o; cbn [action_ok] in Ha).
  all: repeat lock_step.
Qed.
Lemma nolock_hook h : pres nolock (run_hook h).
Proof.
  destruct h; cbn [run_hook].
  - apply pres_auction_hook; [intros id; repeat lock_step|done].
  - apply pres_rent_hook; [intros id; repeat lock_step|intros e; repeat lock_step|intros id now; repeat lock_step|done].
  - apply pres_trans_hook; [intros id; repeat lock_step|intros e; repeat lock_step|done].
  - repeat lock_step.
Qed.
Lemma nolock_env e : action_ok (Env e) -> pres nolock (run_env e).
Proof.
  intros Ha. destruct e; cbn [run_env action_ok] in *; unfold burn_from, charge_fee.
  all: repeat lock_step.
  - apply pres_modify. intros t Ht. destruct (_ !! _); [|done]. intros a Hp. destruct (Ht a Hp). st_cbn.
    split; [done|]. rewrite lookup_insert_ne; [done|]. by intros ->.
  - apply pres_modify. intros t Ht a Hp. destruct (Ht a Hp). st_cbn. split; [done|]. apply lookup_delete_None. auto.
  - apply pres_modify. intros t Ht. destruct (s_era t); [destruct (_ <? _)|]; exact Ht.
  - eapply nolock_same; [|eassumption]. by eapply withdraw_locks.
Qed.
Lemma sreach_nolock s : sreach s -> nolock s.
Proof.
  induction 1 as [s Hs|s o c s' Hs IH Ha Hw Hm He|s ev Hs IH|s Hs IH|s h Hs IH|s e s' Hs IH Ha He].
  - destruct Hs as (now&era&bal&lk&->&H1&H2&H3). intros a Ha. cbn. split; [apply lookup_empty|auto].
  - pose proof (nolock_call o c Ha Hm s IH) as H. by rewrite He in H.
  - done.
  - done.
  - by apply nolock_hook.
  - pose proof (nolock_env e Ha s IH) as H. by rewrite He in H.
Qed.
Lemma pot_unfrozen s a : sreach s -> a ∈ pots -> frozen (s_bal s) a = 0.
Proof. intros Hs Ha. destruct (sreach_nolock s Hs a Ha) as [H1 H2]. unfold frozen. by rewrite H1, H2. Qed.
End bal4.
