(** Facts behind the rent properties: renewals. *)
From Verif Require Export RentFacts4.
Local Open Scope N_scope.

Section facts.
Context {C : Config}.

Lemma affordable_is s a b x : bsum (s_bal s) 0 ->
  affordable s a b x <-> exists b', transfer_b a b x true (s_bal s) = Ok b'.
Proof.
  intros Hb. unfold affordable, transfer_b, untouchable. cbn [orb].
  destruct (N.eqb_spec x 0) as [->|Hx]; cbn [orb]; [split; [by eexists|by left]|].
  destruct (N.eqb_spec a b) as [->|Hab]; [split; [by eexists|by right; left]|]. rewrite (N.max_comm ed).
  split.
  - intros [?|[?|[H1 H2]]]; [done|done|].
    destruct (_ <? _) eqn:E1; [apply N.ltb_lt in E1; lia|]. clear E1.
    destruct (_ <? _) eqn:E1; [apply N.ltb_lt in E1; lia|]. clear E1.
    destruct (_ <? _) eqn:E1; [apply N.ltb_lt in E1; lia|]. clear E1.
    destruct (_ <? _) eqn:E1; [apply N.ltb_lt in E1; lia|]. clear E1.
    destruct (u128_max <? _) eqn:E1; [|eauto]. apply N.ltb_lt in E1.
    pose proof (bsum_two (s_bal s) 0 a b Hb Hab). destruct Hb as (_&_&?). lia.
  - intros [b' H]. right; right.
    destruct (_ <? _) eqn:E1; [done|]. clear E1. destruct (_ <? _) eqn:E1; [done|]. clear E1.
    destruct (_ <? _) eqn:E1; [done|]. apply N.ltb_ge in E1.
    destruct (_ <? _) eqn:E2; [done|]. apply N.ltb_ge in E2. lia.
Qed.

Lemma pop_late now q : (forall x, x ∈ q -> now < snd x) -> q_pop now q = None.
Proof.
  destruct q as [|[i b] q]; [done|]. intros H. specialize (H (i, b) ltac:(left)). cbn in *. destruct (_ <=? _) eqn:E; [|done]. apply N.leb_le in E. lia.
Qed.
Lemma finish_idle ev fuel now q acts s : q_pop now q = None -> finish_loop ev fuel now q acts s = (Ok (q, acts), s).
Proof. intros H. destruct fuel; cbn [finish_loop]; [done|]. by rewrite H. Qed.

(** One due subscription, with terms accepted and time left: it is renewed exactly if the
    rentee can pay. *)
Lemma fact_renew_iff s t t' i b c u fee : config_ok -> reachable s -> turn HookRent s t t' ->
  contracts (s_rent s) !! i = Some c -> r_rentee c = Some u -> r_rent_fee c = RentTokens fee ->
  (exists x, r_duration c = Subscription x) -> ~ terms_open (r_duration c) -> ~ over c (s_now s + 1) ->
  (forall j b', scheduled s j b' -> b' <= s_now s + 1 -> j = i) -> scheduled s i b -> b <= s_now s + 1 ->
  (affordable t u (r_renter c) fee <-> contracts (s_rent (next_block s)) !! i = Some c) /\
  (~ affordable t u (r_renter c) fee -> contracts (s_rent (next_block s)) !! i = None).
Proof.
  intros HC Hs Ht Hc Hu Hfee [x Hx] Hto Hov Hone Hb Hble.
  destruct (fact_rent_turn s t t' HC Hs Ht) as (Hnow&Er&En&_).
  destruct (turn_state s_rent HookRent s t t' HC (reachable_sreach s Hs)) as (Hst&_); [intros; by apply hook_rent_kept|done|done|].
  destruct (sreach_rent t HC Hst) as [HR HS]. pose proof (sreach_rlinv t Hst HR HS) as HL.
  rewrite En. assert (t' = snd (rent_on_initialize t)) as -> by (destruct Ht as (?&?&_&_&?); done).
  rewrite terms_is in Hto. rewrite over_is, <- Hnow in Hov. apply not_true_is_false in Hto, Hov.
  unfold scheduled in *. rewrite <- Er, <- Hnow in *. clear Hnow Er En Ht Hs s.
  set (q := queues (s_rent t)) in *. pose proof (r_cok _ _ _ HR _ _ Hc) as Hok. unfold rinv in HR. fold q in HR.
  assert (Hsub : (i, b) ∈ q_sub q).
  { assert (isS (r_start c) = true) as Hss by (rewrite (c_run _ _ Hok), Hu; done).
    destruct Hb as [Hb|[Hb|Hb]]; [|done|]; exfalso.
    - destruct (r_fix _ _ _ HR) as (_&F&_). destruct (F _ _ Hb) as (c'&Hc'&[_ P2]&_). simplify_eq. by rewrite Hx in P2.
    - destruct (r_av _ _ _ HR) as (_&F&_). destruct (F _ _ Hb) as (c'&Hc'&P2&_). simplify_eq. unfold in_avail in P2. congruence. }
  assert (Hlate : forall P l, listing (s_now t) (contracts (s_rent t)) P l -> ~ P c -> (forall y, y ∈ l -> y ∈ q_fixed q \/ y ∈ q_sub q \/ y ∈ q_avail q) -> q_pop (s_now t) l = None).
  { intros P l (_&F&_) HP Hl. apply pop_late. intros [j b'] Hj. cbn. destruct (N.lt_ge_cases (s_now t) b') as [|Hge]; [done|exfalso].
    pose proof (Hl _ Hj) as Hj'. assert (j = i) as -> by (by eapply Hone). destruct (F _ _ Hj) as (c'&Hc'&HP'&_). simplify_eq. done. }
  assert (Hf : q_pop (s_now t) (q_fixed q) = None). { eapply Hlate; [apply (r_fix _ _ _ HR)| |auto]. intros [_ P2]. by rewrite Hx in P2. }
  assert (Ha : q_pop (s_now t) (q_avail q) = None).
  { eapply Hlate; [apply (r_av _ _ _ HR)| |auto]. intros P2. unfold in_avail in P2. rewrite (c_run _ _ Hok), Hu in P2. done. }
  destruct (r_subs _ _ _ HR) as ([Hsort Hnd]&F&_).
  assert (exists q', q_sub q = (i, b) :: q') as [q' Eq].
  { destruct (q_sub q) as [|[j b'] q'] eqn:Eq; [by apply elem_of_nil in Hsub|]. apply elem_of_cons in Hsub as [Hsub|Hsub]; [injection Hsub as <- <-; by exists q'|].
    apply sorted_elem in Hsort as [_ Hsort]. specialize (Hsort _ Hsub). cbn in Hsort.
    assert (j = i) as -> by (apply (Hone j b'); [right; left; rewrite ?Eq; by left|lia]). exfalso. cbn in Hnd. apply NoDup_cons in Hnd as [Hnd _]. apply Hnd, q_fst_elem. by exists b. }
  assert (Hq' : forall y, y ∈ q' -> s_now t < snd y).
  { intros [j b'] Hj. cbn. destruct (N.lt_ge_cases (s_now t) b') as [|Hge]; [done|exfalso].
    assert (j = i) as -> by (apply (Hone j b'); [right; left; rewrite Eq; by right|done]). rewrite Eq in Hnd. cbn in Hnd. apply NoDup_cons in Hnd as [Hnd _]. apply Hnd, q_fst_elem. by exists b'. }
  (* the three loops *)
  assert (Hsl : forall fuel acts u', q_pop (s_now t) u' = None -> forall z, subscription_loop fuel (s_now t) u' acts z = (Ok (u', acts), z)).
  { intros fuel acts u' Hu' z. destruct fuel; cbn [subscription_loop]; [done|]. by rewrite Hu'. }
  assert (Hrun : forall qq z, (exists r, handle_subscription i (s_now t) t = (Ok r, z) /\ qq = r) ->
    contracts (s_rent (snd (rent_on_initialize t))) !! i =
      match qq with Some _ => contracts (s_rent z) !! i | None => contracts (s_rent (snd (handle_finished i z))) !! i end).
  { intros qq z (r&Hh&->). unfold rent_on_initialize. unfold bind at 1, gets at 1. unfold bind at 1, gets at 1. fold q.
    unfold bind at 1. rewrite (finish_idle _ _ _ _ _ _ Hf). cbn [snd fst]. unfold bind at 1. cbn [subscription_loop]. rewrite Eq. cbn [q_pop].
    replace (b <=? s_now t) with true by (symmetry; by apply N.leb_le). unfold bind at 1. rewrite Hh.
    destruct r as [nb|].
    - unfold bind at 1. unfold bind at 1. rewrite run_emit. unfold ret at 1.
      set (q2 := default q' (q_insert rent_limit i nb q')).
      assert (Hp2 : q_pop (s_now t) q2 = None).
      { apply pop_late. subst q2. unfold q_insert. destruct (_ <? _); [|done]. cbn [default]. intros y [->|Hy]%q_ins_elem; [|by apply Hq']. cbn.
        destruct (subscription_case t i (s_now t)) as (r&s'&E&[[-> ->]|(c'&t0&fee0&b0&Hc'&_&_&_&_&_&_&Hnb)]); rewrite Hh in E; [done|]. injection E as <- _. injection Hnb as ->.
        simplify_eq. pose proof (c_per _ _ Hok). lia. }
      destruct (rent_actions <=? 0 + 1); [|rewrite (Hsl _ _ _ Hp2)]; unfold bind, ret; cbn [fst snd]; rewrite ?(finish_idle _ _ _ _ _ _ Ha); cbn [fst snd when]; destruct (0 <? _); done.
    - unfold bind at 1. unfold attempt. unfold bind at 1. unfold bind at 1. rewrite run_emit. unfold ret at 1.
      pose proof (pop_late _ _ Hq') as Hp2.
      destruct (rent_actions <=? 0 + 1); [|rewrite (Hsl _ _ _ Hp2)]; unfold bind, ret; cbn [fst snd]; rewrite ?(finish_idle _ _ _ _ _ _ Ha); cbn [fst snd when]; destruct (0 <? _); done. }
  destruct (affordable_is t u (r_renter c) fee (sreach_binv t Hst)) as [A1 A2].
  unfold handle_subscription, get_contract in Hrun.
  destruct (transfer_b u (r_renter c) fee true (s_bal t)) as [b'|e] eqn:T.
  - rewrite (Hrun (Some (s_now t + duration_or_period (r_duration c))) (t <| s_bal := b' |>)).
    + split; [|intros Hna; exfalso; apply Hna, A2; by eexists]. split; [done|]. intros _. apply A2. by eexists.
    + eexists. split; [|reflexivity]. unfold bind at 1, gets at 1. rewrite Hc, Hu, Hfee. cbn [rf_tokens]. rewrite Hto, Hov. cbn [orb].
      unfold bind, catch, transfer, lift_bal. rewrite T. done.
  - rewrite (Hrun None t).
    + destruct (finished_runs t _ i c HC HL Hc) as (s1&E1&_&Ec1&_). rewrite E1. cbn [snd]. rewrite Ec1, lookup_delete.
      split; [|done]. split; [|done]. intros Haff. destruct (A1 Haff) as [? ?]. done.
    + eexists. split; [|reflexivity]. unfold bind at 1, gets at 1. rewrite Hc, Hu, Hfee. cbn [rf_tokens]. rewrite Hto, Hov. cbn [orb].
      unfold bind, catch, transfer, lift_bal. rewrite T. done.
Qed.

(** ** Corollaries on contracts *)
Lemma fact_rentee_stays s a i c c' t : config_ok -> reachable s -> action_ok a -> contracts (s_rent s) !! i = Some c -> r_rentee c = Some t ->
  contracts (s_rent (step s a)) !! i = Some c' -> r_rentee c' = Some t /\ r_start c' = r_start c.
Proof.
  intros HC Hs Ha Hc Ht Hc'. pose proof (fact_contract_step s a i c c' HC Hs Ha Hc Hc') as Hst.
  destruct Hst as [->|[(t'&Hn&_)|[(fee&p&md&ch&z&_&_&_&->)|(t'&fee&p&md&ch&z&_&_&_&_&_&_&_&_&->)]]]; try done. congruence.
Qed.
Lemma fact_terms_changed_by s a i c c' : config_ok -> reachable s -> action_ok a -> contracts (s_rent s) !! i = Some c ->
  contracts (s_rent (step s a)) !! i = Some c' -> ~ same_terms c c' ->
  changeable (r_duration c) /\ (exists fee p md ch, a = Extrinsic (Signed (r_renter c)) (C_change_subscription_terms i fee p md ch) /\
    r_rent_fee c' = RentTokens fee /\ period_of (r_duration c') = p) /\ terms_open (r_duration c').
Proof.
  intros HC Hs Ha Hc Hc' Hn. pose proof (fact_contract_step s a i c c' HC Hs Ha Hc Hc') as Hst.
  destruct Hst as [->|[(t'&_&->&_)|[(fee&p&md&ch&z&->&Hd&Hch&->)|(t'&fee&p&md&ch&z&_&_&Hd&_&_&_&_&_&->)]]].
  - exfalso. apply Hn. unfold same_terms. split_and!; done.
  - exfalso. apply Hn. unfold same_terms. split_and!; done.
  - split; [by exists z|]. split; [|done]. eexists _, _, _, _. split; [reflexivity|]. done.
  - exfalso. apply Hn. unfold same_terms. cbn. rewrite Hd. split_and!; done.
Qed.
Lemma fact_terms_accepted s a i c c' : config_ok -> reachable s -> action_ok a -> contracts (s_rent s) !! i = Some c -> terms_open (r_duration c) ->
  contracts (s_rent (step s a)) !! i = Some c' -> ~ terms_open (r_duration c') ->
  exists t fee p md ch x, a = Extrinsic (Signed t) (C_accept_subscription_terms i fee p md ch) /\ r_rentee c = Some t /\
    r_rent_fee c = RentTokens fee /\ r_duration c = Subscription x /\ period_length x = p /\ is_changeable x = ch /\
    (forall m, md = Some m -> max_duration x = m) /\ same_terms c c'.
Proof.
  intros HC Hs Ha Hc Hto Hc' Hn. pose proof (fact_contract_step s a i c c' HC Hs Ha Hc Hc') as Hst.
  destruct Hst as [->|[(t'&_&->&_)|[(fee&p&md&ch&z&->&Hd&Hch&->)|(t'&fee&p&md&ch&z&->&Hr&Hd&Hnt&Hf&Hp&Hm&Hch&->)]]]; try done.
  eexists _, _, _, _, _, _. split; [reflexivity|]. split_and!; try done. unfold same_terms. cbn. rewrite Hd. split_and!; done.
Qed.
Lemma fact_open_not_charged s t t' i c : config_ok -> reachable s -> turn HookRent s t t' -> contracts (s_rent s) !! i = Some c ->
  terms_open (r_duration c) \/ over c (s_now s + 1) \/ (forall x, r_duration c <> Subscription x) \/ r_rentee c = None ->
  exists l, rent_effects t l t' /\ s_rent (next_block s) = s_rent t' /\ (i ∈ l -> contracts (s_rent (next_block s)) !! i = None).
Proof.
  intros HC Hs Ht Hc Hcase. destruct (fact_rent_turn s t t' HC Hs Ht) as (_&Er&En&l&He&_&Hren&_). exists l. split; [done|]. split; [done|].
  rewrite En. intros Hi. destruct (contracts (s_rent t') !! i) as [c'|] eqn:Hc'; [|done]. exfalso.
  destruct (Hren i c' Hi Hc') as (R1&R2&R3&[x R4]&_).
  destruct (re_in _ _ _ He i Hi) as (c0&Hc0&[E|E]); [congruence|]. rewrite Er in Hc0. assert (c' = c) as -> by congruence.
  destruct Hcase as [?|[?|[Hx|?]]]; [done|done|by apply (Hx x)|done].
Qed.
Lemma fact_rent_bounded s : config_ok -> reachable s -> exists l, nlen l <= N.max 1 rent_actions + 2 /\
  forall i, i ∉ l -> contracts (s_rent (next_block s)) !! i = contracts (s_rent s) !! i /\ forall b, scheduled (next_block s) i b <-> scheduled s i b.
Proof.
  intros HC Hs. destruct (turn_exists HookRent s HC) as (t&t'&Ht).
  destruct (fact_rent_turn s t t' HC Hs Ht) as (_&Er&En&l&He&_&_&Hsch&Hl&_). exists l. split; [done|]. intros i Hi. split.
  - rewrite En, (re_out _ _ _ He i Hi), Er. done.
  - intros b. unfold scheduled at 1. rewrite En. by apply Hsch.
Qed.
End facts.
