(** The calls of pallet rent in closed form, and the invariant of its storages. *)
From Verif Require Export Queue Pots.
Local Open Scope N_scope.

Section rentcalls.
Context {C : Config}.

Definition add_avail (i b : N) (q : rent_queues) : rent_queues := q <| q_avail ::= q_ins (i, b) |>.
Definition moved_q (i b : N) (k : queue_kind) (q : rent_queues) : rent_queues :=
  match k with
  | QFixed => mkQueues (q_ins (i, b) (q_fixed q)) (q_sub q) (q_del i (q_avail q))
  | _ => mkQueues (q_fixed q) (q_ins (i, b) (q_sub q)) (q_del i (q_avail q))
  end.

Definition tokens (f : rent_fee) : N := default 0 (rf_tokens f).
Definition zero_or_big (n : N) : Prop := n = 0 \/ rent_ed < n.

Lemma rcreate_ok who id di acc cr fee cf1 cf2 s r s' : create_contract who id di acc cr fee cf1 cf2 s = (Ok r, s') ->
  exists b d, nfts (s_nft s) !! id = Some d /\ owner d = who /\ rentable_state (nstate d) = true /\
    queues_size (queues (s_rent s)) + 1 <= rent_limit /\
    0 < full_duration (to_duration di) <= duration_limit /\ 0 < duration_or_period (to_duration di) <= duration_limit /\
    allows_rent_fee (to_duration di) fee = true /\ allows_cancellation (to_duration di) cf1 = true /\
    allows_cancellation (to_duration di) cf2 = true /\
    zero_or_big (cf_amount cf1) /\ zero_or_big (cf_amount cf2) /\
    transfer_b who rent_pot (cf_amount cf1) true (s_bal s) = Ok b /\ s_bal s' = b /\
    s_rent s' = mkRentSt (<[id := mkContract None who None (to_duration di) acc cr fee cf1 cf2 (s_now s)]> (contracts (s_rent s)))
      (offers (s_rent s)) (add_avail id (s_now s + availability_limit) (queues (s_rent s))).
Proof.
  intros H. destruct r. pose proof H as H0. apply create_contract_run in H0 as (b&n1&q&d&Hd&Ho&Hr&T&_&Hq&->).
  exists b, d. unfold create_contract in H. do 13 mstep H.
  all: apply bind_ok in H as ([]&s0&HW&H); assert (s0 = s) as -> by (by minv HW); clear HW.
  all: apply bind_ok in H as ([]&s0&HW&H); assert (s0 = s) as -> by (by minv HW); clear HW.
  all: do 2 mstep H; clear H.
  unfold queues_can_grow in E. apply N.leb_le in E. rewrite Hd in U. injection U as <-.
  cbn [queues_insert] in Hq. apply fmap_Some in Hq as (l&Hl&->). apply q_insert_some in Hl as [_ ->].
  assert (Hz : forall n, (n =? 0) || (rent_ed <? n) = true -> zero_or_big n).
  { intros n [?%N.eqb_eq|?%N.ltb_lt]%orb_true_iff; [by left|by right]. }
  split_and!; auto; try (apply N.ltb_lt; assumption); try (apply N.leb_le; assumption); done.
Qed.

Lemma finished_ok id s r s' : handle_finished id s = (Ok r, s') ->
  exists c b1 b2, contracts (s_rent s) !! id = Some c /\
    transfer_b rent_pot (r_renter c) (cf_amount (r_renter_cf c)) false (s_bal s) = Ok b1 /\
    match r_rentee c with
    | Some t => transfer_b rent_pot t (cf_amount (r_rentee_cf c)) false b1 = Ok b2
    | None => b2 = b1
    end /\
    s_bal s' = b2 /\ s_rent s' = s_rent s <| contracts ::= delete id |>.
Proof.
  intros H. unfold handle_finished in H. do 5 mstep H. clear U0.
  apply bind_ok in H as ([]&s1&H1&H).
  assert (exists b2, match r_rentee x with
    | Some t => transfer_b rent_pot t (cf_amount (r_rentee_cf x)) false b = Ok b2
    | None => b2 = b end /\ s1 = s <| s_bal := b2 |>) as (b2&Hb2&->).
  { destruct (r_rentee x); cbn [on_some] in H1; minv H1; subst; eexists; split; try done. }
  clear H1. apply bind_ok in H as ([]&s2&H2&H). apply bind_ok in H as ([]&s3&H3&H).
  assert (s_bal s2 = b2 /\ s_rent s2 = s_rent s) as [Eb2 Er2].
  { apply on_some_ok in H2 as [(j&_&H2)|[_ <-]]; [|done]. unfold change_nft_ownership in H2. minv H2. by subst. }
  assert (s_bal s3 = b2 /\ s_rent s3 = s_rent s) as [Eb3 Er3].
  { apply on_some_ok in H3 as [(t&_&H3)|[_ <-]]; [|done]. apply on_some_ok in H3 as [(j&_&H3)|[_ <-]]; [|done].
    unfold change_nft_ownership in H3. minv H3. by subst. }
  minv H. subst s'. exists x, b, b2. st_cbn. rewrite Er3. split_and!; done.
Qed.

Lemma rcancel_ok who id s r s' : cancel_contract who id s = (Ok r, s') ->
  exists c b1, contracts (s_rent s) !! id = Some c /\ r_renter c = who /\ r_rentee c = None /\
    transfer_b rent_pot (r_renter c) (cf_amount (r_renter_cf c)) false (s_bal s) = Ok b1 /\ s_bal s' = b1 /\
    s_rent s' = mkRentSt (delete id (contracts (s_rent s))) (delete id (offers (s_rent s))) (queues (s_rent s) <| q_avail ::= q_del id |>).
Proof.
  intros H. unfold cancel_contract in H. do 6 mstep H.
  apply bind_ok in H as ([]&s1&H1&H). mstep H. subst s'.
  apply finished_ok in H1 as (c&b1&b2&Hc&T1&T2&Eb&Er). st_cbn_in Hc. rewrite U in Hc. injection Hc as <-.
  destruct (r_rentee x) eqn:Ex; [done|]. subst b2.
  exists x, b1. st_cbn_in T1. split_and!; done.
Qed.

(** The two payments when a contract starts. *)
Lemma take_ok t c s s' : take_rent_and_cancellation_fee t c s = (Ok tt, s') ->
  exists b1 b2, transfer_b t (r_renter c) (tokens (r_rent_fee c)) true (s_bal s) = Ok b1 /\
    transfer_b t rent_pot (cf_amount (r_rentee_cf c)) true b1 = Ok b2 /\ s_bal s' = b2 /\ s_rent s' = s_rent s /\ s_now s' = s_now s.
Proof.
  intros H. unfold take_rent_and_cancellation_fee in H.
  apply bind_map_err in H. do 1 mstep H. apply bind_map_err in H. mstep H.
  exists b, b0. st_cbn_in T0. split; [exact T|]. split; [exact T0|].
  cut (s_bal s' = b0 /\ s_rent s' = s_rent s /\ s_now s' = s_now s); [done|].
  set (sb := s <| s_bal := b |> <| s_bal := b0 |>) in *.
  cut (pres (fun t0 => s_bal t0 = b0 /\ s_rent t0 = s_rent s /\ s_now t0 = s_now s)
    (check_fee_nft t (rf_nft (r_rent_fee c)) (rerr R_RentNFTNotFound) (rerr R_RenteeDoesNotOwnTheRentNFT) (rerr R_RentNFTNotInValidState) ;;;
     check_fee_nft t (cf_nft (r_rentee_cf c)) (rerr R_CancellationNFTNotFound) (rerr R_RenteeDoesNotOwnTheCancellationNFT) (rerr R_CancellationNFTNotInValidState) ;;;
     on_some (rf_nft (r_rent_fee c)) (fun i => map_err (rerr R_RentNFTNotFound) (change_nft_ownership i (r_renter c))) ;;;
     on_some (cf_nft (r_rentee_cf c)) (fun i => map_err (rerr R_RentNFTNotFound) (change_nft_ownership i rent_pot)))).
  { intros Hp. unfold pres in Hp. specialize (Hp sb ltac:(done)). cbv beta in Hp. rewrite H in Hp. exact Hp. }
  clear H. pres_go; st_cbn; assumption.
Qed.

Lemma start_ok id t c s s1 s' r : take_rent_and_cancellation_fee t c s = (Ok tt, s1) -> start_contract id t c s1 = (Ok r, s') ->
  exists b1 b2, transfer_b t (r_renter c) (tokens (r_rent_fee c)) true (s_bal s) = Ok b1 /\
    transfer_b t rent_pot (cf_amount (r_rentee_cf c)) true b1 = Ok b2 /\ s_bal s' = b2 /\
    s_rent s' = mkRentSt (<[id := c <| r_rentee := Some t |> <| r_start := Some (s_now s) |>]> (contracts (s_rent s)))
      (delete id (offers (s_rent s))) (moved_q id (s_now s + duration_or_period (r_duration c)) (kind_of (r_duration c)) (queues (s_rent s))).
Proof.
  intros H1 H2. apply take_ok in H1 as (b1&b2&T1&T2&Eb&Er&En). destruct r. apply start_contract_run in H2 as (q&Hq&->).
  exists b1, b2. split_and!; try done. st_cbn. rewrite Er, En. rewrite Er, En in Hq.
  assert (q = moved_q id (s_now s + duration_or_period (r_duration c)) (kind_of (r_duration c)) (queues (s_rent s))) as ->; [|done].
  destruct (kind_of (r_duration c)) eqn:Ek; cbn [queues_insert queues_remove moved_q] in *;
    try (apply fmap_Some in Hq as (l&Hl&->); apply q_insert_some in Hl as [_ ->]; done).
  by destruct (r_duration c).
Qed.

Lemma rent_ok who id cb s r s' : rent who id cb s = (Ok r, s') ->
  exists c b1 b2, contracts (s_rent s) !! id = Some c /\ r_creation c = cb /\ r_rentee c = None /\ r_renter c <> who /\
    is_manual (r_acceptance c) = false /\ whitelisted (r_acceptance c) who = true /\
    transfer_b who (r_renter c) (tokens (r_rent_fee c)) true (s_bal s) = Ok b1 /\
    transfer_b who rent_pot (cf_amount (r_rentee_cf c)) true b1 = Ok b2 /\ s_bal s' = b2 /\
    s_rent s' = mkRentSt (<[id := c <| r_rentee := Some who |> <| r_start := Some (s_now s) |>]> (contracts (s_rent s)))
      (delete id (offers (s_rent s))) (moved_q id (s_now s + duration_or_period (r_duration c)) (kind_of (r_duration c)) (queues (s_rent s))).
Proof.
  intros H. unfold rent in H. do 7 mstep H.
  apply bind_ok in H as ([]&s1&H1&H). apply bind_ok in H as ([]&s2&H2&H).
  destruct (start_ok _ _ _ _ _ _ _ H1 H2) as (b1&b2&T1&T2&Eb&Er). mstep H. subst s'.
  exists x, b1, b2. split_and!; done.
Qed.
Lemma raccept_ok who id t s r s' : accept_rent_offer who id t s = (Ok r, s') ->
  exists c l b1 b2, contracts (s_rent s) !! id = Some c /\ offers (s_rent s) !! id = Some l /\ r_renter c = who /\ t ∈ l /\
    transfer_b t (r_renter c) (tokens (r_rent_fee c)) true (s_bal s) = Ok b1 /\
    transfer_b t rent_pot (cf_amount (r_rentee_cf c)) true b1 = Ok b2 /\ s_bal s' = b2 /\
    s_rent s' = mkRentSt (<[id := c <| r_rentee := Some t |> <| r_start := Some (s_now s) |>]> (contracts (s_rent s)))
      (delete id (offers (s_rent s))) (moved_q id (s_now s + duration_or_period (r_duration c)) (kind_of (r_duration c)) (queues (s_rent s))).
Proof.
  intros H. unfold accept_rent_offer in H. do 6 mstep H.
  apply bind_ok in H as ([]&s1&H1&H). apply bind_ok in H as ([]&s2&H2&H).
  destruct (start_ok _ _ _ _ _ _ _ H1 H2) as (b1&b2&T1&T2&Eb&Er). mstep H. subst s'.
  exists x, x0, b1, b2. split_and!; try done. by apply memN_iff.
Qed.
Lemma roffer_ok who id cb s r s' : make_rent_offer who id cb s = (Ok r, s') ->
  exists c, contracts (s_rent s) !! id = Some c /\ r_creation c = cb /\ r_start c = None /\ r_renter c <> who /\
    is_manual (r_acceptance c) = true /\ whitelisted (r_acceptance c) who = true /\ who ∉ default [] (offers (s_rent s) !! id) /\
    s_bal s' = s_bal s /\ s_nft s' = s_nft s /\
    s_rent s' = mkRentSt (contracts (s_rent s)) (<[id := default [] (offers (s_rent s) !! id) ++ [who]]> (offers (s_rent s))) (queues (s_rent s)).
Proof.
  intros H. unfold make_rent_offer in H. do 13 mstep H.
  all: apply bind_ok in H as ([]&s0&HW&H); assert (s0 = s) as -> by (by minv HW); clear HW.
  all: minv H; subst s'; st_cbn; eexists; split_and!; try done.
  all: try (by destruct (r_start _)); rewrite <- memN_iff; congruence.
Qed.
Lemma rretract_ok who id s r s' : retract_rent_offer who id s = (Ok r, s') ->
  exists l k, offers (s_rent s) !! id = Some l /\ s_bal s' = s_bal s /\ s_nft s' = s_nft s /\
    s_rent s' = mkRentSt (contracts (s_rent s)) (<[id := delete k l]> (offers (s_rent s))) (queues (s_rent s)).
Proof. intros H. minv H. subst s'. st_cbn. eexists _, _. split_and!; done. Qed.
Lemma rchange_ok who id fee p md ch s r s' : change_subscription_terms who id fee p md ch s = (Ok r, s') ->
  exists c o, contracts (s_rent s) !! id = Some c /\ r_renter c = who /\ can_adjust (r_duration c) = true /\
    0 < default duration_limit md <= duration_limit /\ 0 < p <= duration_limit /\ s_bal s' = s_bal s /\ s_nft s' = s_nft s /\
    o = match r_rentee c with None => delete id (offers (s_rent s)) | Some _ => offers (s_rent s) end /\
    s_rent s' = mkRentSt (<[id := c <| r_duration := Subscription (mkSub p (default duration_limit md) ch true) |>
         <| r_rent_fee := RentTokens fee |>]> (contracts (s_rent s))) o (queues (s_rent s)).
Proof.
  intros H. unfold change_subscription_terms in H. do 8 mstep H.
  apply bind_ok in H as ([]&s0&HW&H). exists x. destruct (r_rentee x) eqn:Ex; cbn [negb when] in HW; minv HW; minv H; subst.
  all: eexists; st_cbn; split_and!; try done; try (apply N.ltb_lt; assumption); try (apply N.leb_le; assumption).
Qed.
Lemma raccterms_ok who id fee p md ch s r s' : accept_subscription_terms who id fee p md ch s = (Ok r, s') ->
  exists c sub, contracts (s_rent s) !! id = Some c /\ r_duration c = Subscription sub /\ r_rentee c = Some who /\
    new_terms sub = true /\ r_rent_fee c = RentTokens fee /\ period_length sub = p /\ (forall m, md = Some m -> max_duration sub = m) /\
    is_changeable sub = ch /\ s_bal s' = s_bal s /\ s_nft s' = s_nft s /\
    s_rent s' = mkRentSt (<[id := c <| r_duration := Subscription (sub <| new_terms := false |>) |>]> (contracts (s_rent s))) (offers (s_rent s)) (queues (s_rent s)).
Proof.
  intros H. unfold accept_subscription_terms in H. minv H. subst s'. st_cbn.
  destruct (r_duration x) as [|sub] eqn:Ed; [done|]. injection U0 as <-.
  destruct (r_rentee x) as [t|] eqn:Er; [|done]. apply N.eqb_eq in E. subst t.
  repeat match goal with Hx : _ && _ = true |- _ => apply andb_true_iff in Hx as [? ?] end.
  exists x, sub. destruct (r_rent_fee x) as [f|] eqn:Ef; [|done].
  split_and!; try done; try (by apply N.eqb_eq).
  - by f_equal; apply N.eqb_eq.
  - intros m ->. by apply N.eqb_eq.
  - by apply eqb_prop.
  - assert (x <| r_duration ::= set_terms_changed false |> = x <| r_duration := Subscription (sub <| new_terms := false |>) |>) as ->; [|done].
    unfold set. cbn [r_duration]. destruct x. cbn in Ed. subst. done.
Qed.
Lemma rrevoke_ok who id s r s' : revoke_contract who id s = (Ok r, s') ->
  exists c t b1 b2, contracts (s_rent s) !! id = Some c /\ r_rentee c = Some t /\
    (who = r_renter c /\ r_can_revoke c = true \/ who <> r_renter c /\ who = t) /\
    let ir := r_renter c =? who in
    let damaged := if ir then t else r_renter c in
    let deposited := if ir then r_rentee_cf c else r_renter_cf c in
    let price := if ir then r_renter_cf c else r_rentee_cf c in
    transfer_b rent_pot damaged (cf_amount deposited) false (s_bal s) = Ok b1 /\
    match cf_flexible price with
    | Some full => exists pc bx, percentage_of_completion c (s_now s) = Some pc /\
        transfer_b rent_pot who (permill_mul pc full) false b1 = Ok bx /\
        transfer_b rent_pot damaged (full - permill_mul pc full) false bx = Ok b2
    | None => transfer_b rent_pot damaged (cf_amount price) false b1 = Ok b2
    end /\ s_bal s' = b2 /\
    s_rent s' = mkRentSt (delete id (contracts (s_rent s))) (offers (s_rent s)) (queues_remove id (kind_of (r_duration c)) (queues (s_rent s))).
Proof.
  intros H. unfold revoke_contract in H. do 5 mstep H.
  apply bind_ok in H as ([]&s0&HW&H).
  assert (s0 = s /\ (who = r_renter x /\ r_can_revoke x = true \/ who <> r_renter x /\ who = x0)) as [-> Hw].
  { destruct (N.eqb_spec (r_renter x) who) as [<-|Hne]; cbn [when orb] in *; minv HW; [by auto|].
    split; [done|]. right. split; [congruence|]. by destruct E. }
  clear HW. exists x, x0. set (ir := r_renter x =? who) in *. cbv zeta in H.
  set (damaged := if ir then x0 else r_renter x) in *.
  set (deposited := if ir then r_rentee_cf x else r_renter_cf x) in *.
  set (price := if ir then r_renter_cf x else r_rentee_cf x) in *.
  apply bind_ok in H as ([]&s1&H1&H). apply bind_ok in H as ([]&s2&H2&H).
  assert (Hret : forall f dst t t' u, return_cancellation_fee f dst t = (Ok u, t') ->
    exists b, transfer_b rent_pot dst (cf_amount f) false (s_bal t) = Ok b /\ s_bal t' = b /\ s_rent t' = s_rent t).
  { clear. intros f dst t t' u H. unfold return_cancellation_fee in H. mstep H.
    exists b. split; [done|]. apply on_some_ok in H as [(j&_&H)|[_ <-]]; [|done]. unfold change_nft_ownership in H. minv H. by subst. }
  apply Hret in H1 as (b1&T1&Eb1&Er1). exists b1.
  assert (exists b2, match cf_flexible price with
    | Some full => exists pc bx, percentage_of_completion x (s_now s) = Some pc /\
        transfer_b rent_pot who (permill_mul pc full) false b1 = Ok bx /\
        transfer_b rent_pot damaged (full - permill_mul pc full) false bx = Ok b2
    | None => transfer_b rent_pot damaged (cf_amount price) false b1 = Ok b2
    end /\ s_bal s2 = b2 /\ s_rent s2 = s_rent s) as (b2&T2&Eb2&Er2).
  { destruct (cf_flexible price) as [full|].
    - unfold return_flexible_fee in H2. minv H2. subst. st_cbn_in T0. eexists. split; [|split; [reflexivity|exact Er1]]. eauto 6.
    - apply Hret in H2 as (b2&T2&Eb2&Er2). exists b2. rewrite Eb1 in T2. split; [done|]. split; [done|]. congruence. }
  clear H2. exists b2. split; [done|]. split; [done|]. split; [done|]. cbv zeta. split; [exact T1|]. split; [exact T2|].
  minv H. subst s'. st_cbn. split; [done|]. rewrite Er2. done.
Qed.
End rentcalls.
