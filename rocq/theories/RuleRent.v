(** When the calls of pallet rent succeed. *)
From Verif Require Export RuleNft RentFacts5.
Local Open Scope N_scope.

Section rules.
Context {C : Config}.
Implicit Types (s : state).

Lemma lendable_iff d : rentable_state (nstate d) = true <-> lendable d.
Proof. unfold rentable_state, lendable, unengaged. rewrite !andb_true_iff, !negb_true_iff. tauto. Qed.
Lemma fee_tokens f : default 0 (rf_tokens f) = token_fee f.
Proof. by destruct f. Qed.

Lemma check_nft_rule w oi e1 e2 e3 s s' : check_fee_nft w oi e1 e2 e3 s = (Ok tt, s') <->
  s' = s /\ forall i, oi = Some i -> with_nft s w i lendable.
Proof.
  split.
  - intros H. unfold check_fee_nft in H. destruct oi as [i|]; cbn [on_some] in H; minv H; (split; [done|]); intros j Hj; [|done]. injection Hj as <-.
    exists x. split_and!; [done|done|by apply lendable_iff].
  - intros [-> H]. unfold check_fee_nft. destruct oi as [i|]; [|done]. destruct (H i eq_refl) as (d&Hd&<-&Hl%lendable_iff).
    cbn. unfold bind, get_nft, gets. rewrite Hd. cbn. rewrite N.eqb_refl. cbn. by rewrite Hl.
Qed.

(** Handing NFTs over succeeds when they exist, and keeps what exists. *)
Lemma ok_give (oi : option N) dst (k : unit -> M unit) s :
  (forall j, oi = Some j -> is_Some (nfts (s_nft s) !! j)) ->
  (forall n, (forall j, is_Some (nfts (s_nft s) !! j) -> is_Some (nfts n !! j)) -> succeeds (k tt) (s <| s_nft := n |>)) ->
  succeeds (bind (on_some oi (fun i => change_nft_ownership i dst)) k) s.
Proof.
  intros H Hk. apply ok_on_some. destruct oi as [j|].
  - destruct (H j eq_refl) as [d Hd]. unfold change_nft_ownership. okgo. apply Hk. intros j' Hj'. st_cbn. by apply lookup_insert_is_Some'; right.
  - replace s with (s <| s_nft := s_nft s |>) by (by destruct s). by apply Hk.
Qed.
Lemma ok_give_err e (oi : option N) dst (k : unit -> M unit) s :
  (forall j, oi = Some j -> is_Some (nfts (s_nft s) !! j)) ->
  (forall n, (forall j, is_Some (nfts (s_nft s) !! j) -> is_Some (nfts n !! j)) -> succeeds (k tt) (s <| s_nft := n |>)) ->
  succeeds (bind (on_some oi (fun i => map_err e (change_nft_ownership i dst))) k) s.
Proof.
  intros H Hk. apply ok_on_some. destruct oi as [j|].
  - destruct (H j eq_refl) as [d Hd]. apply ok_map_err. unfold change_nft_ownership. okgo. apply Hk. intros j' Hj'. st_cbn. by apply lookup_insert_is_Some'; right.
  - replace s with (s <| s_nft := s_nft s |>) by (by destruct s). by apply Hk.
Qed.

Lemma take_needs s t c s' : binv s -> take_rent_and_cancellation_fee t c s = (Ok tt, s') -> can_start s t c.
Proof.
  intros Hb H. pose proof (take_ok t c s s' H) as (b1&b2&T1&T2&_).
  unfold take_rent_and_cancellation_fee in H.
  apply bind_map_err in H. do 1 mstep H. apply bind_map_err in H. mstep H.
  apply bind_ok in H as ([]&s1&H1&H). apply check_nft_rule in H1 as [-> H1].
  apply bind_ok in H as ([]&s2&H2&H). apply check_nft_rule in H2 as [-> H2].
  split; [|split].
  - apply chain_can_pay; [done|]. cbn. rewrite token_amount, <- fee_tokens. eauto.
  - intros j E. apply (H1 j). by rewrite E.
  - intros j E. apply (H2 j). by rewrite E.
Qed.
Lemma take_suffices s t c (k : unit -> M unit) : binv s -> can_start s t c ->
  (forall b n, succeeds (k tt) (s <| s_bal := b |> <| s_nft := n |>)) ->
  succeeds (bind (take_rent_and_cancellation_fee t c) k) s.
Proof.
  intros Hb [Hp [N1 N2]] Hk. apply chain_can_pay in Hp; [|done]. cbn in Hp. destruct Hp as (b1&P1&b2&P2&_).
  rewrite token_amount in P2. unfold take_rent_and_cancellation_fee. rewrite fee_tokens. okstep. okstep. okstep; [exact P1|]. okstep. okstep. okstep; [exact P2|].
  assert (forall j, rf_nft (r_rent_fee c) = Some j -> with_nft s t j lendable) as N1' by (intros j E; apply N1; destruct (r_rent_fee c); naive_solver).
  assert (forall j, cf_nft (r_rentee_cf c) = Some j -> with_nft s t j lendable) as N2' by (intros j E; apply N2; destruct (r_rentee_cf c); naive_solver).
  okstep. eapply ok_run; [apply check_nft_rule; split; [reflexivity|exact N1']|].
  okstep. eapply ok_run; [apply check_nft_rule; split; [reflexivity|exact N2']|].
  okstep. apply ok_give_err; [intros j (d&Hd&_)%N1'; by eexists|]. intros n Hn.
  apply ok_give_err; [intros j (d&Hd&_)%N2'; apply Hn; by eexists|]. intros n' _. apply Hk.
Qed.

(** The contract moves between the queues: there is room. *)
Lemma start_suffices s b n i t c (k : unit -> M unit) : config_ok -> reachable s -> contracts (s_rent s) !! i = Some c -> r_rentee c = None ->
  (forall s', succeeds (k tt) s') ->
  succeeds (bind (start_contract i t c) k) (s <| s_bal := b |> <| s_nft := n |>).
Proof.
  intros HC Hs Hc Hr Hk. pose proof (fact_rent_scheduled s i c HC Hs Hc) as Hsch.
  destruct (reachable_rent s HC Hs) as [[HF HS HA Hz HK] _]. pose proof (c_run _ _ (HK _ _ Hc)) as Hrun. rewrite Hr in Hrun.
  destruct (r_start c); [done|]. destruct Hsch as [Hin _]. unfold queues_size in Hz.
  assert (0 < nlen (q_avail (queues (s_rent s)))) as Hpos by (destruct (q_avail (queues (s_rent s))); [by apply elem_of_nil in Hin|unfold nlen; cbn; lia]).
  assert (exists q', queues_insert i (s_now s + duration_or_period (r_duration c)) (kind_of (r_duration c)) (queues_remove i QAvail (queues (s_rent s))) = Some q') as [q' Hq].
  { destruct (r_duration c); cbn [kind_of queues_insert queues_remove]; unfold q_insert; st_cbn;
      rewrite (proj2 (N.ltb_lt _ _)) by lia; by eexists. }
  unfold start_contract. okgo. apply Hk.
Qed.

Lemma wl_iff c w : whitelisted (r_acceptance c) w = true <-> invited c w.
Proof.
  unfold whitelisted, invited. destruct (r_acceptance c) as [[l|]|[l|]]; cbn; rewrite ?memN_iff; (split; [intros H l' [E|E]; naive_solver|]); auto.
Qed.
Lemma manual_iff c : is_manual (r_acceptance c) = true <-> manual c.
Proof. unfold manual. destruct (r_acceptance c); cbn; (split; [intros ?; try done; by eexists|]); [|done]. by intros [? ?]. Qed.
Lemma automatic_iff c : is_manual (r_acceptance c) = false <-> automatic c.
Proof. unfold automatic. destruct (r_acceptance c); cbn; (split; [intros ?; try done; by eexists|]); [done|]. by intros [? ?]. Qed.

Lemma check_unlocked s w x : balance_check (s_bal s) w x = true <-> has_unlocked s w x.
Proof.
  unfold balance_check, can_withdraw, has_unlocked. destruct (N.ltb_spec (free (s_bal s) w) x) as [H|H].
  - split; [done|]. lia.
  - rewrite orb_true_iff, N.eqb_eq, N.leb_le. lia.
Qed.

(** The pot pays one deposit. *)
Lemma rent_pot_pays s w x : config_ok -> reachable s -> w ∉ pots -> x = 0 \/ rent_ed < x ->
  (exists b, transfer_b rent_pot w x false (s_bal s) = Ok b) <-> x <= free (s_bal s) rent_pot.
Proof.
  intros [Hed Hae Hre ?????] Hs Hw Hx.
  rewrite death_rule; [|by apply reachable_binv|apply pot_unfrozen; [by apply reachable_sreach|unfold pots; right; left]].
  assert (rent_pot <> w) by (intros <-; apply Hw; unfold pots; right; left). split.
  - intros [->|[?|[H1 H2]]]; [lia|done|done].
  - intros H1. destruct Hx as [->|Hx]; [by left|]. right. right. lia.
Qed.

Lemma offered_iff s i t : offered s i t <-> t ∈ default [] (offers (s_rent s) !! i).
Proof.
  unfold offered. destruct (offers (s_rent s) !! i) as [l|]; cbn.
  - split; [by intros (?&[= <-]&?)|eauto].
  - split; [by intros (?&?&?)|by intros ?%elem_of_nil].
Qed.

Lemma di_total di : full_duration (to_duration di) = total_in di.
Proof. by destruct di. Qed.
Lemma di_period di : duration_or_period (to_duration di) = period_in di.
Proof. by destruct di. Qed.
Lemma di_fee di f : allows_rent_fee (to_duration di) f = true <-> (sub_in di -> forall j, f <> RentNFT j).
Proof. destruct di, f; cbn; split; auto; try done. intros H. by destruct (H I id). Qed.
Lemma di_cancel di f : allows_cancellation (to_duration di) f = true <-> (sub_in di -> forall x, f <> FlexibleTokens x).
Proof. destruct di, f; cbn; split; auto; try done. intros H. by destruct (H I x). Qed.
Lemma deposit_iff f : (cf_amount f =? 0) || (rent_ed <? cf_amount f) = true <-> good_deposit f.
Proof. unfold good_deposit. rewrite token_amount, orb_true_iff, N.eqb_eq, N.ltb_lt. done. Qed.

Lemma pay_pot s w x : config_ok -> binv s -> w <> rent_pot -> x = 0 \/ rent_ed < x ->
  (exists b, transfer_b w rent_pot x true (s_bal s) = Ok b) <-> affords s w x.
Proof.
  intros [Hed Hae Hre ?????] Hb Hw Hx. rewrite transfer_rule by done. unfold affords. split.
  - intros [->|[?|[? ?]]]; [by left|done|by right].
  - intros [->|?]; [by left|]. destruct Hx as [->|Hx]; [by left|]. right. right. split; [done|lia].
Qed.

Lemma kept_det c now f x y : kept_share c now f x -> kept_share c now f y -> x = y.
Proof.
  destruct f; cbn; try congruence. intros (p&(st&E&->)&H1) (q&(st'&E'&->)&H2). rewrite E in E'. injection E' as <-.
  by eapply permill_share_det.
Qed.

Lemma fact_rent_rule s w c : config_ok -> reachable s -> w ∉ pots -> wf_call c = true -> is_rent_call c ->
  (exists s', dispatch (Signed w) c s = (Ok tt, s')) <-> rent_rule s w c.
Proof.
  intros Hcfg Hs Hw Hwf Hc. pose proof (ok_ed Hcfg) as Hed. pose proof (reachable_binv s Hs) as Hb.
  pose proof (reachable_inv1 s Hs) as H1. destruct (reachable_rent s Hcfg Hs) as [Hrok _].
  assert (frozen (s_bal s) rent_pot = 0) as Hfz by (apply pot_unfrozen; [by apply reachable_sreach|unfold pots; right; left]).
  assert (w <> rent_pot) as Hwp by (intros ->; apply Hw; unfold pots; right; left).
  apply rule_intro; [done| |].
  - intros s' H. destruct c; try done; cbn [exec_call signed root] in H; try done; cbn [rent_rule].
    + pose proof (create_contract_run _ _ _ _ _ _ _ _ _ _ H) as (b&n1&q&nd&Hd&Ho&Hl&HT&Hcf&_&_).
      unfold create_contract in H. do 13 mstep H.
      apply bind_ok in H as ([]&s0&HW1&H); assert (s0 = s) as -> by (by minv HW1).
      apply bind_ok in H as ([]&s0&HW2&H); assert (s0 = s) as -> by (by minv HW2).
      do 2 mstep H. clear H.
      unfold queues_can_grow, queues_size in E. apply N.leb_le in E.
      rewrite di_total, di_period in *. rewrite di_fee in *. rewrite di_cancel in *.
      split_and!; try done; try lia.
      all: try (unfold good_deposit; rewrite token_amount; first [by apply orb_true_iff | by left | by right | assumption]).
      * exists nd. split_and!; [done|done|by apply lendable_iff].
      * intros Hsub. split; [by auto|]. intros x0. split; [by auto|by auto].
      * intros j [->| ->]; [cbn in HW1; minv HW1; by eexists|cbn in HW2; minv HW2; by eexists].
      * rewrite token_amount. apply (pay_pot s w); [done|done|done| |by eexists]. done.
      * intros j ->. destruct Hcf as [[_ ?]|(j'&y&[= <-]&Hy&Hyo&Hyl&_)]; [done|]. exists y. split_and!; [done|done|by apply lendable_iff].
    + apply rcancel_ok in H as (c&b1&Hc'&<-&Hr&HT&_). exists c. split_and!; [done..|]. rewrite token_amount.
      apply (rent_pot_pays s (r_renter c)); [done|done|done| |by eexists]. apply (c_cf1 _ _ (r_cok _ _ _ Hrok _ _ Hc')).
    + apply rrevoke_ok in H as (c&t&b1&b2&Hc'&Ht&Hwho&H). cbv zeta in H. destruct H as (T1&T2&_).
      pose proof (r_cok _ _ _ Hrok _ _ Hc') as Hcok.
      set (other := if r_renter c =? w then t else r_renter c) in *.
      set (theirs := if r_renter c =? w then r_rentee_cf c else r_renter_cf c) in *.
      set (own := if r_renter c =? w then r_renter_cf c else r_rentee_cf c) in *.
      assert (revokes c w other own theirs) as Hrev.
      { unfold revokes, other, own, theirs. destruct Hwho as [[-> ?]|[? <-]].
        - rewrite N.eqb_refl. left. split_and!; done.
        - rewrite (proj2 (N.eqb_neq (r_renter c) w)) by congruence. right. split_and!; done. }
      exists c, other, own, theirs.
      destruct (cf_flexible own) as [full|] eqn:Eown.
      * destruct T2 as (pc&bx&Hpc&T2&T3). exists (permill_mul pc full). split_and!; [done|done| |].
        -- destruct own; try done. injection Eown as ->. cbn. apply completion_is in Hpc as (p&Hp&->&_).
           2: { intros st Hst. apply (c_start _ _ Hcok) in Hst. lia. }
           exists p. split; [done|]. apply permill_mul_share.
        -- apply pchain_can_pay; [done..|]. cbn. rewrite !token_amount. destruct own; try done. injection Eown as ->. eauto 10.
      * exists 0. split_and!; [done|done|by destruct own|]. rewrite N.sub_0_r. apply pchain_can_pay; [done..|]. cbn.
        rewrite !token_amount. exists b1. split; [done|]. exists b1. split; [done|]. eauto.
    + pose proof H as H0. apply rent_ok in H0 as (c&_&_&Hc'&?&?&?&?%automatic_iff&?%wl_iff&_).
      exists c. split_and!; [done..|]. unfold rent in H. do 7 mstep H. apply bind_ok in H as ([]&s1&HK2&_).
      assert (x = c) as -> by congruence. by eapply take_needs.
    + pose proof H as H0. apply roffer_ok in H0 as (c&Hc'&?&Hst&?&?%manual_iff&?%wl_iff&Hno&_).
      pose proof (c_run _ _ (r_cok _ _ _ Hrok _ _ Hc')) as Hrun. rewrite Hst in Hrun.
      assert (r_rentee c = None) by (by destruct (r_rentee c)).
      unfold make_rent_offer in H. do 13 mstep H. assert (x = c) as -> by congruence.
      apply bind_ok in H as ([]&s1&HK2&H). apply check_nft_rule in HK2 as [-> HK2].
      apply bind_ok in H as ([]&s2&HK3&H). apply check_nft_rule in HK3 as [-> HK3]. mstep H. clear H.
      repeat match goal with Hq : balance_check _ _ _ = true |- _ => apply check_unlocked in Hq end.
      rewrite fee_tokens, <- token_amount in *.
      exists c. split_and!; try done.
      * by rewrite offered_iff.
      * split; intros j Ej; [apply (HK2 j)|apply (HK3 j)]; by rewrite Ej.
    + pose proof H as H0. apply raccept_ok in H0 as (c&l&_&_&Hc'&Hl&?&Hin&_).
      exists c. split_and!; [done|done|by eexists|]. unfold accept_rent_offer in H. do 6 mstep H. apply bind_ok in H as ([]&s1&HK2&_).
      assert (x = c) as -> by congruence. by eapply take_needs.
    + unfold retract_rent_offer in H. minv H. exists x. split; [done|]. by eapply elem_of_list_lookup_2, position_eqb.
    + apply rchange_ok in H as (c&o&Hc'&?&Hadj&?&?&_). exists c. split_and!; try done; unfold good_length; try lia.
      unfold can_adjust in Hadj. destruct (r_duration c); [done|]. by eexists.
    + apply raccterms_ok in H as (c&x&?&?&?&?&?&?&?&?&_). exists c, x. split_and!; done.
  - intros H. destruct c; try done; cbn [rent_rule] in H; cbn [exec_call signed].
    + destruct H as (Hq&(nd&Hd&<-&Hl%lendable_iff)&[T1 T2]&[P1 P2]&Hsub&Hex&D1&D2&Hpay&Hcf).
      rewrite <- di_total in T1, T2. rewrite <- di_period in P1, P2.
      assert (queues_can_grow (queues (s_rent s)) = true) as Hgrow by (unfold queues_can_grow, queues_size; apply N.leb_le; lia).
      assert (allows_rent_fee (to_duration d) fee = true) by (apply di_fee; intros X; by destruct (Hsub X)).
      assert (allows_cancellation (to_duration d) renter_cf = true) by (apply di_cancel; intros X y; by destruct (Hsub X) as [_ Hs2]; destruct (Hs2 y)).
      assert (allows_cancellation (to_duration d) rentee_cf = true) by (apply di_cancel; intros X y; by destruct (Hsub X) as [_ Hs2]; destruct (Hs2 y)).
      pose proof (proj2 (deposit_iff _) D1) as D1'. pose proof (proj2 (deposit_iff _) D2) as D2'. unfold good_deposit in D1.
      rewrite token_amount in Hpay, D1. apply pay_pot in Hpay as [b HT]; [|done..].
      assert (q_insert rent_limit id (s_now s + availability_limit) (q_avail (queues (s_rent s))) = Some (q_ins (id, s_now s + availability_limit) (q_avail (queues (s_rent s))))) as Hqi.
      { unfold q_insert. by rewrite (proj2 (N.ltb_lt _ _)) by lia. }
      unfold create_contract. okgo.
      destruct fee as [?|j1]; cbn [rf_nft]; [|destruct (Hex j1 (or_introl eq_refl)) as [dj1 Hj1]]; okgo.
      all: destruct rentee_cf as [| | |j2]; cbn [cf_nft]; try (destruct (Hex j2 (or_intror eq_refl)) as [dj2 Hj2]); okgo.
      all: destruct renter_cf as [| | |j3]; cbn [cf_nft]; try (destruct (Hcf j3 eq_refl) as (dj3&Hj3&?&?%lendable_iff)); okgo.
      all: (okstep; [cbn [queues_insert]; st_cbn; rewrite Hqi; reflexivity|]); okgo.
    + destruct H as (c&Hc'&<-&Hr&Hle). destruct (contract_nft s id c H1 Hc') as (d&Hd&_).
      rewrite token_amount in Hle. apply (rent_pot_pays s (r_renter c)) in Hle as [b HT]; [|done|done|done|apply (c_cf1 _ _ (r_cok _ _ _ Hrok _ _ Hc'))].
      assert (forall j, cf_nft (r_renter_cf c) = Some j -> is_Some (nfts (s_nft s) !! j)) as Hj.
      { intros j Ej. eapply (InvNft4.deposit_exists s id c true); done. }
      unfold cancel_contract. okgo.
      { okstep; [by rewrite Hr|]. okgo. rewrite Hr. cbn [on_some]. apply ok_assoc. apply ok_give; [done|]. intros n Hn. okgo. }
    + destruct H as (c&other&own&theirs&x&Hc'&Hrev&Hk&Hpay). destruct (contract_nft s id c H1 Hc') as (d&Hd&_).
      apply pchain_can_pay in Hpay; [|done..]. cbn in Hpay. destruct Hpay as (b1&P1&b2&P2&b3&P3&_). rewrite !token_amount in *.
      pose proof (r_cok _ _ _ Hrok _ _ Hc') as Hcok.
      assert (exists t, r_rentee c = Some t /\ ((r_renter c =? w) || (t =? w) = true) /\ ((r_renter c =? w) = true -> r_can_revoke c = true) /\
        other = (if r_renter c =? w then t else r_renter c) /\ theirs = (if r_renter c =? w then r_rentee_cf c else r_renter_cf c) /\
        own = (if r_renter c =? w then r_renter_cf c else r_rentee_cf c)) as (t&Ht&W1&W2&->&->&->).
      { destruct Hrev as [(->&?&?&->&->)|(?&?&->&->&->)].
        - exists other. rewrite N.eqb_refl. split_and!; done.
        - exists w. rewrite (proj2 (N.eqb_neq (r_renter c) w)) by congruence. rewrite N.eqb_refl. split_and!; done. }
      assert (forall f j, f = r_renter_cf c \/ f = r_rentee_cf c -> cf_nft f = Some j -> is_Some (nfts (s_nft s) !! j)) as Hex.
      { intros f j [->| ->] Ej; [eapply (InvNft4.deposit_exists s id c true); done|]. eapply (InvNft4.deposit_exists s id c false); [done..|]. cbn. by rewrite Ht. }
      assert (is_Some (percentage_of_completion c (s_now s))) as [pc Hpc].
      { pose proof (c_run _ _ Hcok) as Hrun. rewrite Ht in Hrun. destruct (r_start c) as [st|] eqn:Est; [|done].
        apply (completion_defined c _ st); [done|]. rewrite total_is. apply (c_full _ _ Hcok). }
      assert (forall v, kept_share c (s_now s) (FlexibleTokens v) (permill_mul pc v)) as Hkv.
      { intros v. cbn. destruct (completion_is _ _ _ Hpc) as (p&Hp&->&_); [intros st Hst; apply (c_start _ _ Hcok) in Hst; lia|].
        exists p. split; [done|]. apply permill_mul_share. }
      assert (forall (own theirs : cancel_fee) (other : N) (k : unit -> M unit),
        (forall j, cf_nft theirs = Some j -> is_Some (nfts (s_nft s) !! j)) -> (forall j, cf_nft own = Some j -> is_Some (nfts (s_nft s) !! j)) ->
        kept_share c (s_now s) own x ->
        transfer_b rent_pot other (cf_amount theirs) false (s_bal s) = Ok b1 -> transfer_b rent_pot other (cf_amount own - x) false b2 = Ok b3 ->
        (forall n, (forall j, is_Some (nfts (s_nft s) !! j) -> is_Some (nfts n !! j)) -> succeeds (k tt) (s <| s_bal := b3 |> <| s_nft := n |>)) ->
        succeeds (bind (return_cancellation_fee theirs other) (fun _ => bind (match cf_flexible own with
          | Some full => bind (unwrap (percentage_of_completion c (s_now s)) Panic) (fun percent => return_flexible_fee w other percent full)
          | None => return_cancellation_fee own other end) k)) s) as Hgen.
      { clear - P2 Hpc Hkv. intros own theirs other k Hx1 Hx2 Hk P1 P3 Hkk. unfold return_cancellation_fee, return_flexible_fee.
        okstep. okstep; [exact P1|]. apply ok_give; [done|]. intros n Hn. destruct (cf_flexible own) as [v|] eqn:Ef.
        - assert (own = FlexibleTokens v) as -> by (destruct own; naive_solver).
          assert (x = permill_mul pc v) as -> by (by eapply kept_det). cbn in P3. okgo. by apply (Hkk n).
        - assert (x = 0) as -> by (destruct own; done). rewrite transfer_zero in P2. injection P2 as <-. rewrite N.sub_0_r in P3.
          okstep. okstep; [exact P3|]. apply ok_give; [intros j Hj; st_cbn; by apply Hn, Hx2|]. intros n' Hn'. apply (Hkk n').
          intros j Hj. apply Hn'. by apply Hn. }
      unfold revoke_contract. okgo. destruct (r_renter c =? w) eqn:Eir.
      * specialize (W2 eq_refl). okstep; [done|]. apply Hgen; [intros j; apply Hex; auto|intros j; apply Hex; auto|done..|].
        intros n Hn. destruct (Hn id (mk_is_Some _ _ Hd)) as [d' Hd']. okgo.
      * apply Hgen; [intros j; apply Hex; auto|intros j; apply Hex; auto|done..|].
        intros n Hn. destruct (Hn id (mk_is_Some _ _ Hd)) as [d' Hd']. okgo.
    + destruct H as (c&Hc'&<-&Hr&?&?%automatic_iff&?%wl_iff&Hst). unfold rent. okgo.
      okstep; [by rewrite Hr|]. okgo. apply take_suffices; [done..|]. intros b n. apply start_suffices; [done..|]. intros s'. okgo.
    + destruct H as (c&Hc'&<-&Hr&?&?%manual_iff&?%wl_iff&Hno&Hroom&[N1 N2]&B1&B2&B3).
      pose proof (c_run _ _ (r_cok _ _ _ Hrok _ _ Hc')) as Hrun. rewrite Hr in Hrun. destruct (r_start c) eqn:Est; [done|].
      apply check_unlocked in B1, B2, B3. rewrite <- fee_tokens in B1, B3. rewrite token_amount in B2, B3. rewrite offered_iff in Hno.
      assert (memN w (default [] (offers (s_rent s) !! id)) = false) as Hno' by (apply not_true_is_false; by rewrite memN_iff).
      assert (forall j, rf_nft (r_rent_fee c) = Some j -> with_nft s w j lendable) as N1' by (intros j E; apply N1; destruct (r_rent_fee c); naive_solver).
      assert (forall j, cf_nft (r_rentee_cf c) = Some j -> with_nft s w j lendable) as N2' by (intros j E; apply N2; destruct (r_rentee_cf c); naive_solver).
      unfold make_rent_offer. okgo. okstep; [by rewrite Est|]. okgo.
      eapply ok_run; [apply check_nft_rule; split; [reflexivity|exact N1']|].
      eapply ok_run; [apply check_nft_rule; split; [reflexivity|exact N2']|]. okgo.
    + destruct H as (c&Hc'&<-&(l&Hl&Hin)&Hst). assert (memN rentee l = true) by (by apply memN_iff).
      unfold accept_rent_offer. okgo. apply take_suffices; [done..|]. intros b n.
      apply start_suffices; [done..|by eapply offered_not_running|]. intros s'. okgo.
    + destruct H as (l&Hl&Hin). destruct (position_elem l w Hin) as [p Hp]. unfold retract_rent_offer. okgo.
    + destruct H as (c&Hc'&<-&(y&Ey&Hy)&[L1 L2]&[L3 L4]). unfold change_subscription_terms. okgo.
      okstep; [by rewrite Ey|]. okgo. destruct (r_rentee c); okgo.
    + destruct H as (c&y&Hc'&Hr&Ey&Hnt&Hf&<-&Hmd&<-). unfold accept_subscription_terms. okgo.
      okstep; [by rewrite Ey|]. okstep; [rewrite Hr; apply N.eqb_refl|]. okstep; [by rewrite Ey|]. okstep; [|okgo].
      rewrite Hf, N.eqb_refl, N.eqb_refl. cbn [andb]. rewrite eqb_reflx, andb_true_r. destruct max_dur as [m|]; [|done].
      rewrite (Hmd m eq_refl). apply N.eqb_refl.
Qed.

End rules.
