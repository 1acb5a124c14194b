(** Why calls of pallet rent are refused. *)
From Verif Require Export ErrCalc RuleRent.
Local Open Scope N_scope.

Section errs.
Context {C : Config}.
Implicit Types (s : state).

Lemma not_lendable d : rentable_state (nstate d) = false -> ~ lendable d.
Proof. intros H Hl%lendable_iff. congruence. Qed.
(** The check of an NFT demanded as a fee fails. *)
Lemma err_check w oi e1 e2 e3 (k : unit -> M unit) s e s' : bind (check_fee_nft w oi e1 e2 e3) k s = (Err e, s') ->
  (exists j, oi = Some j /\ ((e = e1 /\ no_nft s j) \/ (e = e2 /\ foreign_nft s w j) \/ (e = e3 /\ busy_nft s j))) \/
  ((forall j, oi = Some j -> with_nft s w j lendable) /\ k tt s = (Err e, s')).
Proof.
  intros H. unfold check_fee_nft in H. destruct oi as [j|]; cbn [on_some] in H; [|right; split; [done|exact H]].
  apply err_assoc in H. estep H. cbv beta in H. apply err_assoc in H. estep H; [left; exists j; auto|]. apply err_assoc in H. estep H.
  { left. exists j. split; [done|]. right. left. split; [done|]. by exists x. }
  estep H; [|right; split; [|exact H]].
  - left. exists j. split; [done|]. right. right. split; [done|]. exists x. split; [done|]. by apply not_lendable.
  - intros j' [= <-]. exists x. split_and!; [done|done|by apply lendable_iff].
Qed.
(** Handing existing NFTs over does not fail. *)
Lemma err_give (oi : option N) dst (k : unit -> M unit) s e s' :
  (forall j, oi = Some j -> is_Some (nfts (s_nft s) !! j)) ->
  bind (on_some oi (fun i => change_nft_ownership i dst)) k s = (Err e, s') ->
  exists n, (forall j, is_Some (nfts (s_nft s) !! j) -> is_Some (nfts n !! j)) /\ k tt (s <| s_nft := n |>) = (Err e, s').
Proof.
  intros Hex H. destruct oi as [j|]; cbn [on_some] in H.
  - destruct (Hex j eq_refl) as [d Hd]. unfold change_nft_ownership in H. apply err_assoc in H. estep H. cbv beta in H. apply err_assoc in H. estep H; [congruence|].
    eexists. split; [|exact H]. intros j' Hj'. st_cbn. by apply lookup_insert_is_Some'; right.
  - exists (s_nft s). split; [done|]. replace (s <| s_nft := s_nft s |>) with s by (by destruct s). exact H.
Qed.
Lemma err_give_map e0 (oi : option N) dst (k : unit -> M unit) s e s' :
  (forall j, oi = Some j -> is_Some (nfts (s_nft s) !! j)) ->
  bind (on_some oi (fun i => map_err e0 (change_nft_ownership i dst))) k s = (Err e, s') ->
  exists n, (forall j, is_Some (nfts (s_nft s) !! j) -> is_Some (nfts n !! j)) /\ k tt (s <| s_nft := n |>) = (Err e, s').
Proof.
  intros Hex H. destruct oi as [j|]; cbn [on_some] in H.
  - destruct (Hex j eq_refl) as [d Hd]. assert (change_nft_ownership j dst s = (Ok tt, s <| s_nft ::= (fun x => x <| nfts ::= <[j := d <| owner := dst |>]> |>) |>)) as E.
    { unfold change_nft_ownership, bind, get_nft, gets. rewrite Hd. reflexivity. }
    apply err_map_err in H as [(_&e'&s1&H)|(a&s1&H1&H)]; [congruence|]. rewrite E in H1. injection H1 as <- <-.
    eexists. split; [|exact H]. intros j' Hj'. st_cbn. by apply lookup_insert_is_Some'; right.
  - exists (s_nft s). split; [done|]. replace (s <| s_nft := s_nft s |>) with s by (by destruct s). exact H.
Qed.

Lemma err_take s t i c (k : unit -> M unit) e s' : binv s -> contracts (s_rent s) !! i = Some c ->
  bind (take_rent_and_cancellation_fee t c) k s = (Err e, s') ->
  justified e (no_start s t i) \/ exists b n, k tt (s <| s_bal := b |> <| s_nft := n |>) = (Err e, s').
Proof.
  intros Hb Hc H. unfold take_rent_and_cancellation_fee in H. rewrite fee_tokens in H. apply err_assoc in H.
  apply err_map_err in H as [(->&e'&s1&H)|([]&s1&HT1&H)].
  { left. because. exists c. split; [done|]. intros Hp. apply chain_can_pay in Hp; [|done]. cbn in Hp. destruct Hp as (b&Hp&_).
    unfold transfer, lift_bal in H. rewrite Hp in H. done. }
  unfold transfer, lift_bal in HT1. destruct (transfer_b _ _ _ _ _) as [b1|] eqn:T1 in HT1; [|done]. injection HT1 as <-.
  apply err_assoc in H. apply err_map_err in H as [(->&e'&s1&H)|([]&s1&HT2&H)].
  { left. because. exists c. split; [done|]. intros Hp. apply chain_can_pay in Hp; [|done]. cbn in Hp. destruct Hp as (b&Hp&b2&Hp2&_).
    rewrite token_amount in Hp2. unfold transfer, lift_bal in H. st_cbn_in H. assert (b = b1) as -> by congruence. rewrite Hp2 in H. done. }
  unfold transfer, lift_bal in HT2. st_cbn_in HT2. destruct (transfer_b _ _ _ _ _) as [b2|] eqn:T2 in HT2; [|done]. injection HT2 as <-.
  apply err_assoc in H. apply err_check in H as [(j&Ej&Hj)|[HN1 H]].
  { left. assert (r_rent_fee c = RentNFT j) by (destruct (r_rent_fee c); naive_solver).
    destruct Hj as [[-> Hj]|[[-> Hj]|[-> Hj]]]; because; exists c; (split; [done|]); by exists j. }
  apply err_assoc in H. apply err_check in H as [(j&Ej&Hj)|[HN2 H]].
  { left. assert (r_rentee_cf c = FeeNFT j) by (destruct (r_rentee_cf c); naive_solver).
    destruct Hj as [[-> Hj]|[[-> Hj]|[-> Hj]]]; because; exists c; (split; [done|]); by exists j. }
  apply err_assoc in H. apply err_give_map in H as (n&Hn&H); [|intros j (d&Hd&_)%HN1; by eexists].
  apply err_give_map in H as (n'&_&H); [|intros j (d&Hd&_)%HN2; apply Hn; by eexists]. right. by exists b2, n'.
Qed.
Lemma start_no_err s b n i t c (k : unit -> M unit) e s' : config_ok -> reachable s -> contracts (s_rent s) !! i = Some c -> r_rentee c = None ->
  (forall s1, succeeds (k tt) s1) -> bind (start_contract i t c) k (s <| s_bal := b |> <| s_nft := n |>) = (Err e, s') -> False.
Proof.
  intros Hcfg Hs Hc Hr Hk H. destruct (start_suffices s b n i t c k Hcfg Hs Hc Hr Hk) as (x&y&E). pose proof (eq_trans (eq_sym E) H). done.
Qed.

(** Returning the deposits of a revoked contract fails only because of the money. *)
Lemma err_return s c w (own theirs : cancel_fee) other pc (k : unit -> M unit) e s' :
  percentage_of_completion c (s_now s) = Some pc ->
  (forall v, kept_share c (s_now s) (FlexibleTokens v) (permill_mul pc v)) ->
  (forall j, cf_nft theirs = Some j -> is_Some (nfts (s_nft s) !! j)) -> (forall j, cf_nft own = Some j -> is_Some (nfts (s_nft s) !! j)) ->
  bind (return_cancellation_fee theirs other) (fun _ => bind (match cf_flexible own with
    | Some full => bind (unwrap (percentage_of_completion c (s_now s)) Panic) (fun percent => return_flexible_fee w other percent full)
    | None => return_cancellation_fee own other end) k) s = (Err e, s') ->
  (exists x, kept_share c (s_now s) own x /\
    pchain_err rent_pot [(other, token_deposit theirs); (w, x); (other, token_deposit own - x)] e (s_bal s)) \/
  exists b n, (forall j, is_Some (nfts (s_nft s) !! j) -> is_Some (nfts n !! j)) /\ k tt (s <| s_bal := b |> <| s_nft := n |>) = (Err e, s').
Proof.
  intros Hpc Hkv Hx1 Hx2 H. unfold return_cancellation_fee, return_flexible_fee in H. cbn [pchain_err]. rewrite !token_amount.
  assert (exists x, kept_share c (s_now s) own x) as [x Hx].
  { destruct own; try (by exists 0). eexists. apply Hkv. }
  apply err_assoc in H. estep H; [left; exists x; split; [done|]; by left|].
  apply err_give in H as (n&Hn&H); [|done]. destruct (cf_flexible own) as [v|] eqn:Ef.
  - assert (own = FlexibleTokens v) as -> by (destruct own; naive_solver).
    assert (x = permill_mul pc v) as -> by (by eapply kept_det). cbn [cf_amount cf_tokens default from_option].
    apply err_assoc in H. rewrite Hpc in H. estep H; [done|]. injection U as <-. apply err_assoc in H.
    estep H; [left; eexists; split; [exact Hx|]; right; exists b; split; [done|]; by left|].
    estep H; [left; eexists; split; [exact Hx|]; right; exists b; split; [done|]; right; exists b0; split; [done|]; by left|].
    right. exists b1, n. split; [done|exact H].
  - assert (x = 0) as -> by (destruct own; done). apply err_assoc in H.
    estep H; [left; exists 0; rewrite N.sub_0_r; split; [done|]; right; exists b; split; [done|]; right; exists b; split; [apply transfer_zero|by left]|].
    apply err_give in H as (n'&Hn'&H); [|intros j Hj; st_cbn; by apply Hn, Hx2]. right. exists b0, n'. split; [|exact H].
    intros j Hj. apply Hn'. by apply Hn.
Qed.

Lemma fact_rent_err s w c e s' : config_ok -> reachable s -> w ∉ pots -> wf_call c = true -> is_rent_call c ->
  dispatch (Signed w) c s = (Err e, s') -> justified e (rent_table s w c).
Proof.
  intros Hcfg Hs Hw Hwf Hc H. pose proof (ok_ed Hcfg) as Hed. pose proof (reachable_binv s Hs) as Hb.
  pose proof (reachable_inv1 s Hs) as H1. destruct (reachable_rent s Hcfg Hs) as [Hrok _].
  assert (frozen (s_bal s) rent_pot = 0) as Hfz by (apply pot_unfrozen; [by apply reachable_sreach|unfold pots; right; left]).
  assert (w <> rent_pot) as Hwp by (intros ->; apply Hw; unfold pots; right; left).
  apply err_dispatch in H as [_ [s1 H]]; [|done].
  destruct c; try done; cbn [exec_call signed root] in H; cbn [rent_table].
  - unfold create_contract in H. estep H.
    estep H; [because; unfold queues_can_grow, queues_size in E; apply N.leb_gt in E; lia|]. estep H. estep H; [say|]. estep H; [say|].
    estep H; [because; eexists; split; [done|by apply not_lendable]|].
    cbv zeta in H. rewrite di_total, di_period in H. do 4 (estep H; [because; lia|]).
    estep H; [because; destruct d, fee; try done; split; [done|by eexists]|].
    estep H; [because; destruct d, renter_cf; try done; split; [done|]; eexists; by left|].
    estep H; [because; destruct d, rentee_cf; try done; split; [done|]; eexists; by right|].
    apply err_bind in H as [H|([]&s2&H2&H)].
    { destruct fee as [?|j]; cbn [rf_nft on_some] in H; [done|]. einv H. because. by exists j. }
    assert (s2 = s) as -> by (destruct fee as [?|j]; cbn [rf_nft on_some] in H2; by minv H2). clear H2.
    apply err_bind in H as [H|([]&s2&H2&H)].
    { destruct rentee_cf as [| | |j]; cbn [cf_nft on_some] in H; try done. einv H. because. exists j. split; [by right|done]. }
    assert (s2 = s) as -> by (destruct rentee_cf as [| | |j]; cbn [cf_nft on_some] in H2; by minv H2). clear H2.
    apply err_ensure in H as [[D ->]|[D H]]; [because; left; intros D'%deposit_iff; congruence|]. apply deposit_iff in D.
    apply err_ensure in H as [[D2 ->]|[D2 H]]; [because; right; intros D'%deposit_iff; congruence|]. clear D2.
    apply err_map_err in H as [(->&e'&s2&H)|([]&s2&HT&H)].
    { because. intros Ha. rewrite token_amount in Ha. unfold good_deposit in D. rewrite token_amount in D. apply pay_pot in Ha as [b Hp]; [|done..].
      unfold transfer, lift_bal in H. rewrite Hp in H. done. }
    unfold transfer, lift_bal in HT. destruct (transfer_b _ _ _ _ _) as [b|] eqn:T in HT; [|done]. injection HT as <-.
    assert (queues_insert id (s_now s + availability_limit) QAvail (queues (s_rent s)) <> None) as Hq.
    { cbn [queues_insert]. unfold q_insert. unfold queues_can_grow, queues_size in E. apply N.leb_le in E. by rewrite (proj2 (N.ltb_lt _ _)) by lia. }
    destruct renter_cf as [| | |j]; cbn [cf_nft on_some] in H.
    1-3: einv H; st_cbn_in U0; done.
    apply err_assoc in H. estep H. cbv beta in H. apply err_assoc in H. estep H; [because; exists j; split; [by left|done]|].
    apply err_assoc in H. estep H; [because; exists j; split; [done|]; by exists x0|].
    apply err_assoc in H. estep H; [because; exists j; split; [done|]; exists x0; split; [done|by apply not_lendable]|].
    einv H. st_cbn_in U1. done.
  - unfold cancel_contract in H. estep H. estep H; [say|]. estep H; [say|].
    estep H; [because; eexists; split; [done|by eexists]|]. estep H. estep H.
    destruct (contract_nft s id x H1 U) as (d&Hd&_).
    unfold handle_finished in H. apply err_assoc in H. estep H. st_cbn_in H. rewrite U in H. apply err_assoc in H. estep H; [done|]. injection U0 as <-.
    apply err_assoc in H. estep H. apply err_assoc in H. estep H; [st_cbn_in U0; congruence|].
    apply err_assoc in H. estep H.
    + st_cbn_in T. pose proof (c_cf1 _ _ (r_cok _ _ _ Hrok _ _ U)) as [Hz|Hz]; [rewrite Hz, transfer_zero in T; done|].
      apply death_err in T as [[-> T]|[-> T]]; [|exfalso|done|done].
      * because. exists x. split; [done|]. by rewrite token_amount.
      * destruct Hcfg. lia.
    + destruct (r_rentee x) eqn:Er; [done|]. cbn [on_some] in H. apply err_assoc in H. estep H.
      apply err_assoc in H. apply err_give in H as (n&Hn&H); [einv H|].
      intros j Hj. st_cbn. eapply (InvNft4.deposit_exists s id x true); done.
  - unfold revoke_contract in H. estep H. estep H. estep H; [say|]. estep H; [say|]. rename x into c, x0 into t, U into Hc', U0 into Ht.
    cbv zeta in H.
    apply err_ensure in H as [[D ->]|[D H]].
    { because. exists c. split; [done|]. apply orb_false_iff in D as [D1%N.eqb_neq D2%N.eqb_neq]. split; congruence. }
    pose proof (r_cok _ _ _ Hrok _ _ Hc') as Hcok. destruct (contract_nft s id c H1 Hc') as (d&Hd&_).
    set (other := if r_renter c =? w then t else r_renter c) in *.
    set (theirs := if r_renter c =? w then r_rentee_cf c else r_renter_cf c) in *.
    set (own := if r_renter c =? w then r_renter_cf c else r_rentee_cf c) in *.
    apply err_bind in H as [H|([]&s2&H2&H)].
    { destruct (r_renter c =? w) eqn:Er; cbn [when] in H; [|done].
      apply err_end in H. apply err_ensure in H as [[D' ->]|[_ H]]; [|done]. because. exists c. split; [done|].
      split; [by apply N.eqb_eq|done]. }
    assert (s2 = s) as -> by (destruct (r_renter c =? w); cbn [when] in H2; by minv H2).
    assert ((r_renter c =? w) = true -> r_can_revoke c = true) as Hcr.
    { intros Er. rewrite Er in H2. cbn [when] in H2. by minv H2. }
    clear H2.
    assert (revokes c w other own theirs) as Hrev.
    { unfold revokes, other, own, theirs. destruct (r_renter c =? w) eqn:Er.
      - apply N.eqb_eq in Er. left. split_and!; try done. by apply Hcr.
      - cbn in D. apply N.eqb_eq in D. apply N.eqb_neq in Er. subst t. right. split_and!; try done. }
    assert (forall f j, f = r_renter_cf c \/ f = r_rentee_cf c -> cf_nft f = Some j -> is_Some (nfts (s_nft s) !! j)) as Hex.
    { intros f j [->| ->] Ej; [eapply (InvNft4.deposit_exists s id c true); done|]. eapply (InvNft4.deposit_exists s id c false); [done..|]. cbn. by rewrite Ht. }
    assert (own = r_renter_cf c \/ own = r_rentee_cf c) as Hown by (unfold own; destruct (_ =? _); auto).
    assert (theirs = r_renter_cf c \/ theirs = r_rentee_cf c) as Hth by (unfold theirs; destruct (_ =? _); auto).
    assert (is_Some (percentage_of_completion c (s_now s))) as [pc Hpc].
    { pose proof (c_run _ _ Hcok) as Hrun. rewrite Ht in Hrun. destruct (r_start c) as [st|] eqn:Est; [|done].
      apply (completion_defined c _ st); [done|]. rewrite total_is. apply (c_full _ _ Hcok). }
    assert (forall v, kept_share c (s_now s) (FlexibleTokens v) (permill_mul pc v)) as Hkv.
    { intros v. cbn. destruct (completion_is _ _ _ Hpc) as (p&Hp&->&_); [intros st Hst; apply (c_start _ _ Hcok) in Hst; lia|].
      exists p. split; [done|]. apply permill_mul_share. }
    apply (err_return s c w own theirs other pc) in H as [(x&Hx&H)|(b&n&Hn&H)]; [| |done|done|eauto|eauto].
    + apply justified_app_r. eapply pot_short_intro; [done|done|done|exact H|]. exists c, other, own, theirs, x. split_and!; done.
    + einv H. st_cbn_in U. destruct (Hn id (mk_is_Some _ _ Hd)). congruence.
  - unfold rent in H. estep H. do 2 (estep H; [say|]). estep H; [because; eexists; split; [done|by eexists]|]. estep H; [because; exists x; split; [done|]; congruence|].
    estep H; [because; exists x; split; [done|]; by apply manual_iff|].
    estep H; [because; exists x; split; [done|]; intros Hi%wl_iff; congruence|].
    apply (err_take s w id x) in H as [H|(b&n&H)]; [by apply justified_app_r| |done|done].
    exfalso. eapply start_no_err; [exact Hcfg|exact Hs|exact U|by destruct (r_rentee x)| |exact H]. intros s2. okgo.
  - unfold make_rent_offer in H. estep H. cbv zeta in H. estep H; [because; apply offered_iff, memN_iff; by destruct (memN w _)|].
    estep H. estep H; [say|]. estep H; [say|].
    estep H.
    { because. exists x. split; [done|]. pose proof (c_run _ _ (r_cok _ _ _ Hrok _ _ U)) as Hrun. rewrite O in Hrun. by destruct (r_rentee x); [eexists|]. }
    estep H; [because; exists x; split; [done|]; congruence|].
    estep H; [because; exists x; split; [done|]; by apply automatic_iff|].
    estep H; [because; exists x; split; [done|]; intros Hi%wl_iff; congruence|].
    estep H. rewrite fee_tokens, <- token_amount in H.
    estep H; [because; exists x; split; [done|]; intros Hi%check_unlocked; congruence|].
    estep H; [because; exists x; split; [done|]; intros Hi%check_unlocked; congruence|].
    estep H; [because; exists x; split; [done|]; cbv beta; intros Hi%check_unlocked; unfold wadd in *; congruence|].
    apply err_check in H as [(j&Ej&Hj)|[_ H]].
    { assert (r_rent_fee x = RentNFT j) by (destruct (r_rent_fee x); naive_solver).
      destruct Hj as [[-> Hj]|[[-> Hj]|[-> Hj]]]; because; exists x; (split; [done|]); by exists j. }
    apply err_check in H as [(j&Ej&Hj)|[_ H]].
    { assert (r_rentee_cf x = FeeNFT j) by (destruct (r_rentee_cf x); naive_solver).
      destruct Hj as [[-> Hj]|[[-> Hj]|[-> Hj]]]; because; exists x; (split; [done|]); by exists j. }
    estep H; [because; done|]. einv H.
  - unfold accept_rent_offer in H. estep H. estep H; [say|]. estep H.
    estep H; [because; intros v (l&Hl&_); congruence|]. estep H; [say|].
    estep H; [because; split; [by eexists|]; intros (l&Hl&Hin); assert (l = x0) as -> by congruence; apply memN_iff in Hin; congruence|].
    apply (err_take s rentee id x) in H as [H|(b&n&H)]; [by apply justified_app_r| |done|done].
    exfalso. eapply start_no_err; [exact Hcfg|exact Hs|exact U| | |exact H].
    + by eapply offered_not_running.
    + intros s2. okgo.
  - unfold retract_rent_offer in H. estep H. estep H; [because; intros v (l&Hl&_); congruence|]. estep H; [|einv H].
    because. split; [by eexists|]. intros (l&Hl&Hin). assert (l = x) as -> by congruence. destruct (position_elem _ _ Hin). congruence.
  - unfold change_subscription_terms in H. cbv zeta in H. estep H. estep H; [say|].
    estep H; [because; exists x; split; [done|congruence]|].
    estep H; [because; exists x; split; [done|]; intros (y&Ey&Hy); rewrite Ey in *; cbn in *; congruence|].
    estep H; [because; right; destruct max_dur as [m|]; cbn in *; [by exists m|lia]|].
    estep H; [because; by left|]. estep H; [because; right; lia|]. estep H; [because; left; lia|].
    destruct (r_rentee x); cbn [negb when] in H; einv H.
  - unfold accept_subscription_terms in H. estep H. estep H; [say|].
    estep H; [because; exists x; split; [done|]; destruct (r_duration x); [by eexists|done]|].
    assert (r_duration x = Subscription x0) as Ed by (destruct (r_duration x); naive_solver).
    apply err_ensure in H as [[D ->]|[D H]].
    { because. exists x. split; [done|]. intros Er. rewrite Er, N.eqb_refl in D. done. }
    apply err_ensure in H as [[D2 ->]|[D2 H]].
    { because. exists x. split; [done|]. exists x0. split; [done|]. by rewrite Ed in D2. }
    apply err_ensure in H as [[D3 ->]|[D3 H]]; [|einv H].
    because. exists x. split; [done|]. exists x0. split; [done|].
    apply andb_false_iff in D3 as [D3|D3]; [|right; right; right; intros Ech; rewrite Ech, eqb_reflx in D3; done].
    apply andb_false_iff in D3 as [D3|D3]; [|right; right; left; destruct max_dur as [m|]; [|done]; exists m; split; [done|]; by apply N.eqb_neq].
    apply andb_false_iff in D3 as [D3|D3]; [|right; left; by apply N.eqb_neq].
    left. intros E. rewrite E, N.eqb_refl in D3. done.
Qed.

Lemma no_start_spec s t i c e : binv s -> contracts (s_rent s) !! i = Some c -> justified e (no_start s t i) -> ~ can_start s t c.
Proof.
  intros Hb Hc H Hst. pose proof Hst as [Hp [N1 N2]].
  assert (forall P : contract -> Prop, contract_is s i P -> P c) as Hci by (intros P (c'&Hc'&HP); assert (c' = c) as -> by congruence; done).
  destruct H as (P&H&HP). each_line H; apply Hci in HP; cbv beta in HP.
  - apply HP. clear HP. apply chain_can_pay in Hp; [|done]. apply chain_can_pay; [done|]. cbn in Hp |- *. destruct Hp as (b&Hb1&_). by exists b.
  - done.
  - destruct HP as (j&Ej&HP). destruct (N1 j Ej) as (d&Hd&Ho&Hl). unfold no_nft in HP. congruence.
  - destruct HP as (j&Ej&d'&Hd'&HP). destruct (N1 j Ej) as (d&Hd&Ho&Hl). assert (d' = d) as -> by congruence. done.
  - destruct HP as (j&Ej&d'&Hd'&HP). destruct (N1 j Ej) as (d&Hd&Ho&Hl). assert (d' = d) as -> by congruence. done.
  - destruct HP as (j&Ej&HP). destruct (N2 j Ej) as (d&Hd&Ho&Hl). unfold no_nft in HP. congruence.
  - destruct HP as (j&Ej&d'&Hd'&HP). destruct (N2 j Ej) as (d&Hd&Ho&Hl). assert (d' = d) as -> by congruence. done.
  - destruct HP as (j&Ej&d'&Hd'&HP). destruct (N2 j Ej) as (d&Hd&Ho&Hl). assert (d' = d) as -> by congruence. done.
Qed.

Lemma fact_rent_refused s w c e : config_ok -> reachable s -> w ∉ pots -> wf_call c = true -> is_rent_call c ->
  justified e (rent_table s w c) -> exists e', dispatch (Signed w) c s = (Err e', s).
Proof.
  intros Hcfg Hs Hw Hwf Hc H. destruct (dispatch_cases (Signed w) c s) as [(s'&_&_&Hd)|[e' Hd]]; [|by exists e'].
  exfalso. assert (rent_rule s w c) as Hr by (apply fact_rent_rule; eauto). clear Hd. pose proof (reachable_binv s Hs) as Hb.
  assert (forall i c (P : contract -> Prop), contracts (s_rent s) !! i = Some c -> contract_is s i P -> P c) as Hci.
  { intros i c0 P Hc0 (c'&Hc'&HP). by assert (c' = c0) as -> by congruence. }
  assert (forall i (P Q : nft_data -> Prop) , with_nft s w i P -> nft_is s i Q -> exists d, owner d = w /\ P d /\ Q d) as Hni.
  { intros i P Q (d&Hd&Ho&HP) (d'&Hd'&HQ). exists d. by assert (d' = d) as -> by congruence. }
  assert (forall i P, with_nft s w i P -> no_nft s i -> False) as Hnn by (unfold no_nft; intros i P (d&Hd&_); congruence).
  destruct c; try done; cbn [rent_table rent_rule] in H, Hr.
  - destruct Hr as (Hq&Hn&[L1 L2]&[L3 L4]&Hsub&Hex&D1&D2&Ha&Hcf). destruct H as (P&H&HP). each_line H.
    + lia.
    + eauto.
    + destruct (Hni _ _ _ Hn HP) as (?&?&?&?). done.
    + destruct (Hni _ _ _ Hn HP) as (?&?&?&?). done.
    + lia.
    + lia.
    + destruct HP as [Hsi [j ->]]. destruct (Hsub Hsi) as [Hx _]. by apply (Hx j).
    + destruct HP as [Hsi [x Hx]]. destruct (Hsub Hsi) as [_ Hy]. destruct (Hy x). by destruct Hx.
    + destruct HP as (j&->&Hj). destruct (Hex j (or_introl eq_refl)). unfold no_nft in Hj. congruence.
    + destruct HP as (j&[->| ->]&Hj); [eauto|]. destruct (Hex j (or_intror eq_refl)). unfold no_nft in Hj. congruence.
    + by destruct HP.
    + done.
    + destruct HP as (j&->&HP). destruct (Hni _ _ _ (Hcf j eq_refl) HP) as (?&?&?&?). done.
    + destruct HP as (j&->&HP). destruct (Hni _ _ _ (Hcf j eq_refl) HP) as (?&?&?&?). done.
  - destruct Hr as (c&Hc'&Hrw&Hre&Hle). destruct H as (P&H&HP). each_line H; try (eapply Hci in HP; [|exact Hc']; cbv beta in HP).
    + unfold not_for_rent in HP. congruence.
    + done.
    + rewrite Hre in HP. by destruct HP.
    + lia.
  - destruct Hr as (c&other&own&theirs&x&Hc'&Hrev&Hk&Hpay). apply justified_app in H as [H|H].
    + destruct H as (P&H&HP). each_line H; try (eapply Hci in HP; [|exact Hc']; cbv beta in HP).
      * unfold not_for_rent in HP. congruence.
      * destruct Hrev as [(?&?&?&?&?)|(?&?&?&?&?)]; congruence.
      * destruct Hrev as [(?&?&?&?&?)|(?&?&?&?&?)]; naive_solver.
      * destruct Hrev as [(?&?&?&?&?)|(?&?&?&?&?)]; destruct HP; congruence.
    + apply pot_short_spec in H as (l&(c'&other'&own'&theirs'&x'&Hc2&Hrev'&Hk'&->)&Hn). assert (c' = c) as -> by congruence.
      assert (other' = other /\ own' = own /\ theirs' = theirs) as (->&->&->).
      { destruct Hrev as [(?&?&?&?&?)|(?&?&?&?&?)], Hrev' as [(?&?&?&?&?)|(?&?&?&?&?)]; subst; split_and!; congruence. }
      by rewrite (kept_det _ _ _ _ _ Hk' Hk) in Hn.
  - destruct Hr as (c&Hc'&Hcr&Hre&Hne&Hau&Hin&Hst). apply justified_app in H as [H|H]; [|by eapply no_start_spec].
    destruct H as (P&H&HP). each_line H; try (eapply Hci in HP; [|exact Hc']; cbv beta in HP); try done.
    + unfold not_for_rent in HP. congruence.
    + rewrite Hre in HP. by destruct HP.
    + destruct Hau as [? Hau], HP as [? HP]. congruence.
  - destruct Hr as (c&Hc'&Hcr&Hre&Hne&Hau&Hin&Hno&Hroom&[N1 N2]&B1&B2&B3).
    destruct H as (P&H&HP). each_line H; try (eapply Hci in HP; [|exact Hc']; cbv beta in HP); try done.
    + unfold not_for_rent in HP. congruence.
    + rewrite Hre in HP. by destruct HP.
    + destruct Hau as [? Hau], HP as [? HP]. congruence.
    + destruct HP as (j&Ej&HP). eauto.
    + destruct HP as (j&Ej&HP). destruct (Hni _ _ _ (N1 j Ej) HP) as (?&?&?&?). done.
    + destruct HP as (j&Ej&HP). destruct (Hni _ _ _ (N1 j Ej) HP) as (?&?&?&?). done.
    + destruct HP as (j&Ej&HP). eauto.
    + destruct HP as (j&Ej&HP). destruct (Hni _ _ _ (N2 j Ej) HP) as (?&?&?&?). done.
    + destruct HP as (j&Ej&HP). destruct (Hni _ _ _ (N2 j Ej) HP) as (?&?&?&?). done.
    + clear -HP Hroom. lia.
  - destruct Hr as (c&Hc'&Hrw&Hof&Hst). apply justified_app in H as [H|H]; [|by eapply no_start_spec].
    destruct H as (P&H&HP). each_line H; try (eapply Hci in HP; [|exact Hc']; cbv beta in HP); try done.
    + unfold not_for_rent in HP. congruence.
    + by eapply HP.
    + by destruct HP.
  - destruct H as (P&H&HP). each_line H; [by eapply HP|by destruct HP].
  - destruct Hr as (c&Hc'&Hrw&Hch&[L1 L2]&[L3 L4]). destruct H as (P&H&HP). each_line H; try (eapply Hci in HP; [|exact Hc']; cbv beta in HP); try done.
    + unfold not_for_rent in HP. congruence.
    + destruct HP as [HP|(m&->&HP)]; cbn in *; lia.
    + lia.
  - destruct Hr as (c&x&Hc'&Hre&Ed&Hnt&Hf&Hp&Hmd&Hchg). destruct H as (P&H&HP). each_line H; try (eapply Hci in HP; [|exact Hc']; cbv beta in HP); try done.
    + unfold not_for_rent in HP. congruence.
    + destruct HP. congruence.
    + destruct HP as (y&Ey&HP). congruence.
    + destruct HP as (y&Ey&HP). assert (y = x) as -> by congruence. destruct HP as [?|[?|[(m&->&?)|?]]]; [congruence|congruence| |congruence].
      by specialize (Hmd m eq_refl).
Qed.
End errs.
