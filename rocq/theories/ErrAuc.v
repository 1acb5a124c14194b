(** Why calls of pallet auction are refused. *)
From Verif Require Export ErrMkt RuleAuc.
Local Open Scope N_scope.

Section errs.
Context {C : Config}.
Implicit Types (s : state).

(** The payment of an auction fails only because of the money. *)
Lemma pay_err i from x d a s m f e s' : mkts (s_mkt s) !! a_mkt a = Some m -> commissions (s_auc s) !! i = Some f ->
  pay_for_nft i from x d a s = (Err e, s') ->
  let l := [(m_owner m, auc_com f x); (creator d, auc_roy f d x); (a_creator a, auc_rest f d x)] in
  if from =? auction_pot then pchain_err from l e (s_bal s) else chain_err from l e (s_bal s).
Proof.
  intros Hm Hf H. unfold pay_for_nft in H. cbv zeta in H.
  estep H. estep H; [congruence|]. estep H. estep H; [congruence|]. rewrite Hm in U. injection U as <-. rewrite Hf in U0. injection U0 as <-.
  cbv zeta. unfold auc_rest, auc_roy, auc_com. destruct (from =? auction_pot); cbn [negb pchain_err chain_err] in *; einv H; eauto 10.
Qed.

Lemma auc_refs s i a : inv1 s -> auctions (s_auc s) !! i = Some a ->
  (exists d, nfts (s_nft s) !! i = Some d) /\ (exists m, mkts (s_mkt s) !! a_mkt a = Some m) /\ exists f, commissions (s_auc s) !! i = Some f.
Proof.
  intros H1 Ha. destruct (auction_nft s i a H1 Ha) as (d&Hd&_). pose proof (i_view s H1 i) as Hv. unfold view_ok in Hv. rewrite Hd, Ha in Hv.
  destruct (v_auc _ _ _ _ _ _ _ _ _ _ _ _ _ Hv a eq_refl) as (_&[m ?]&[f ?]). split_and!; eauto.
Qed.
Lemma pot_one_err s w x e : config_ok -> reachable s -> auction_ed < x ->
  transfer_b auction_pot w x false (s_bal s) = Err e -> e = Balances_InsufficientBalance /\ free (s_bal s) auction_pot < x.
Proof.
  intros [Hed Hae ??????] Hs Hx H.
  apply death_err in H as [?|[? ?]]; [done|lia|by apply reachable_binv|apply pot_unfrozen; [by apply reachable_sreach|unfold pots; left]].
Qed.

Lemma fact_auc_err s w c e s' : config_ok -> reachable s -> w ∉ pots -> wf_call c = true -> is_auc_call c ->
  dispatch (Signed w) c s = (Err e, s') -> justified e (auc_table s w c).
Proof.
  intros Hcfg Hs Hw Hwf Hc H. pose proof (ok_ed Hcfg) as Hed. pose proof (reachable_binv s Hs) as Hb.
  pose proof (reachable_inv1 s Hs) as H1. pose proof (reachable_ainv s Hs) as Ha.
  assert (frozen (s_bal s) auction_pot = 0) as Hfz by (apply pot_unfrozen; [by apply reachable_sreach|unfold pots; left]).
  assert (w <> auction_pot) as Hwp by (intros ->; apply Hw; unfold pots; left).
  apply err_dispatch in H as [_ [s1 H]]; [|done].
  destruct c; try done; cbn [exec_call signed root] in H; cbn [auc_table].
  - unfold create_auction in H. estep H. do 5 (estep H; [because; lia|]).
    estep H; [estep H; [because; eauto|]|].
    all: estep H; (estep H; [say|]); do 3 (estep H; [say|]); (estep H; [because; by eapply locked_is|]); do 4 (estep H; [say|]);
      estep H; (estep H; [say|]); (estep H; [because; eexists _, _; split_and!; [done|done|by apply not_allowed]|]); estep H;
      (estep H; [because; eexists;
        match goal with Hf : covers_flat _ _ = false |- _ => apply not_covers in Hf as (y&Hy&?) end; by exists y|]);
      estep H; (estep H; [because|einv H]).
    all: match goal with Hq : q_insert _ _ _ _ = None |- _ => unfold q_insert in Hq; destruct (_ <? _) eqn:Eq in Hq; [done|] end;
      apply N.ltb_ge in Eq; done.
  - unfold cancel_auction in H. einv H; say.
  - unfold end_auction in H. estep H. estep H; [say|]. estep H. estep H; [say|]. estep H; [say|]. estep H; [say|].
    estep H; [because; eexists; split; [done|by apply pop_highest_none]|]. destruct x1 as [[v y] l]. apply pop_highest_some in U1 as Hbid. cbn [fst snd] in H.
    destruct (auc_refs s id x0 H1 U0) as (_&[m Hm]&[f Hf]).
    apply err_bind in H as [H|(cut&s2&H&H2)].
    + apply (pay_err id auction_pot y x (x0 <| a_bidders := l |>) s m f) in H; [|done|done]. cbv zeta in H. rewrite N.eqb_refl in H.
      apply justified_app_r. eapply pot_short_intro; [done|done|done|exact H|].
      exists x, x0, l, v, y, m, f. do 3 eexists. split_and!; [done..| |].
      * apply (auc_division s id x0); [done..|].
        destruct (b_each x0 (a_books _ _ Ha _ _ U0) v y) as [? _]; [rewrite Hbid; apply elem_of_app; right; left|lia].
      * st_cbn. by subst w.
    + einv H2.
  - unfold add_bid in H. estep H. estep H. estep H; [say|]. do 2 (estep H; [say|]). estep H; [say|].
    pose proof (a_books _ _ Ha _ _ U) as Hbok. pose proof (ok_bidders Hcfg) as Hbl.
    assert (forall e0 s2, bind (match find_bid w (a_bidders x) with
        | Some x => transfer w auction_pot (amount - x) true | None => transfer w auction_pot amount true end)
        ret s = (Err e0, s2) -> justified e0 (auc_table s w (C_add_bid id amount))) as Hpay.
    { intros e0 s2 Hp. cbn [auc_table]. apply justified_app_r.
      assert (transfer_b w auction_pot (amount - default 0 (q_get w (a_bidders x))) true (s_bal s) = Err e0) as HT.
      { rewrite find_bid_get in Hp. destruct (q_get w (a_bidders x)); unfold default; cbn [from_option]; rewrite ?N.sub_0_r; einv Hp; done. }
      eapply (unpayable_intro s w _ [(auction_pot, amount - default 0 (q_get w (a_bidders x)))]); [done|left; exact HT|]. eexists x, _. split_and!; [done| |done]. by apply standing_get. }
    unfold highest_bid in H. destruct (last (a_bidders x)) as [[v z]|] eqn:El.
    + estep H; [because; eexists; split; [done|]; exists v, z; split; [|done]; apply last_Some in El as [l' ->]; apply elem_of_app; right; left|].
      apply err_bind in H as [H|([]&s2&_&H)]; [eapply Hpay, err_end; exact H|]. estep H; [lia|]. einv H.
    + estep H; [because; eexists; split; [done|]; apply last_None in El; done|].
      apply err_bind in H as [H|([]&s2&_&H)]; [eapply Hpay, err_end; exact H|]. estep H; [lia|]. einv H.
  - unfold remove_bid in H. estep H. estep H. estep H; [say|]. estep H; [because; eexists; split; [done|lia]|].
    pose proof (a_books _ _ Ha _ _ U) as Hbok. rewrite find_bid_get in H. estep H.
    + because. eexists. split; [done|]. intros y Hy. apply q_get_none in U0. apply U0. apply q_fst_elem. eauto.
    + apply q_get_elem in U0; [|apply (b_uniq x Hbok)]. destruct (b_each x Hbok w x0 U0) as (_&[Hae _]&_).
      estep H; [|einv H]. apply pot_one_err in T as [-> Hlt]; [|done..]. because. eexists. split; [done|]. by exists x0.
  - unfold buy_it_now in H. estep H. estep H. estep H; [say|]. estep H. estep H; [say|]. estep H; [say|].
    estep H; [because; eexists; split; [done|]; exists x1; split; congruence|]. subst x1. do 2 (estep H; [say|]).
    pose proof (a_books _ _ Ha _ _ U0) as Hbok. destruct (auc_refs s id x0 H1 U0) as (_&[m Hm]&[f Hf]).
    assert (forall e0 s2 s3, bind (pay_for_nft id w amount x x0) (fun cut => claim_all (a_bidders x0);;; set_nft id (put_listed false (x <| owner := w |>));;;
              del_auction id;;; mod_auc (fun x1 => x1 <| deadlines ::= q_del id |>);;; emit_completed id (Some (w, amount, cut))) s2 = (Err e0, s3) ->
             s2 = s -> justified e0 (auc_table s w (C_buy_it_now id amount))) as Hpay.
    { intros e0 s2 s3 Hp ->. apply err_bind in Hp as [Hp|(cut&s2&Hp&H2)]; [|destruct cut as [[??]?]; einv H2].
      apply (pay_err id w amount x x0 s m f) in Hp; [|done|done]. cbv zeta in Hp. rewrite (proj2 (N.eqb_neq _ _) Hwp) in Hp.
      cbn [auc_table]. apply justified_app_r. eapply unpayable_intro; [done|exact Hp|].
      exists x, x0, m, f. do 3 eexists. split_and!; [done..| |reflexivity].
      apply (auc_division s id x0); [done..|]. pose proof (b_buy x0 Hbok _ U1). lia. }
    unfold highest_bid in H. destruct (last (a_bidders x0)) as [[v z]|] eqn:El; cbn [on_some snd] in H.
    + estep H; [|by eapply Hpay]. because. eexists. split; [done|]. exists v, z. split; [|done].
      apply last_Some in El as [l' ->]. apply elem_of_app. right. left.
    + eapply Hpay; [exact H|done].
  - unfold claim in H. estep H. estep H; [say|]. destruct (a_claims _ _ Ha _ _ U) as [[Hx _] _].
    estep H; [|einv H]. apply pot_one_err in T as [-> Hlt]; [|done..]. because. by exists x.
Qed.

Lemma fact_auc_refused s w c e : config_ok -> reachable s -> w ∉ pots -> wf_call c = true -> is_auc_call c ->
  justified e (auc_table s w c) -> exists e', dispatch (Signed w) c s = (Err e', s).
Proof.
  intros Hcfg Hs Hw Hwf Hc H. destruct (dispatch_cases (Signed w) c s) as [(s'&_&_&Hd)|[e' Hd]]; [|by exists e'].
  exfalso. assert (auc_rule s w c) as Hr by (apply fact_auc_rule; eauto). clear Hd.
  pose proof (reachable_inv1 s Hs) as H1. pose proof (reachable_ainv s Hs) as Ha. pose proof (ok_min_duration Hcfg) as Hmin.
  destruct c; try done; cbn [auc_table auc_rule] in H, Hr.
  - destruct Hr as ((H0&H2)&(H3&H4)&H5&Hbi&Hroom&d&Hd&Hown&(?&?&?&?&?&?)&Hl&m&Hm&Hal&Hcf). destruct H as (P&H&HP). clear Hcfg Hs H1 Ha Hw Hwf Hc.
    each_line H; try congruence; try (clear - HP Hmin Hroom H0 H2 H3 H4 H5; lia).
    all: try (destruct HP as (d'&Hd'&HP); assert (d' = d) as -> by congruence; cbv beta in HP; congruence).
    + destruct HP as (p&Hp&?). specialize (Hbi p Hp). lia.
    + destruct HP as (d'&m'&Hd'&Hm'&HP). assert (d' = d) as -> by congruence. assert (m' = m) as -> by congruence. done.
    + destruct HP as (m'&x&Hm'&Hx&?). assert (m' = m) as -> by congruence. specialize (Hcf x Hx). lia.
  - destruct Hr as (a&Hau&Hcr&Hlt). destruct (auc_refs s id a H1 Hau) as ([d Hd]&_). destruct H as (P&H&HP). each_line H; clash.
  - destruct Hr as (d&a&l&v&x&m&f&com&roy&rest&Hd&Hau&Hcr&Hext&Hbid&Hm&Hf&Hdiv&Hpay).
    apply justified_app in H as [H|H].
    + destruct H as (P&H&HP). each_line H; try congruence.
      all: destruct HP as (a'&Ha'&HP); assert (a' = a) as -> by congruence; try congruence.
      rewrite Hbid in HP. by destruct l.
    + apply pot_short_spec in H as (p&(d'&a'&l'&v'&x'&m'&f'&com'&roy'&rest'&Hd'&Hau'&Hbid'&Hm'&Hf'&Hdiv'&->)&Hn).
      assert (d' = d) as -> by congruence. assert (a' = a) as -> by congruence. assert (m' = m) as -> by congruence. assert (f' = f) as -> by congruence.
      rewrite Hbid in Hbid'. apply app_inj_2 in Hbid' as [_ Hvx]; [|done]. injection Hvx as _ <-.
      by destruct (division_det _ _ _ _ _ _ _ _ _ Hdiv Hdiv') as (->&->&->).
  - destruct Hr as (a&x&Hau&Hcr&Hst&Hae&Hsp&Hall&Hstd&Hpay). apply justified_app in H as [H|H].
    + destruct H as (P&H&HP). each_line H; try congruence; try lia.
      all: destruct HP as (a'&Ha'&HP); assert (a' = a) as -> by congruence; try congruence; try lia.
      destruct HP as (v&z&Hin&?). specialize (Hall _ _ Hin). lia.
    + apply unpayable_spec in H as (l&(a'&x'&Ha'&Hstd'&->)&Hn). assert (a' = a) as -> by congruence.
      pose proof (a_books _ _ Ha _ _ Hau) as Hbok. apply (standing_get _ _ _ Hbok) in Hstd, Hstd'. subst. done.
  - destruct Hr as (a&x&Hau&Hin&Hend&Hle). pose proof (a_books _ _ Ha _ _ Hau) as Hbok. destruct H as (P&H&HP). each_line H; try congruence.
    all: destruct HP as (a'&Ha'&HP); assert (a' = a) as -> by congruence; try lia.
    + by destruct (HP x).
    + destruct HP as (y&Hy&?). assert (y = x) as -> by (by eapply q_uniq; [apply (b_uniq a Hbok)|..]). lia.
  - destruct Hr as (d&a&m&f&com&roy&rest&Hd&Hau&Hp&Hcr&Hst&Htop&Hm&Hf&Hdiv&Hpay). apply justified_app in H as [H|H].
    + destruct H as (P&H&HP). each_line H; try congruence.
      all: destruct HP as (a'&Ha'&HP); assert (a' = a) as -> by congruence; try congruence; try lia.
      * destruct HP as (q&?&?). congruence.
      * destruct HP as (v&z&Hin&?). specialize (Htop _ _ Hin). lia.
    + apply unpayable_spec in H as (l&(d'&a'&m'&f'&com'&roy'&rest'&Hd'&Hau'&Hm'&Hf'&Hdiv'&->)&Hn).
      assert (d' = d) as -> by congruence. assert (a' = a) as -> by congruence. assert (m' = m) as -> by congruence. assert (f' = f) as -> by congruence.
      by destruct (division_det _ _ _ _ _ _ _ _ _ Hdiv Hdiv') as (->&->&->).
  - destruct Hr as (x&Hcl&Hle). destruct H as (P&H&HP). each_line H; [congruence|]. destruct HP as (y&Hy&?). assert (y = x) as -> by congruence. lia.
Qed.
End errs.
