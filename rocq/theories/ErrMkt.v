(** Why calls of pallet marketplace are refused. *)
From Verif Require Export ErrCalc RuleMkt.
Local Open Scope N_scope.

Section errs.
Context {C : Config}.
Implicit Types (s : state).

Lemma not_covers c p : covers_flat c p = false -> exists x, c = Some (Flat x) /\ p < x.
Proof. destruct c as [[x|]|]; cbn; [|done|done]. rewrite N.leb_gt. eauto. Qed.
Lemma not_allowed m w co : allowed_to_list m w co = false -> ~ admits m w co.
Proof. intros H Ha%allowed_iff. congruence. Qed.
Lemma locked_is s i d : nfts (s_nft s) !! i = Some d -> soulbound_locked d = true -> nft_is s i bound_to_owner.
Proof. intros Hd Hl%soulbound_locked_iff. by exists d. Qed.

Lemma fact_mkt_err s w c e s' : 0 < ed -> reachable s -> wf_call c = true -> is_mkt_call c ->
  dispatch (Signed w) c s = (Err e, s') -> justified e (mkt_table s w c).
Proof.
  intros Hed Hs Hw Hc H. pose proof (reachable_binv s Hs) as Hb. pose proof (reachable_inv1 s Hs) as H1.
  pose proof (reachable_pinv s Hs) as Hp. apply err_dispatch in H as [_ [s1 H]]; [|done].
  destruct c; try done; cbn [exec_call signed root] in H; try (injection H as <- <-; by because); cbn [mkt_table].
  - unfold create_marketplace in H. einv H.
    + apply fee_poor in T as [? ?]; [|done|done]. by apply justified_app_l, poor_intro.
    + because. st_cbn_in E. lia.
  - unfold set_marketplace_owner in H. einv H; say.
  - unfold set_marketplace_kind in H. einv H; say.
  - unfold set_marketplace_configuration in H. einv H; say.
  - unfold list_nft in H. estep H. estep H; [say|]. do 2 (estep H; [say|]). estep H; [say|]. estep H; [because; by eapply locked_is|].
    do 4 (estep H; [say|]). estep H. estep H; [say|]. estep H; [because; exists x, x0; split_and!; [done|done|by apply not_allowed]|].
    estep H; [because; exists x0; apply not_covers in E8 as (y&Hy&?); by exists y|].
    unfold pay_listing_fee in H. destruct (m_listing x0) as [f|] eqn:Ef; cbn [on_some] in H.
    + estep H.
      * apply justified_app_r. apply (unpayable_intro s w _ [(m_owner x0, fee_amount f price)]); [done|by left|].
        eexists _, _. split_and!; [done| |done]. rewrite Ef. apply fee_amount_share.
      * unfold set_nft_state in H. st_cbn_in U. einv H. st_cbn_in U1. congruence.
    + unfold set_nft_state in H. einv H. st_cbn_in U1. congruence.
  - unfold unlist_nft, set_nft_state in H. einv H; say.
  - unfold buy_nft in H. estep H. estep H; [say|]. estep H. estep H; [say|]. estep H.
    pose proof (i_view s H1 id) as Hv. unfold view_ok in Hv. rewrite U, U0 in Hv. destruct (v_sale _ _ _ _ _ _ _ _ _ _ _ _ _ Hv x0 eq_refl) as (Hse&[m Hm]&Hcf).
    pose proof (p_sale s Hp _ _ U0) as Hpct. pose proof (p_nft s Hp _ _ U) as Hroy.
    estep H; [congruence|]. cbv zeta in H. estep H; [say|]. estep H; [say|]. estep H.
    estep H; [because; lia|]. rewrite Hm in U1. injection U1 as <-. subst price. rename E1 into Hbal.
    unfold pay_commission_fee in H. destruct (sale_commission x0) as [f|] eqn:Ef.
    + pose proof (fee_amount_le f (sale_price x0) Hpct Hcf) as Hle.
      assert (permill_mul (royalty x) (sale_price x0 - fee_amount f (sale_price x0)) <= sale_price x0 - fee_amount f (sale_price x0))
        as Hle2 by (by apply permill_mul_le).
      assert (chain_err w [(m_owner m, fee_amount f (sale_price x0)); (creator x, permill_mul (royalty x) (sale_price x0 - fee_amount f (sale_price x0)));
        (sale_seller x0, sale_price x0 - fee_amount f (sale_price x0) - permill_mul (royalty x) (sale_price x0 - fee_amount f (sale_price x0)))] e (s_bal s)) as Hch.
      { cbn [chain_err]. einv H; eauto 10; lia. }
      apply justified_app_r. eapply unpayable_intro; [done|exact Hch|].
      exists x, x0, m, (fee_amount f (sale_price x0)). do 2 eexists. split_and!; [done|done|done| |reflexivity].
      rewrite Ef. split_and!; [apply fee_amount_share|apply permill_mul_share|lia].
    + assert (permill_mul (royalty x) (sale_price x0) <= sale_price x0) as Hle2 by (by apply permill_mul_le).
      assert (chain_err w [(m_owner m, 0); (creator x, permill_mul (royalty x) (sale_price x0));
        (sale_seller x0, sale_price x0 - permill_mul (royalty x) (sale_price x0))] e (s_bal s)) as Hch.
      { cbn [chain_err]. right. eexists. split; [apply transfer_zero|]. einv H; try rewrite N.sub_0_r in *; eauto 10; lia. }
      apply justified_app_r. eapply unpayable_intro; [done|exact Hch|].
      exists x, x0, m, 0. do 2 eexists. split_and!; [done|done|done| |reflexivity].
      rewrite Ef. split_and!; [done|rewrite N.sub_0_r; apply permill_mul_share|lia].
Qed.

Lemma fact_mkt_refused s w c e : 0 < ed -> reachable s -> wf_call c = true -> is_mkt_call c ->
  justified e (mkt_table s w c) -> exists e', dispatch (Signed w) c s = (Err e', s).
Proof.
  intros Hed Hs Hw Hc H. destruct (dispatch_cases (Signed w) c s) as [(s'&_&_&Hd)|[e' Hd]]; [|by exists e'].
  exfalso. assert (mkt_rule s w c) as Hr by (apply fact_mkt_rule; eauto). clear Hd.
  destruct c; try done; cbn [mkt_table mkt_rule] in H, Hr.
  - destruct H as (P&H&HP); each_line H; clash.
  - destruct H as (P&H&HP); each_line H; clash.
  - destruct H as (P&H&HP); each_line H; clash.
  - destruct H as (P&H&HP); each_line H; clash.
  - destruct Hr as (d&Hd&Hw'&Hu&Hl&m&fee&Hm&Ha&Hcf&Hsh&Hpay). apply justified_app in H as [H|H].
    + destruct H as (P&H&HP). destruct Hu as (?&?&?&?&?&?). each_line H;
        try (clear -HP Hd Hw'; destruct HP; congruence); try (clear -HP Hd; congruence); try congruence.
      all: try (destruct HP as (d'&Hd'&HP); assert (d' = d) as -> by congruence; cbv beta in HP; congruence).
      * destruct HP as (d'&m'&Hd'&Hm'&HP). assert (d' = d) as -> by congruence. assert (m' = m) as -> by congruence. done.
      * destruct HP as (m'&x&Hm'&Hx&?). assert (m' = m) as -> by congruence. specialize (Hcf x Hx). lia.
    + apply unpayable_spec in H as (l&(m'&fee'&Hm'&Hf'&->)&Hn). assert (m' = m) as -> by congruence.
      by rewrite (fee_share_det _ _ _ _ Hf' Hsh) in Hn.
  - destruct H as (P&H&HP); each_line H; clash.
  - destruct Hr as (d&x&m&com&roy&rest&Hd&Hx&Hm&Hse&Hpr&Hbal&Hdiv&Hpay). apply justified_app in H as [H|H].
    + destruct H as (P&H&HP); each_line H; clash.
    + apply unpayable_spec in H as (l&(d'&x'&m'&com'&roy'&rest'&Hd'&Hx'&Hm'&Hdiv'&->)&Hn).
      assert (d' = d) as -> by congruence. assert (x' = x) as -> by congruence. assert (m' = m) as -> by congruence.
      by destruct (division_det _ _ _ _ _ _ _ _ _ Hdiv Hdiv') as (->&->&->).
Qed.
End errs.
