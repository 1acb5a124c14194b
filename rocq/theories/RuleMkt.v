(** When the calls of pallet marketplace succeed. *)
From Verif Require Export RuleNft MktFacts.
Local Open Scope N_scope.

Section rules.
Context {C : Config}.
Implicit Types (s : state).


(** The three payments of a sale. *)
Lemma division_det f d p com roy rest c2 r2 x2 : division f d p com roy rest -> division f d p c2 r2 x2 ->
  com = c2 /\ roy = r2 /\ rest = x2.
Proof.
  intros (H1&H2&H3) (G1&G2&G3). assert (com = c2) as <- by (by eapply fee_share_det).
  assert (roy = r2) as <- by (by eapply permill_share_det). lia.
Qed.

Lemma fact_mkt_rule s w c : 0 < ed -> reachable s -> wf_call c = true -> is_mkt_call c ->
  (exists s', dispatch (Signed w) c s = (Ok tt, s')) <-> mkt_rule s w c.
Proof.
  intros Hed Hs Hw Hc. pose proof (reachable_binv s Hs) as Hb. pose proof (reachable_inv1 s Hs) as H1.
  pose proof (reachable_pinv s Hs) as Hp. apply rule_intro; [done| |].
  - intros s' H. destruct c; try done; cbn [exec_call signed root] in H; try done; cbn [mkt_rule].
    + unfold create_marketplace in H. minv H. split; [by eapply fee_affords|]. st_cbn_in E. lia.
    + unfold set_marketplace_owner in H. minv H. split; [by eexists|done].
    + unfold set_marketplace_kind in H. minv H. by eexists.
    + unfold set_marketplace_configuration in H. minv H. by eexists.
    + unfold list_nft in H. minv H.
      all: exists x; split_and!; [done|done|done|by apply not_locked|].
      all: eexists _, _; split_and!; [done|by apply allowed_iff|by apply covers_flat_iff|..].
      * rewrite O. apply fee_amount_share.
      * apply chain_can_pay; [done|]. cbn. eauto.
      * rewrite O. done.
      * apply chain_can_pay; [done|]. cbn. eauto.
    + unfold unlist_nft in H. minv H. exists x. split_and!; [done|done|by eexists].
    + unfold buy_nft, pay_commission_fee in H. minv H; subst price.
      * exists x, x0, x1, (fee_amount c (sale_price x0)). exists (permill_mul (royalty x) (sale_price x0 - fee_amount c (sale_price x0))).
        exists (sale_price x0 - fee_amount c (sale_price x0) - permill_mul (royalty x) (sale_price x0 - fee_amount c (sale_price x0))).
        split_and!; [done..| |].
        { rewrite X. split_and!; [apply fee_amount_share|apply permill_mul_share|lia]. }
        apply chain_can_pay; [done|]. cbn. eauto 10.
      * rewrite N.sub_0_r in *. exists x, x0, x1, 0, (permill_mul (royalty x) (sale_price x0)), (sale_price x0 - permill_mul (royalty x) (sale_price x0)).
        split_and!; [done..| |].
        { rewrite X. split_and!; [done|rewrite N.sub_0_r; apply permill_mul_share|lia]. }
        apply chain_can_pay; [done|]. exists (s_bal s). split; [apply transfer_zero|]. cbn. eauto 10.
  - intros H. destruct c; try done; cbn [mkt_rule] in H; cbn [exec_call signed].
    + destruct H as [Ha Hn]. destruct (affords_fee s _ _ Hed Hb Ha) as [b Hf]. unfold create_marketplace. okgo.
    + destruct H as [(m&Hm&<-) ?]. unfold set_marketplace_owner. okgo.
    + destruct H as (m&Hm&<-). unfold set_marketplace_kind. okgo.
    + destruct H as (m&Hm&<-). unfold set_marketplace_configuration. okgo.
    + destruct H as (d&Hd&<-&(?&?&?&?&?&?)&Hl&m&fee&Hm&Ha%allowed_iff&Hcf%covers_flat_iff&Hfee&Hpay).
      assert (soulbound_locked d = false) by (apply not_true_is_false; by rewrite soulbound_locked_iff).
      apply chain_can_pay in Hpay; [|done]. cbn in Hpay. destruct Hpay as (b&Hpay&_).
      unfold list_nft, pay_listing_fee. okgo. destruct (m_listing m) as [f|] eqn:Ef.
      * rewrite (fee_share_det _ _ _ _ Hfee (fee_amount_share f price)) in Hpay. unfold set_nft_state. okgo.
      * unfold set_nft_state. okgo.
    + destruct H as (d&Hd&<-&[x Hx]). unfold unlist_nft, set_nft_state. okgo. okstep; [by rewrite Hx|]. okgo.
    + destruct H as (d&x&m&com&roy&rest&Hd&Hx&Hm&Hse&<-&Hbal&Hdiv&Hpay).
      apply chain_can_pay in Hpay; [|done]. cbn in Hpay. destruct Hpay as (b1&P1&b2&P2&b3&P3&_).
      destruct Hdiv as (D1&D2&D3). unfold buy_nft, pay_commission_fee. okgo. destruct (sale_commission x) as [f|] eqn:Ef.
      * pose proof (fee_share_det _ _ _ _ D1 (fee_amount_share f _)) as ->.
        pose proof (permill_share_det _ _ _ _ D2 (permill_mul_share _ _)) as ->.
        okgo. okstep; [|okgo]. replace (_ - _ - _) with rest by lia. exact P3.
      * cbn in D1. subst com. rewrite transfer_zero in P1. injection P1 as <-.
        pose proof (permill_share_det _ _ _ _ D2 (permill_mul_share _ _)) as ->.
        okgo.
        okstep; [|okgo]. replace (_ - _ - _) with rest by lia. exact P3.
Qed.
End rules.
