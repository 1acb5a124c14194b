(** What the calls of pallet marketplace do. *)
From Verif Require Import SpecEffects EffCalc MktFacts RuleMkt.
Local Open Scope N_scope.

Section rows.
Context {C : Config}.

Lemma create_mkt_does w k s s' : exec_call (Signed w) (C_create_marketplace k) s = (Ok tt, s') -> mkt_does s w (C_create_marketplace k) s'.
Proof. intros H. eff_run H create_marketplace. cbn [mkt_does]. eff_eq. Qed.
Lemma mkt_owner_does w k a s s' : exec_call (Signed w) (C_set_marketplace_owner k a) s = (Ok tt, s') ->
  mkt_does s w (C_set_marketplace_owner k a) s'.
Proof. intros H. eff_run H set_marketplace_owner. cbn [mkt_does]. exists x. split; [done|]. eff_eq. Qed.
Lemma mkt_kind_does w k a s s' : exec_call (Signed w) (C_set_marketplace_kind k a) s = (Ok tt, s') ->
  mkt_does s w (C_set_marketplace_kind k a) s'.
Proof. intros H. eff_run H set_marketplace_kind. cbn [mkt_does]. exists x. split; [done|]. eff_eq. Qed.
Lemma mkt_conf_does w k a b c d e s s' : exec_call (Signed w) (C_set_marketplace_configuration k a b c d e) s = (Ok tt, s') ->
  mkt_does s w (C_set_marketplace_configuration k a b c d e) s'.
Proof. intros H. eff_run H set_marketplace_configuration. cbn [mkt_does]. exists x. split; [done|]. eff_eq. Qed.
Lemma list_does w i k p s s' : exec_call (Signed w) (C_list_nft i k p) s = (Ok tt, s') -> mkt_does s w (C_list_nft i k p) s'.
Proof.
  intros H. cbn [exec_call signed] in H. unfold list_nft in H. do 14 mstep H.
  apply bind_ok in H as ([]&s1&H1&H).
  assert (Hs1 : exists b, s1 = s <| s_bal := b |>).
  { unfold pay_listing_fee in H1. destruct (m_listing x0); cbn [on_some] in H1; minv H1; [eauto|].
    subst. exists (s_bal s1). by destruct s1. }
  destruct Hs1 as [b ->]. unfold set_nft_state in H. minv H. subst.
  st_cbn_in U1. assert (x1 = x) as -> by congruence.
  cbn [mkt_does]. exists x, x0. split; [done|]. split; [done|]. eff_eq.
Qed.
Lemma unlist_does w i s s' : exec_call (Signed w) (C_unlist_nft i) s = (Ok tt, s') -> mkt_does s w (C_unlist_nft i) s'.
Proof.
  intros H. cbn [exec_call signed] in H. unfold unlist_nft, set_nft_state in H. minv H. subst.
  assert (x0 = x) as -> by congruence.
  cbn [mkt_does]. exists x. split; [done|]. eff_eq.
Qed.
Lemma buy_does w i p s s' : exec_call (Signed w) (C_buy_nft i p) s = (Ok tt, s') -> mkt_does s w (C_buy_nft i p) s'.
Proof.
  intros H. cbn [exec_call signed] in H. unfold buy_nft in H. do 11 mstep H.
  rename x into d, x0 into x, x1 into m. cbn [mkt_does]. apply bind_ok in H as (com&s1&H1&H).
  assert (Hs1 : (exists b, s1 = s <| s_bal := b |>) /\ fee_share (sale_commission x) p com).
  { unfold pay_commission_fee in H1. destruct (sale_commission x) as [f|]; minv H1; subst.
    - split; [eauto|]. apply fee_amount_share.
    - split; [|done]. exists (s_bal s1). by destruct s1. }
  destruct Hs1 as [[b ->] Hf]. minv H. subst.
  exists d, x, com, (permill_mul (royalty d) (sale_price x - com)), (sale_price x - com - permill_mul (royalty d) (sale_price x - com)).
  split; [done|]. split; [done|]. split.
  - unfold division. split_and!; [done|apply permill_mul_share|]. lia.
  - eff_eq.
Qed.
End rows.
