(** Percentages, sales and marketplaces. *)
From Verif Require Export NftFacts2.
Local Open Scope N_scope.

Section pct.
Context {C : Config}.

Definition pct_ok (f : option compound_fee) : Prop :=
  match f with Some (Percentage p) => p <= 1000000 | _ => True end.

Lemma per_mul_le acc p x : acc <> 0 -> p <= acc -> per_mul acc p x <= x.
Proof.
  intros Ha Hp. unfold per_mul.
  pose proof (N.div_mod (x * p) acc Ha) as Hdm. pose proof (N.mod_lt (x * p) acc Ha) as Hlt.
  pose proof (N.mul_le_mono_l p acc x Hp) as Hle.
  assert (Hq : x * p / acc <= x). { apply N.div_le_upper_bound; lia. }
  destruct (_ <? _) eqn:E; [|done]. apply N.ltb_lt in E.
  destruct (N.eq_dec (x * p / acc) x) as [Ex|]; [|lia]. rewrite Ex in Hdm. lia.
Qed.
Lemma permill_mul_le p x : p <= 1000000 -> permill_mul p x <= x.
Proof. by apply per_mul_le. Qed.
Lemma permill_mul_share p x : permill_share p x (permill_mul p x).
Proof.
  unfold permill_share, permill_mul, per_mul. change (1000000 / 2) with 500000.
  pose proof (N.div_mod (x * p) 1000000 ltac:(done)) as Hdm. pose proof (N.mod_lt (x * p) 1000000 ltac:(done)) as Hlt.
  destruct (_ <? _) eqn:E; [apply N.ltb_lt in E|apply N.ltb_ge in E]; lia.
Qed.
Lemma fee_amount_share f x : fee_share (Some f) x (fee_amount f x).
Proof. destruct f; cbn; [done|]. apply permill_mul_share. Qed.
Lemma fee_amount_le f x : pct_ok (Some f) -> covers_flat (Some f) x = true -> fee_amount f x <= x.
Proof. destruct f; cbn; [intros _ ?%N.leb_le; done|]. intros ? _. by apply permill_mul_le. Qed.

(** All stored percentages are at most one. *)
Record pinv (s : state) : Prop := {
  p_mkt : forall k m, mkts (s_mkt s) !! k = Some m -> pct_ok (m_commission m) /\ pct_ok (m_listing m);
  p_sale : forall i x, sales (s_mkt s) !! i = Some x -> pct_ok (sale_commission x);
  p_auc : forall i c, commissions (s_auc s) !! i = Some c -> pct_ok c;
  p_nft : forall i d, nfts (s_nft s) !! i = Some d -> royalty d <= 1000000
}.

Lemma wf_fee_pct f : wf_fee f = true -> pct_ok (Some f).
Proof. destruct f; cbn; [done|]. unfold permill_ok. by intros ?%N.leb_le. Qed.
Lemma wf_op_pct (op : config_op compound_fee) old : wf_op wf_fee op = true -> pct_ok old -> pct_ok (config_op_apply op old).
Proof. destruct op; cbn [wf_op config_op_apply]; [done| |done]. intros ? _. by apply wf_fee_pct. Qed.

Lemma comm_step o c s s' : is_mandate c = false -> exec_call o c s = (Ok tt, s') ->
  commissions (s_auc s') = commissions (s_auc s) \/
  exists i m k, commissions (s_auc s') = <[i := m_commission m]> (commissions (s_auc s)) /\ mkts (s_mkt s) !! k = Some m.
Proof.
  intros Hm He. pose proof (call_kept _ _ _ _ Hm He) as Hk. unfold kept in Hk.
  destruct c; cbn [pallet_of] in Hk; try (destruct_and! Hk; left; congruence); try discriminate Hm.
  all: clear Hk Hm; cbn [exec_call] in He; unfold signed in He; destruct o; try done.
  - unfold create_auction in He. right. minv He; subst s'; st_cbn; eauto.
  - left. unfold cancel_auction in He. minv He. subst s'. done.
  - left. unfold end_auction, pay_for_nft in He. minv He. subst s'. done.
  - left. unfold add_bid in He. minv He; subst s'; done.
  - left. unfold remove_bid in He. minv He. subst s'. done.
  - left. unfold buy_it_now, pay_for_nft in He. minv He; subst s'; done.
  - left. unfold claim in He. minv He. subst s'. done.
Qed.

Lemma mkts_step o c s s' : is_mandate c = false -> exec_call o c s = (Ok tt, s') ->
  (mkts (s_mkt s') = mkts (s_mkt s) /\ next_mkt (s_mkt s') = next_mkt (s_mkt s)) \/
  (exists who kd, o = Signed who /\ c = C_create_marketplace kd /\ next_mkt (s_mkt s') = next_mkt (s_mkt s) + 1 /\
     mkts (s_mkt s') = <[next_mkt (s_mkt s) := mkMarket who kd None None None None None]> (mkts (s_mkt s))) \/
  (exists who k m m', o = Signed who /\ mkts (s_mkt s) !! k = Some m /\ m_owner m = who /\
     mkts (s_mkt s') = <[k := m']> (mkts (s_mkt s)) /\ next_mkt (s_mkt s') = next_mkt (s_mkt s) /\
     match c with
     | C_set_marketplace_owner k' r => k' = k /\ m' = m <| m_owner := r |>
     | C_set_marketplace_kind k' kd => k' = k /\ m' = m <| m_kind := kd |>
     | C_set_marketplace_configuration k' f1 f2 a d co => k' = k /\
         m_owner m' = m_owner m /\ m_kind m' = m_kind m /\
         field_after f1 (m_commission m) (m_commission m') /\ field_after f2 (m_listing m) (m_listing m') /\
         field_after a (m_accounts m) (m_accounts m') /\ field_after d (m_offchain m) (m_offchain m') /\
         field_after co (m_collections m) (m_collections m')
     | _ => False
     end).
Proof.
  intros Hm He. pose proof (call_kept _ _ _ _ Hm He) as Hk. unfold kept in Hk.
  destruct c; cbn [pallet_of] in Hk; try (destruct_and! Hk; left; split; congruence); try discriminate Hm.
  all: clear Hk Hm; cbn [exec_call] in He; unfold signed, root in He; destruct o; try done.
  - unfold create_marketplace in He. minv He. subst s'. st_cbn. right. left. eexists _, _. split_and!; eauto.
  - right. right. unfold set_marketplace_owner in He. minv He. subst s'. st_cbn. eexists _, _, _, _. split_and!; eauto.
  - right. right. unfold set_marketplace_kind in He. minv He. subst s'. st_cbn. eexists _, _, _, _. split_and!; eauto.
  - right. right. unfold set_marketplace_configuration in He. minv He. subst s'. st_cbn. eexists _, _, _, _. split; [eauto|]. split; [eauto|]. split; [eauto|]. split; [eauto|]. split; [eauto|].
    split_and!; try done; cbn; match goal with |- field_after ?op _ _ => by destruct op end.
  - left. unfold set_marketplace_mint_fee in He. minv He. by subst s'.
  - left. unfold list_nft, pay_listing_fee, set_nft_state in He. minv He; by subst s'.
  - left. unfold unlist_nft, set_nft_state in He. minv He; by subst s'.
  - left. unfold buy_nft, pay_commission_fee in He. minv He; by subst s'.
Qed.

Lemma sales_step o c s s' : is_mandate c = false -> exec_call o c s = (Ok tt, s') ->
  sales (s_mkt s') = sales (s_mkt s) \/
  (exists who i k m p, o = Signed who /\ c = C_list_nft i k p /\ mkts (s_mkt s) !! k = Some m /\ sales (s_mkt s') = <[i := mkSale who k p (m_commission m)]> (sales (s_mkt s)) /\
     exists d, nfts (s_nft s) !! i = Some d /\ is_listed (nstate d) = false) \/
  (exists who i, o = Signed who /\ (c = C_unlist_nft i \/ exists p, c = C_buy_nft i p) /\
     sales (s_mkt s') = delete i (sales (s_mkt s))).
Proof.
  intros Hm He. pose proof (call_kept _ _ _ _ Hm He) as Hk. unfold kept in Hk.
  destruct c; cbn [pallet_of] in Hk; try (destruct_and! Hk; left; congruence); try discriminate Hm.
  all: clear Hk Hm; cbn [exec_call] in He; unfold signed, root in He; destruct o; try done.
  - unfold create_marketplace in He. minv He. subst s'. by left.
  - unfold set_marketplace_owner in He. minv He. subst s'. by left.
  - unfold set_marketplace_kind in He. minv He. subst s'. by left.
  - unfold set_marketplace_configuration in He. minv He. subst s'. by left.
  - unfold set_marketplace_mint_fee in He. minv He. subst s'. by left.
  - unfold list_nft, pay_listing_fee, set_nft_state in He. right. left. minv He; subst s'; st_cbn; eexists _, _, _, _, _; split_and!; eauto.
  - unfold unlist_nft, set_nft_state in He. minv He; subst s'. right. right. eauto 10.
  - unfold buy_nft, pay_commission_fee in He. minv He; subst s'; right; right; eexists _, _; split_and!; eauto.
Qed.

Lemma hook_commissions h s : commissions (s_auc (snd (run_hook h s))) = commissions (s_auc s).
Proof.
  pose proof (hook_kept h s) as Hk. unfold kept in Hk. destruct h; cbn [hook_pallet] in Hk; try (destruct_and! Hk; congruence).
  clear Hk. cut (pres (fun t => commissions (s_auc t) = commissions (s_auc s)) (run_hook HookAuction)); [intros H; by apply H|].
  cbn [run_hook]. apply pres_auction_hook; [|intros; st_cbn; assumption]. intros id. pres_go; st_cbn; assumption.
Qed.

Lemma pinv_call s o c s' : inv1 s -> pinv s -> wf_call c = true -> is_mandate c = false -> exec_call o c s = (Ok tt, s') -> pinv s'.
Proof.
  intros HI [P1 P2 P3 P4] Hw Hm He. split.
  - intros k m Hk. destruct (mkts_step o c s s' Hm He) as [[E _]|[(who&kd&_&_&_&E)|(who&k0&m0&m'&_&Hm0&_&E&_&Hc)]]; rewrite E in Hk; eauto.
    + apply lookup_insert_Some in Hk as [[_ <-]|[_ Hk]]; [done|eauto].
    + apply lookup_insert_Some in Hk as [[_ <-]|[_ Hk]]; [|eauto]. destruct (P1 _ _ Hm0) as [Q1 Q2].
      destruct c; try done.
      * destruct Hc as [_ ->]. done.
      * destruct Hc as [_ ->]. done.
      * destruct Hc as (_&_&_&F1&F2&_). cbn [wf_call] in Hw. rewrite !andb_true_iff in Hw. destruct Hw as [[[[[_ W1] W2] _] _] _].
        split.
        -- destruct commission as [|x|]; cbn in F1; rewrite F1; [done| |done]. by apply wf_fee_pct.
        -- destruct listing as [|x|]; cbn in F2; rewrite F2; [done| |done]. by apply wf_fee_pct.
  - intros i x Hx. destruct (sales_step o c s s' Hm He) as [E|[(who&j&k&m&p&_&_&Hk&E&_)|(who&j&_&_&E)]]; rewrite E in Hx; eauto.
    + apply lookup_insert_Some in Hx as [[_ <-]|[_ Hx]]; [|eauto]. cbn. by destruct (P1 _ _ Hk).
    + apply lookup_delete_Some in Hx as [_ Hx]. eauto.
  - intros i x Hx. destruct (comm_step o c s s' Hm He) as [E|(j&m&k&E&Hk)]; rewrite E in Hx; eauto.
    apply lookup_insert_Some in Hx as [[_ <-]|[_ Hx]]; [|eauto]. by destruct (P1 _ _ Hk).
  - intros i d' Hd'. destruct (nft_call s o c s' HI Hm He) as (G1&G2&_). destruct (nfts (s_nft s) !! i) as [d|] eqn:Hd.
    + specialize (G1 i d Hd). rewrite Hd' in G1. destruct G1 as (_&_&_&_&[->|(r&->&_&_&->)]&_); [eauto|].
      cbn [wf_call] in Hw. apply andb_true_iff in Hw as [_ Hw]. by apply N.leb_le.
    + destruct (G2 i d' Hd Hd') as (_&_&_&_&Hc). destruct c; try discriminate Hc; cbn [mint_args] in Hc; injection Hc as -> -> -> ->;
        cbn [wf_call] in Hw; rewrite !andb_true_iff in Hw; destruct_and! Hw; by apply N.leb_le.
Qed.

Lemma sreach_pinv s : sreach s -> pinv s.
Proof.
  intros H. induction H as [s Hs|s o c s' Hs IH Ha Hw Hm He|s ev Hs IH|s Hs IH|s h Hs IH|s e s' Hs IH Ha He].
  - destruct Hs as (now&era&bal&lk&->&_). split; intros k x Hx; cbn in Hx; by apply lookup_empty_Some in Hx.
  - eapply (pinv_call s); eauto using sreach_inv1.
  - destruct IH. split; assumption.
  - destruct IH. split; assumption.
  - destruct IH as [P1 P2 P3 P4]. pose proof (hook_kept h s) as Hk.
    assert (Em : s_mkt (snd (run_hook h s)) = s_mkt s) by (unfold kept in Hk; destruct h; cbn [hook_pallet] in Hk; destruct_and! Hk; done).
    split; rewrite ?Em, ?hook_commissions; [done..|]. intros i d' Hd'.
    pose proof (h_nft _ _ (hook_hrel s h (sreach_inv1 s Hs)) i) as Hn. destruct (nfts (s_nft s) !! i) as [d|] eqn:Hd; [|congruence].
    destruct Hn as (d2&Hd2&(_&_&T&_)&_). rewrite Hd' in Hd2. injection Hd2 as <-. rewrite T. eauto.
  - apply env_kept in He. unfold env_kept_from in He. destruct He as (_&En&Em&Ea&_). destruct IH. split; rewrite ?En, ?Em, ?Ea; assumption.
Qed.
Lemma reachable_pinv s : reachable s -> pinv s.
Proof. intros H. apply sreach_pinv, reachable_sreach, H. Qed.

(** Buying. *)
Lemma transfer_issuance from to amt b b' : transfer_b from to amt true b = Ok b' -> issuance b' = issuance b.
Proof.
  intros H. unfold transfer_b in H. destruct (_ || _); [by injection H as <-|].
  destruct (free b from <? amt) eqn:E1; [done|]. apply N.ltb_ge in E1.
  destruct (free b from <? amt + frozen b from); [done|].
  destruct (free b from <? amt + untouchable b from true) eqn:E2; [done|]. apply N.ltb_ge in E2.
  destruct (free b to + amt <? ed) eqn:E3; [done|].
  destruct (u128_max <? free b to + amt); [done|]. injection H as <-.
  assert (ed <= untouchable b from true) by (unfold untouchable; cbn; lia).
  unfold set_free. destruct (free b from - amt <? ed) eqn:E4; [apply N.ltb_lt in E4; lia|]. rewrite E3. done.
Qed.

Lemma fact_buy s who i p s' : dispatch (Signed who) (C_buy_nft i p) s = (Ok tt, s') ->
  exists d d' x m com roy rest,
    nfts (s_nft s) !! i = Some d /\ sales (s_mkt s) !! i = Some x /\ mkts (s_mkt s) !! sale_mkt x = Some m /\
    sale_price x = p /\ com + roy + rest = p /\
    fee_share (sale_commission x) p com /\ permill_share (royalty d) (p - com) roy /\
    (forall a, free (s_bal s') a + at_acc who a p =
       free (s_bal s) a + at_acc (m_owner m) a com + at_acc (creator d) a roy + at_acc (sale_seller x) a rest) /\
    issuance (s_bal s') = issuance (s_bal s) /\
    nfts (s_nft s') = <[i := d']> (nfts (s_nft s)) /\ d' = d <| owner := who |> <| nstate ::= fun st => st <| is_listed := false |> |> /\
    sales (s_mkt s') = delete i (sales (s_mkt s)).
Proof.
  intros H. apply dispatch_ok in H as [_ H]. cbn [exec_call signed] in H. unfold buy_nft in H. do 11 mstep H.
  rename x into d, x0 into x, x1 into m. 
  assert (Hx : exists com b, fee_share (sale_commission x) (sale_price x) com /\
    (forall a, free b a + at_acc who a com = free (s_bal s) a + at_acc (m_owner m) a com) /\ issuance b = issuance (s_bal s) /\
    (let! commission := ret com in
         ensure (commission <=? sale_price x) (merr M_InternalMathError);;;
         transfer who (creator d) (permill_mul (royalty d) (sale_price x - commission)) true;;;
         ensure (permill_mul (royalty d) (sale_price x - commission) <=? sale_price x - commission) (merr M_InternalMathError);;;
         transfer who (sale_seller x) (sale_price x - commission - permill_mul (royalty d) (sale_price x - commission)) true;;;
         set_nft i (put_listed false (d <| owner := who |>));;;
         mod_mkt (fun k => k <| sales ::= delete i |>);;;
         emit (Ev_NFTSold i (sale_mkt x) who (sale_price x) commission (permill_mul (royalty d) (sale_price x - commission)))) (s <| s_bal := b |>) = (Ok tt, s')).
  { unfold pay_commission_fee in H. destruct (sale_commission x) as [f|] eqn:Ef.
    - mstep H. mstep H. exists (fee_amount f (sale_price x)), b. split_and!.
      + apply fee_amount_share.
      + by eapply transfer_free; [|left].
      + by eapply transfer_issuance.
      + exact H.
    - exists 0, (s_bal s). split_and!; [done..| |done|].
      + intros a. unfold at_acc. destruct (decide _), (decide _); lia.
      + rewrite <- H. f_equal. by destruct s. }
  clear H. destruct Hx as (com&b&Hf&Hb&Hi&H). minv H. subst s'. st_cbn_in T. st_cbn_in T0.
  eexists d, _, x, m, com, (permill_mul (royalty d) (sale_price x - com)), (sale_price x - com - permill_mul (royalty d) (sale_price x - com)).
  st_cbn. split_and!; try done.
  - clear - E0 E2 E3. lia.
  - by rewrite <- E0.
  - rewrite <- E0. apply permill_mul_share.
  - intros a. pose proof (transfer_free _ _ _ _ _ _ T (or_introl eq_refl) a) as F1.
    pose proof (transfer_free _ _ _ _ _ _ T0 (or_introl eq_refl) a) as F2. specialize (Hb a). 
    rewrite <- E0. remember (permill_mul (royalty d) (sale_price x - com)) as roy. clear - F1 F2 Hb E2 E3.
    unfold at_acc in *. repeat destruct (decide _); lia.
  - rewrite (transfer_issuance _ _ _ _ _ T0), (transfer_issuance _ _ _ _ _ T). done.
Qed.

(** Listing. *)
Lemma memN_iff x l : memN x l = true <-> x ∈ l.
Proof.
  unfold memN. rewrite existsb_exists. split.
  - intros (y&Hin&->%N.eqb_eq). by apply elem_of_list_In.
  - intros H. exists x. split; [by apply elem_of_list_In|apply N.eqb_refl].
Qed.
Lemma allowed_iff m who co : allowed_to_list m who co = true <-> admits m who co.
Proof.
  unfold allowed_to_list, admits.
  set (A := match m_accounts m with Some l => memN who l | None => false end).
  set (B := match co, m_collections m with Some c, Some l => memN c l | _, _ => false end).
  assert (HA : A = true <-> exists l, m_accounts m = Some l /\ who ∈ l).
  { subst A. destruct (m_accounts m) as [l|]; [|split; [done|by intros (l&?&_)]]. rewrite memN_iff. split; [eauto|]. by intros (l'&[= ->]&?). }
  assert (HB : B = true <-> exists k l, co = Some k /\ m_collections m = Some l /\ k ∈ l).
  { subst B. destruct co as [k|]; [|split; [done|by intros (k&l&?&_)]]. destruct (m_collections m) as [l|]; [|split; [done|by intros (k'&l&_&?&_)]].
    rewrite memN_iff. split; [eauto|]. by intros (k'&l'&[= ->]&[= ->]&?). }
  clearbody A B. destruct (m_kind m), A, B; cbn; intuition congruence.
Qed.
Lemma covers_flat_iff c p : covers_flat c p = true <-> (forall x, c = Some (Flat x) -> x <= p).
Proof.
  destruct c as [[x|q]|]; cbn; [|by split..]. rewrite N.leb_le. split; [by intros ? ? [= ->]|auto].
Qed.

Lemma fact_list s who i k p s' : dispatch (Signed who) (C_list_nft i k p) s = (Ok tt, s') ->
  exists d d' m fee, nfts (s_nft s) !! i = Some d /\ mkts (s_mkt s) !! k = Some m /\
    owner d = who /\ unengaged d /\ ~ bound_to_owner d /\ admits m who (collection_id d) /\
    (forall x, m_commission m = Some (Flat x) -> x <= p) /\
    fee_share (m_listing m) p fee /\
    (forall a, free (s_bal s') a + at_acc who a fee = free (s_bal s) a + at_acc (m_owner m) a fee) /\
    sales (s_mkt s') = <[i := mkSale who k p (m_commission m)]> (sales (s_mkt s)) /\
    nfts (s_nft s') = <[i := d']> (nfts (s_nft s)) /\ d' = d <| nstate ::= fun st => st <| is_listed := true |> |>.
Proof.
  intros H. apply dispatch_ok in H as [_ H]. cbn [exec_call signed] in H. unfold list_nft in H. do 14 mstep H.
  rename x into d, x0 into m.
  apply bind_ok in H as ([]&s1&Hp&H).
  assert (Hx : exists fee b, s1 = s <| s_bal := b |> /\ fee_share (m_listing m) p fee /\
    (forall a, free b a + at_acc who a fee = free (s_bal s) a + at_acc (m_owner m) a fee)).
  { unfold pay_listing_fee, on_some in Hp. destruct (m_listing m) as [f|].
    - unfold transfer, lift_bal in Hp. destruct (transfer_b _ _ _ _ _) as [b|] eqn:T; [|done]. injection Hp as <-.
      exists (fee_amount f p), b. split_and!; [done|apply fee_amount_share|]. by eapply transfer_free; [|left].
    - injection Hp as <-. exists 0, (s_bal s). split_and!; [by destruct s|done|]. intros a. unfold at_acc. repeat destruct (decide _); lia. }
  destruct Hx as (fee&b&->&Hf&Hb). unfold set_nft_state in H. minv H. subst s'. st_cbn_in U1.
  assert (x = d) as -> by congruence.
  eexists d, _, m, fee. st_cbn. split_and!; try done.
  - by apply not_locked.
  - by apply allowed_iff.
  - by apply covers_flat_iff.
Qed.
Lemma fact_list_ok s who i k p d m : i <= u32_max -> k <= u32_max -> p <= u128_max ->
  nfts (s_nft s) !! i = Some d -> mkts (s_mkt s) !! k = Some m -> m_listing m = None ->
  owner d = who -> unengaged d -> ~ bound_to_owner d -> admits m who (collection_id d) ->
  (forall x, m_commission m = Some (Flat x) -> x <= p) ->
  exists s', dispatch (Signed who) (C_list_nft i k p) s = (Ok tt, s').
Proof.
  intros Hi Hk Hp Hd Hm Hl <- (U1&U2&U3&U4&U5&U6) Hb Ha%allowed_iff Hc%covers_flat_iff.
  eexists. unfold dispatch. cbn [wf_call]. unfold fits. rewrite (proj2 (N.leb_le i u32_max) Hi), (proj2 (N.leb_le k u32_max) Hk), (proj2 (N.leb_le p u128_max) Hp). cbn [andb].
  unfold transactional. cbn [exec_call signed]. unfold list_nft, pay_listing_fee, set_nft_state, get_mkt, get_nft, gets, unwrap, bind, ensure.
  rewrite Hd, N.eqb_refl, U1, U2, U3, U4, U5, U6. cbn [negb].
  destruct (soulbound_locked d) eqn:E; [by apply soulbound_locked_iff in E|]. cbn [negb]. rewrite Hm, Ha, Hc, Hl. cbn [on_some ret].
  unfold mod_mkt, modify, get_nft, gets. st_cbn. rewrite Hd. reflexivity.
Qed.

(** Sale records. *)
Lemma fact_sale s i x : reachable s -> sales (s_mkt s) !! i = Some x ->
  owner_of s i = Some (sale_seller x) /\ is_Some (mkts (s_mkt s) !! sale_mkt x) /\
  forall com, fee_share (sale_commission x) (sale_price x) com -> com <= sale_price x.
Proof.
  intros Hs Hx. pose proof (i_view s (reachable_inv1 s Hs) i) as Hv. unfold view_ok in Hv. unfold owner_of.
  pose proof (p_sale s (reachable_pinv s Hs) i x Hx) as Hp.
  destruct (nfts (s_nft s) !! i) as [d|] eqn:Hd; destruct Hv; [|congruence].
  destruct (v_sale x Hx) as (H1&H2&H3). split_and!; [cbn; congruence|done|].
  intros com Hc. destruct (sale_commission x) as [[f|q]|]; cbn in Hc, H3, Hp.
  - subst com. by apply N.leb_le.
  - destruct Hc as [Hc _]. pose proof (N.mul_le_mono_l q 1000000 (sale_price x) Hp) as Hq. clear - Hc Hq. lia.
  - subst com. apply N.le_0_l.
Qed.

Lemma fact_sale_step s a i x : reachable s -> sales (s_mkt s) !! i = Some x ->
  sales (s_mkt (step s a)) !! i = Some x \/
  (sales (s_mkt (step s a)) !! i = None /\
   exists who, fst (dispatch (Signed who) (C_unlist_nft i) s) = Ok tt /\ a = Extrinsic (Signed who) (C_unlist_nft i) \/
     exists p, fst (dispatch (Signed who) (C_buy_nft i p) s) = Ok tt /\ a = Extrinsic (Signed who) (C_buy_nft i p)).
Proof.
  intros Hs Hx.
  assert (Hroot : forall c s', is_mandate c = false -> exec_call Root c s = (Ok tt, s') -> sales (s_mkt s') !! i = Some x).
  { intros c s' Hm He. destruct (sales_step _ _ _ _ Hm He) as [->|[(?&?&?&?&?&?&_)|(?&?&?&_)]]; done. }
  apply (step_cases (fun t => sales (s_mkt t) !! i = Some x \/ (sales (s_mkt t) !! i = None /\ _)) s a).
  - by left.
  - intros ev t Ht. exact Ht.
  - intros c s' Hm He. left. eauto.
  - intros o c s' -> Hm Hd He. destruct (sales_step _ _ _ _ Hm He) as [->|[(who&j&k&m&p&->&->&Hk&E&d&Hd1&Hl)|(who&j&->&Hc&E)]]; [by left| |].
    + left. rewrite E. destruct (decide (i = j)) as [<-|Hne]; [|by rewrite lookup_insert_ne].
      exfalso. destruct (fact_flags s i d Hs Hd1) as (F1&_). rewrite Hl in F1.
      assert (false = true) by (apply F1; left; eauto). done.
    + rewrite E. destruct (decide (i = j)) as [<-|Hne]; [|left; by rewrite lookup_delete_ne].
      right. split; [apply lookup_delete|]. exists who. destruct Hc as [->|[p ->]]; [left|right; exists p]; by rewrite Hd.
  - intros ->. left. rewrite <- Hx. apply (next_block_keeps (fun t => sales (s_mkt t) !! i)); [done|].
    intros t h. pose proof (hook_kept h t) as Hk. unfold kept in Hk. destruct h; cbn [hook_pallet] in Hk; destruct_and! Hk; congruence.
  - intros e s' -> He. left. apply env_kept in He. unfold env_kept_from in He. destruct He as (_&_&->&_). done.
Qed.

(** Marketplaces. *)
Lemma next_mkt_none s : reachable s -> forall k, next_mkt (s_mkt s) <= k -> mkts (s_mkt s) !! k = None.
Proof.
  intros H%reachable_sreach. induction H as [s Hs|s o c s' Hs IH Ha Hw Hm He|s ev Hs IH|s Hs IH|s h Hs IH|s e s' Hs IH Ha He].
  - destruct Hs as (now&era&bal&lk&->&_). intros k _. cbn. apply lookup_empty.
  - destruct (mkts_step _ _ _ _ Hm He) as [[-> ->]|[(who&kd&_&_&->&->)|(who&j&x&x'&->&Hx&<-&->&->&Hc)]]; [done|..]; intros k Hk.
    + rewrite lookup_insert_ne; [apply IH; lia|lia].
    + rewrite lookup_insert_ne; [auto|]. intros ->. rewrite IH in Hx; done.
  - done.
  - done.
  - pose proof (hook_kept h s) as Hk. unfold kept in Hk.
    assert (Em : s_mkt (snd (run_hook h s)) = s_mkt s) by (destruct h; cbn [hook_pallet] in Hk; destruct_and! Hk; done). by rewrite Em.
  - apply env_kept in He. unfold env_kept_from in He. destruct He as (_&_&->&_). done.
Qed.
Lemma fact_mkt s a k m : reachable s -> mkts (s_mkt s) !! k = Some m ->
  exists m', mkts (s_mkt (step s a)) !! k = Some m' /\
    (m' = m \/ exists c, a = Extrinsic (Signed (m_owner m)) c /\ fst (dispatch (Signed (m_owner m)) c s) = Ok tt /\
       match c with
       | C_set_marketplace_owner k' r => k' = k /\ m' = m <| m_owner := r |>
       | C_set_marketplace_kind k' kd => k' = k /\ m' = m <| m_kind := kd |>
       | C_set_marketplace_configuration k' f1 f2 acc d co => k' = k /\
           m_owner m' = m_owner m /\ m_kind m' = m_kind m /\
           field_after f1 (m_commission m) (m_commission m') /\ field_after f2 (m_listing m) (m_listing m') /\
           field_after acc (m_accounts m) (m_accounts m') /\ field_after d (m_offchain m) (m_offchain m') /\
           field_after co (m_collections m) (m_collections m')
       | _ => False
       end).
Proof.
  intros Hs Hm.
  assert (Hroot : forall c s', is_mandate c = false -> exec_call Root c s = (Ok tt, s') -> mkts (s_mkt s') !! k = Some m).
  { intros c s' Hm' He. destruct (mkts_step _ _ _ _ Hm' He) as [[-> _]|[(?&?&?&_)|(?&?&?&?&?&_)]]; done. }
  eapply (step_cases (fun t => exists m', mkts (s_mkt t) !! k = Some m' /\ (m' = m \/ _)) s a).
  - eauto.
  - intros ev t Ht. exact Ht.
  - intros c s' Hm' He. exists m. eauto.
  - intros o c s' -> Hm' Hd He. destruct (mkts_step _ _ _ _ Hm' He) as [[-> _]|[(who&kd&_&_&_&->)|(who&j&x&x'&->&Hx&<-&->&_&Hc)]]; [eauto| |].
    + exists m. split; [|by left]. rewrite lookup_insert_ne; [done|]. intros E. rewrite <- E in Hm.
      pose proof (next_mkt_none s Hs (next_mkt (s_mkt s)) (N.le_refl _)). congruence.
    + destruct (decide (k = j)) as [<-|Hne]; [|exists m; rewrite lookup_insert_ne by done; eauto].
      assert (x = m) as -> by congruence. exists x'. split; [apply lookup_insert|]. right. exists c. rewrite Hd. done.
  - intros ->. exists m. split; [|by left]. rewrite <- Hm. apply (next_block_keeps (fun t => mkts (s_mkt t) !! k)); [done|].
    intros t h. pose proof (hook_kept h t) as Hk. unfold kept in Hk. destruct h; cbn [hook_pallet] in Hk; destruct_and! Hk; congruence.
  - intros e s' -> He. exists m. split; [|by left]. apply env_kept in He. unfold env_kept_from in He. destruct He as (_&_&->&_). done.
Qed.
Lemma fact_mkt_later s s' k m : reachable s -> later s s' -> mkts (s_mkt s) !! k = Some m -> is_Some (mkts (s_mkt s') !! k).
Proof.
  intros Hs Hl Hm. induction Hl as [|s' a Hl IH Ha]; [eauto|]. destruct (IH) as [m1 H1].
  destruct (fact_mkt s' a k m1 (later_reachable _ _ Hs Hl) H1) as (m2&H2&_). eauto.
Qed.

(** The last shard. *)
Lemma shard_step_done s l addr full :
  (forall l', l = Some l' -> l' <> []) -> completes_shards s (default [] l) addr ->
  exists op cl, ensure_enclave (s_tee s) addr = Some (cl, op) /\ shard_step full cl op l = Ok (None, true).
Proof.
  intros Hne (op&cl&Ha&Hc&Hall&Hnd&Hn). exists op, cl. unfold ensure_enclave. rewrite Ha, Hc. split; [done|].
  unfold shard_step. destruct l as [l|]; cbn [from_option id] in *.
  - destruct l as [|[c0 o0] l]; [by specialize (Hne [] eq_refl)|].
    assert (c0 = cl) as -> by (inversion Hall; done). rewrite N.eqb_refl. cbn [negb].
    assert (Hlt : nlen ((cl, o0) :: l) <? shards_number = true) by (apply N.ltb_lt; lia). rewrite Hlt. cbn [negb].
    assert (Hex : existsb (fun x => (fst x =? cl) && (snd x =? op)) ((cl, o0) :: l) = false).
    { apply NoDup_cons in Hnd as [Hnd _]. apply not_true_is_false. intros (x&Hin&Hx)%existsb_exists.
      apply andb_true_iff in Hx as [_ Hx%N.eqb_eq]. apply Hnd. subst op. apply elem_of_list_In, in_map. done. }
    rewrite Hex, nlen_app. change (nlen [(cl, op)]) with 1. by rewrite Hn, N.eqb_refl.
  - change (nlen []) with 0 in Hn. cbn in Hn. rewrite <- Hn. done.
Qed.
Lemma fact_last_shard s i d addr : reachable s -> nfts (s_nft s) !! i = Some d ->
  (is_syncing_secret (nstate d) = true -> completes_shards s (default [] (secret_shards (s_nft s) !! i)) addr ->
   exists s' d', dispatch (Signed addr) (C_add_secret_shard i) s = (Ok tt, s') /\
     nfts (s_nft s') !! i = Some d' /\ is_syncing_secret (nstate d') = false /\ secret_shards (s_nft s') !! i = None) /\
  (is_syncing_capsule (nstate d) = true -> completes_shards s (default [] (capsule_shards (s_nft s) !! i)) addr ->
   exists s' d', dispatch (Signed addr) (C_add_capsule_shard i) s = (Ok tt, s') /\
     nfts (s_nft s') !! i = Some d' /\ is_syncing_capsule (nstate d') = false /\ capsule_shards (s_nft s') !! i = None).
Proof.
  intros Hs Hd. pose proof (i_view s (reachable_inv1 s Hs) i) as Hv. unfold view_ok in Hv. rewrite Hd in Hv.
  assert (Hi : i <=? u32_max = true).
  { apply N.leb_le. pose proof (nft_old s i Hs ltac:(eauto)). pose proof (next_nft_range s Hs). lia. }
  destruct (fact_shards s i Hs) as [Hsh _].
  split; intros Hsy Hc.
  - pose proof (v_ssync _ _ _ _ _ _ _ _ _ _ _ _ _ Hv Hsy) as Hse.
    destruct (shard_step_done _ _ _ N_NFTHasReceivedAllShards ltac:(intros l Hl; by destruct (Hsh l (or_introl Hl))) Hc) as (op&cl&He&Hst).
    eexists _, _. split.
    { unfold dispatch. cbn [wf_call]. unfold fits. rewrite Hi. unfold transactional. cbn [exec_call signed].
      unfold add_secret_shard, get_nft, gets, unwrap, bind, ensure. rewrite He, Hd, Hse, Hsy. unfold of_res. cbn [fst snd]. rewrite Hst. reflexivity. }
    st_cbn. rewrite lookup_insert, lookup_partial_alter. done.
  - pose proof (v_csync _ _ _ _ _ _ _ _ _ _ _ _ _ Hv Hsy) as Hse.
    destruct (shard_step_done _ _ _ N_CapsuleHasReceivedAllShards ltac:(intros l Hl; by destruct (Hsh l (or_intror Hl))) Hc) as (op&cl&He&Hst).
    eexists _, _. split.
    { unfold dispatch. cbn [wf_call]. unfold fits. rewrite Hi. unfold transactional. cbn [exec_call signed].
      unfold add_capsule_shard, get_nft, gets, unwrap, bind, ensure. rewrite He, Hd, Hse, Hsy. unfold of_res. cbn [fst snd]. rewrite Hst. reflexivity. }
    st_cbn. rewrite lookup_insert, lookup_partial_alter. done.
Qed.
End pct.
