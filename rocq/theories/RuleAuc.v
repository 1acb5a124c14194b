(** When the calls of pallet auction succeed. *)
From Verif Require Export RuleMkt AucFacts.
Local Open Scope N_scope.

Section rules.
Context {C : Config}.
Implicit Types (s : state).

Lemma pay_suffices i from x d a s m f b3 :
  mkts (s_mkt s) !! a_mkt a = Some m -> commissions (s_auc s) !! i = Some f ->
  paid_b from (m_owner m) (creator d) (a_creator a) (auc_com f x) (auc_roy f d x) (auc_rest f d x)
      (negb (from =? auction_pot)) (s_bal s) b3 ->
  pay_for_nft i from x d a s = (Ok (auc_com f x, auc_roy f d x, auc_rest f d x), s <| s_bal := b3 |>).
Proof.
  intros Hm Hf (b1&b2&P1&P2&P3). unfold pay_for_nft. unfold bind, get_mkt, gets, unwrap. cbn. rewrite Hm. cbn.
  rewrite Hf. cbn. unfold auc_rest, auc_roy, auc_com in *. unfold transfer, lift_bal. rewrite P1. st_cbn. rewrite P2. st_cbn. rewrite P3. done.
Qed.

(** The pot pays one bidder. *)
Lemma pot_pays_one s w x : config_ok -> reachable s -> w ∉ pots -> auction_ed < x ->
  (exists b, transfer_b auction_pot w x false (s_bal s) = Ok b) <-> x <= free (s_bal s) auction_pot.
Proof.
  intros [Hed Hae ??????] Hs Hw Hx.
  rewrite death_rule; [|by apply reachable_binv|apply pot_unfrozen; [by apply reachable_sreach|unfold pots; left]].
  assert (auction_pot <> w) by (intros <-; apply Hw; unfold pots; left). split.
  - intros [->|[?|[H1 H2]]]; [lia|done|done].
  - intros H1. right. right. lia.
Qed.

Lemma standing_get a w x : bok a -> standing_bid a w x <-> default 0 (q_get w (a_bidders a)) = x.
Proof.
  intros Hb. unfold standing_bid. destruct (q_get w (a_bidders a)) as [y|] eqn:E; cbn.
  - apply (q_get_elem w y _ (b_uniq a Hb)) in E. split.
    + intros [H|[H _]]; [by eapply q_uniq; [apply (b_uniq a Hb)|..]|by destruct (H y)].
    + intros ->. by left.
  - apply q_get_none in E. split.
    + intros [H|[_ ->]]; [|done]. destruct E. apply q_fst_elem. eauto.
    + intros <-. right. split; [|done]. intros y H. apply E. apply q_fst_elem. eauto.
Qed.
Lemma top_bid a y : bok a ->
  match last (a_bidders a) with Some hb => snd hb < y | None => a_start_price a < y end <->
  a_start_price a < y /\ forall v z, (v, z) ∈ a_bidders a -> z < y.
Proof.
  intros Hb. destruct (last (a_bidders a)) as [[v x]|] eqn:E; cbn.
  - split.
    + intros H. pose proof (blt_head_last _ _ (b_sorted a Hb) E) as Hl. split.
      * destruct (b_each a Hb v x) as [? _]; [|lia]. apply last_Some in E as [l ->]. apply elem_of_app. right. left.
      * intros v' z Hz. specialize (Hl _ Hz). cbn in Hl. lia.
    + intros [_ H]. apply (H v). apply last_Some in E as [l ->]. apply elem_of_app. right. left.
  - apply last_None in E. rewrite E. split; [|by intros [? _]]. intros H. split; [done|]. intros v z Hz. by apply elem_of_nil in Hz.
Qed.
Lemma top_buy a p : bok a -> a_buy_it a = Some p ->
  match last (a_bidders a) with Some hb => snd hb < p | None => True end <->
  forall v z, (v, z) ∈ a_bidders a -> z < p.
Proof.
  intros Hb Hp. pose proof (b_buy a Hb p Hp) as Hs. pose proof (top_bid a p Hb) as H.
  destruct (last (a_bidders a)) as [[v x]|] eqn:E; [rewrite H; tauto|].
  apply last_None in E. rewrite E. split; [|done]. intros _ v z Hz. by apply elem_of_nil in Hz.
Qed.

Lemma fact_auc_rule s w c : config_ok -> reachable s -> w ∉ pots -> wf_call c = true -> is_auc_call c ->
  (exists s', dispatch (Signed w) c s = (Ok tt, s')) <-> auc_rule s w c.
Proof.
  intros Hcfg Hs Hw Hwf Hc. pose proof (ok_ed Hcfg) as Hed. pose proof (reachable_binv s Hs) as Hb.
  pose proof (reachable_inv1 s Hs) as H1. pose proof (reachable_ainv s Hs) as Ha.
  assert (frozen (s_bal s) auction_pot = 0) as Hfz by (apply pot_unfrozen; [by apply reachable_sreach|unfold pots; left]).
  assert (w <> auction_pot) as Hwp by (intros ->; apply Hw; unfold pots; left).
  apply rule_intro; [done| |].
  - intros s' H. destruct c; try done; cbn [exec_call signed root] in H; try done; cbn [auc_rule].
    + unfold create_auction in H. minv H;
        repeat match goal with Hq : q_insert _ _ _ _ = Some _ |- _ => apply q_insert_some in Hq as [? ->] end.
      all: st_cbn_in H; split_and!; try lia; try done.
      all: try (intros ? ?; simplify_eq; done).
      all: exists x; split_and!; [done|done|done|by apply not_locked|].
      all: exists x0; split_and!; [done|by apply allowed_iff|by apply covers_flat_iff].
    + apply cancel_ok in H as (d&a&Hd&?&?&?&_). eauto.
    + apply end_ok in H as (d&a&m&f&v&x&rest&b'&Hd&Hau&Hcr&Hext&Hbid&Hm&Hf&(b1&b2&P1&P2&P3)&_).
      exists d, a, rest, v, x, m, f, (auc_com f x), (auc_roy f d x), (auc_rest f d x). split_and!; try done.
      * apply (auc_division s id a); [done..|].
        destruct (b_each a (a_books _ _ Ha _ _ Hau) v x) as [? _]; [rewrite Hbid; apply elem_of_app; right; left|lia].
      * apply pchain_can_pay; [done..|]. cbn. subst. eauto 10.
    + apply bid_ok in H as (a&b'&l&a'&e&Hau&?&?&?&Htop&?&?&HT&_).
      pose proof (a_books _ _ Ha _ _ Hau) as Hbok. apply (top_bid a _ Hbok) in Htop as [??].
      eexists a, _. split_and!; [done..| |]; [by apply standing_get|]. apply chain_can_pay; [done|]. cbn. eauto.
    + apply unbid_ok in H as (a&x&b'&Hau&Hend&Hg&HT&_). pose proof (a_books _ _ Ha _ _ Hau) as Hbok.
      apply q_get_elem in Hg; [|apply (b_uniq a Hbok)]. exists a, x. split_and!; [done|done|lia|].
      apply (pot_pays_one s w); [done|done|done| |by eexists]. by destruct (b_each a Hbok w x Hg) as (_&[? _]&_).
    + apply buy_ok in H as (d&a&m&f&b'&Hd&Hau&Hp&?&?&Htop&Hm&Hf&(b1&b2&P1&P2&P3)&_).
      pose proof (a_books _ _ Ha _ _ Hau) as Hbok. pose proof (proj1 (top_buy a _ Hbok Hp) Htop) as Htop'.
      rewrite (proj2 (N.eqb_neq w auction_pot)) in P1, P2, P3 by done. cbn [negb] in *.
      eexists d, a, m, f, _, _, _. split_and!; [done..| |].
      * apply (auc_division s id a); [done..|]. pose proof (b_buy a Hbok _ Hp). lia.
      * apply chain_can_pay; [done|]. cbn. eauto 10.
    + apply claim_ok in H as (x&b'&Hcl&HT&_). exists x. split; [done|].
      apply (pot_pays_one s w); [done|done|done| |by eexists]. by destruct (a_claims _ _ Ha _ _ Hcl) as [[? _] _].
  - intros H. destruct c; try done; cbn [auc_rule] in H; cbn [exec_call signed].
    + destruct H as ((?&?)&(?&?)&?&Hbi&Hroom&d&Hd&<-&(?&?&?&?&?&?)&Hl&m&Hm&Hal%allowed_iff&Hcf%covers_flat_iff).
      assert (soulbound_locked d = false) by (apply not_true_is_false; by rewrite soulbound_locked_iff).
      assert (q_insert parallel_auctions id end_ (deadlines (s_auc s)) = Some (q_ins (id, end_) (deadlines (s_auc s)))) as Hq.
      { unfold q_insert. by rewrite (proj2 (N.ltb_lt _ _) Hroom). }
      unfold create_auction. okgo. destruct buy_it as [p|]; [specialize (Hbi p eq_refl)|]; okgo.
    + destruct H as (a&Hau&<-&Hlt). destruct (auction_nft s id a H1 Hau) as (d&Hd&_). unfold cancel_auction. okgo.
    + destruct H as (d&a&l&v&x&m&f&com&roy&rest&Hd&Hau&<-&Hext&Hbid&Hm&Hf&Hdiv&Hpay).
      apply pchain_can_pay in Hpay; [|done..]. cbn in Hpay. destruct Hpay as (b1&P1&b2&P2&b3&P3&_).
      assert (division f d x (auc_com f x) (auc_roy f d x) (auc_rest f d x)) as Hd2.
      { apply (auc_division s id a); [done..|].
        destruct (b_each a (a_books _ _ Ha _ _ Hau) v x) as [? _]; [rewrite Hbid; apply elem_of_app; right; left|lia]. }
      destruct (division_det _ _ _ _ _ _ _ _ _ Hdiv Hd2) as (->&->&->). clear Hd2.
      assert (pop_highest (a_bidders a) = Some ((v, x), l)) as Hpop by (rewrite Hbid; apply pop_highest_app).
      unfold end_auction. okgo. eapply ok_run.
      { cbn [fst snd]. apply (pay_suffices id auction_pot x d (a <| a_bidders := l |>) s m f b3); [done|done|]. rewrite N.eqb_refl. by exists b1, b2. }
      okgo.
    + destruct H as (a&x&Hau&?&?&?&Hsp&Hall&Hst&Hpay). pose proof (a_books _ _ Ha _ _ Hau) as Hbok.
      apply (standing_get a w x Hbok) in Hst. subst x. apply chain_can_pay in Hpay; [|done]. cbn in Hpay. destruct Hpay as (b&HT&_).
      pose proof (proj2 (top_bid a _ Hbok) (conj Hsp Hall)) as Htop. pose proof (ok_bidders Hcfg) as Hbl.
      assert ((bidder_limit =? 0) = false) as Hbl' by (apply N.eqb_neq; lia).
      unfold add_bid. okgo. unfold highest_bid. destruct (last (a_bidders a)) as [[v z]|] eqn:El; okgo.
      all: rewrite find_bid_get; destruct (q_get w (a_bidders a)) as [y|] eqn:Ey; cbn [from_option default] in HT; rewrite ?N.sub_0_r in HT; okgo.
      all: destruct (insert_new_bid _ _ _) as [[?|] ?]; cbn [fst snd]; okgo.
      all: destruct (extend_if_necessary _ _) as [? [?|]]; cbn [fst snd]; okgo.
    + destruct H as (a&x&Hau&Hin&?&Hle). pose proof (a_books _ _ Ha _ _ Hau) as Hbok.
      assert (find_bid w (a_bidders a) = Some x) by (rewrite find_bid_get; apply q_get_elem; [apply (b_uniq a Hbok)|done]).
      apply (pot_pays_one s w) in Hle as [b HT]; [|done|done|done|by destruct (b_each a Hbok w x Hin) as (_&[? _]&_)].
      unfold remove_bid. okgo.
    + destruct H as (d&a&m&f&com&roy&rest&Hd&Hau&Hp&?&?&Htop&Hm&Hf&Hdiv&Hpay).
      pose proof (a_books _ _ Ha _ _ Hau) as Hbok. pose proof (proj2 (top_buy a _ Hbok Hp) Htop) as Htop'.
      apply chain_can_pay in Hpay; [|done..]. cbn in Hpay. destruct Hpay as (b1&P1&b2&P2&b3&P3&_).
      assert (division f d amount (auc_com f amount) (auc_roy f d amount) (auc_rest f d amount)) as Hd2.
      { apply (auc_division s id a); [done..|]. pose proof (b_buy a Hbok _ Hp). lia. }
      destruct (division_det _ _ _ _ _ _ _ _ _ Hdiv Hd2) as (->&->&->). clear Hd2.
      unfold buy_it_now. okgo. unfold highest_bid. destruct (last (a_bidders a)) as [[v z]|] eqn:El; okgo.
      all: eapply ok_run.
      1,3: apply (pay_suffices id w amount d a s m f b3); [done|done|]; rewrite (proj2 (N.eqb_neq w auction_pot)) by done; by exists b1, b2.
      all: okgo.
    + destruct H as (x&Hcl&Hle).
      apply (pot_pays_one s w) in Hle as [b HT]; [|done|done|done|by destruct (a_claims _ _ Ha _ _ Hcl) as [[? _] _]].
      unfold claim. okgo.
Qed.
End rules.
