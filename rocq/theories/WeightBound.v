(** How many storage entries a hook changes. *)
From Verif Require Export WeightFacts.
Local Open Scope N_scope.

Section bound.
Context {C : Config}.

Global Instance entry_eq : EqDecision entry.
Proof. solve_decision. Defined.

(** Entry [k] is as before. *)
Definition same (s s' : state) (k : entry) : Prop :=
  match k with
  | E_nft i => nfts (s_nft s') !! i = nfts (s_nft s) !! i
  | E_auction i => auctions (s_auc s') !! i = auctions (s_auc s) !! i
  | E_deadlines => deadlines (s_auc s') = deadlines (s_auc s)
  | E_refund w => claims (s_auc s') !! w = claims (s_auc s) !! w
  | E_contract i => contracts (s_rent s') !! i = contracts (s_rent s) !! i
  | E_rent_queues => queues (s_rent s') = queues (s_rent s)
  | E_transmission i => transs (s_trans s') !! i = transs (s_trans s) !! i
  | E_trans_queue => t_queue (s_trans s') = t_queue (s_trans s)
  | E_consents i => consents (s_trans s') !! i = consents (s_trans s) !! i
  | E_claimed e w => claimed (s_tee s') !! (e, w) = claimed (s_tee s) !! (e, w)
  | E_report e w => reports (s_tee s') !! (e, w) = reports (s_tee s) !! (e, w)
  | E_account w => free (s_bal s') w = free (s_bal s) w
  end.
Lemma same_changed s s' k : same s s' k -> ~ changed s s' k.
Proof. intros H Hc. destruct k; by apply Hc. Qed.
Lemma same_trans s t u k : same s t k -> same t u k -> same s u k.
Proof. destruct k; cbn; congruence. Qed.
Lemma at_most_same s s' n L : (forall k, k ∉ L -> same s s' k) -> nlen L <= n -> at_most (fun _ => True) s s' n.
Proof.
  intros H Hn. apply (at_most_list _ _ _ _ L); [|done]. intros k _ Hc. destruct (decide (k ∈ L)) as [|Hk]; [done|].
  by destruct (same_changed _ _ _ (H k Hk)).
Qed.

Lemma claims_other l m w : w ∉ l.*1 -> claims_add l m !! w = m !! w.
Proof.
  unfold claims_add. revert m. induction l as [|[v x] l IH]; intros m Hw; [done|]. cbn [fold_left fst snd].
  cbn [fmap list_fmap fst] in Hw. rewrite not_elem_of_cons in Hw. destruct Hw as [H1 H2]. rewrite IH by done. by rewrite lookup_insert_ne.
Qed.

(** ** Auctions *)
Lemma transfer_run from to amt keep u : exists r b', transfer from to amt keep u = (r, u <| s_bal := b' |>) /\
  forall a, a <> from -> a <> to -> free b' a = free (s_bal u) a.
Proof.
  unfold transfer, lift_bal. destruct (transfer_b from to amt keep (s_bal u)) as [b'|e] eqn:E.
  - exists (Ok tt), b'. split; [done|]. intros a H1 H2. rewrite (transfer_free_other _ _ _ _ _ _ a E H1). unfold at_acc. rewrite decide_False by done. lia.
  - exists (Err e), (s_bal u). split; [by destruct u|done].
Qed.
Lemma pay_run i x d a u : exists r b' m, pay_for_nft i auction_pot x d a u = (r, u <| s_bal := b' |>) /\
  forall v, v ∉ [auction_pot; m; creator d; a_creator a] -> free b' v = free (s_bal u) v.
Proof.
  assert (Eu : u = u <| s_bal := s_bal u |>) by (by destruct u).
  unfold pay_for_nft, get_mkt. unfold bind at 1, gets at 1. destruct (mkts (s_mkt u) !! a_mkt a) as [m|].
  2: { eexists _, (s_bal u), 0. split; [|done]. rewrite <- Eu. done. }
  match goal with |- context [bind (unwrap (Some ?y) ?e) ?k u] => change (bind (unwrap (Some y) e) k u) with (k y u) end. cbv beta. unfold bind at 1, gets at 1. destruct (commissions (s_auc u) !! i) as [f|].
  2: { eexists _, (s_bal u), 0. split; [|done]. rewrite <- Eu. done. }
  match goal with |- context [bind (unwrap (Some ?y) ?e) ?k u] => change (bind (unwrap (Some y) e) k u) with (k y u) end. cbv beta. cbv zeta.
  match goal with |- context [transfer _ _ ?y ?k] => generalize k; generalize y end. intros y k. clear Eu.
  generalize (permill_mul (royalty d) (x - y)). intros z.
  generalize (x - y - z). intros z'.
  unfold bind at 1. destruct (transfer_run auction_pot (m_owner m) y k u) as (r1&b1&->&F1).
  destruct r1 as [[]|e]; [|eexists _, b1, (m_owner m); split; [reflexivity|]; intros v Hv; rewrite !not_elem_of_cons in Hv; destruct_and! Hv; by apply F1].
  unfold bind at 1. destruct (transfer_run auction_pot (creator d) z k (u <| s_bal := b1 |>)) as (r2&b2&->&F2).
  cbn [s_bal set] in F2.
  assert (F2' : forall v, v ∉ [auction_pot; m_owner m; creator d; a_creator a] -> free b2 v = free (s_bal u) v).
  { intros v Hv. rewrite !not_elem_of_cons in Hv. destruct_and! Hv. rewrite F2 by done. cbn. by apply F1. }
  destruct r2 as [[]|e]; [|eexists _, b2, (m_owner m); split; [reflexivity|]; done].
  unfold bind at 1. destruct (transfer_run auction_pot (a_creator a) z' k (u <| s_bal := b1 |> <| s_bal := b2 |>)) as (r3&b3&->&F3).
  assert (F3' : forall v, v ∉ [auction_pot; m_owner m; creator d; a_creator a] -> free b3 v = free (s_bal u) v).
  { intros v Hv. rewrite <- F2' by done. rewrite !not_elem_of_cons in Hv. destruct_and! Hv. by apply F3. }
  destruct r3 as [[]|e]; (eexists _, b3, (m_owner m); split; [reflexivity|]; done).
Qed.

Lemma settle_same t i u : sreach t -> auctions (s_auc u) ⊆ auctions (s_auc t) -> exists L, nlen L <= 5 + bidder_limit /\
  forall k, k ∉ E_account auction_pot :: L -> same u (snd (settle_one i u)) k.
Proof.
  intros Ht Hu. pose proof (sreach_ainv t Ht) as HA.
  destruct (settle_one i u) as [r s'] eqn:E. cbn [snd]. revert E. unfold settle_one, get_auction, get_nft. unfold bind at 1, gets at 1.
  destruct (auctions (s_auc u) !! i) as [a|] eqn:Ha.
  2: { intros [= <- <-]. exists []. split; [unfold nlen; cbn; lia|]. by intros []. }
  unfold bind at 1, gets at 1.
  destruct (nfts (s_nft u) !! i) as [d|] eqn:Hd.
  2: { intros [= <- <-]. exists []. split; [unfold nlen; cbn; lia|]. by intros []. }
  assert (Hlen : nlen (a_bidders a) <= bidder_limit). { apply (b_len _ (a_books _ _ HA i a (lookup_weaken _ _ _ _ Ha Hu))). }
  destruct (pop_highest (a_bidders a)) as [[[w x] rest]|] eqn:Hp.
  - apply pop_highest_some in Hp. rewrite Hp, nlen_app in Hlen. unfold bind at 1, catch.
    destruct (pay_run i x d (a <| a_bidders := rest |>) u) as (r1&b'&m&->&F).
    intros Hrun. exists ([E_account m; E_account (creator d); E_account (a_creator a); E_nft i; E_auction i] ++ map E_refund (rest.*1)).
    split. { rewrite nlen_app. unfold nlen in *. rewrite map_length, fmap_length. cbn [length] in *. lia. }
    assert (Facc : forall v, E_account v ∉ E_account auction_pot :: [E_account m; E_account (creator d); E_account (a_creator a); E_nft i; E_auction i] ++ map E_refund (rest.*1) ->
      free b' v = free (s_bal u) v).
    { intros v Hv. apply F. intros Hin. apply Hv. cbn [a_creator set] in Hin. rewrite !elem_of_cons in Hin. rewrite elem_of_cons, elem_of_app, !elem_of_cons. set_solver. }
    destruct r1 as [cut|e]; [|injection Hrun as <- <-; intros [] Hk; try done; by apply Facc].
    rewrite claim_all_bind in Hrun. unfold emit_completed in Hrun. destruct cut as [[c1 c2] c3]. injection Hrun as <- <-.
    intros k Hk. destruct k as [j|j| |v|j| |j| |j|e v|e v|v]; try done; cbn [same]; st_cbn.
    + apply lookup_insert_ne. intros ->. apply Hk. rewrite elem_of_cons, elem_of_app, !elem_of_cons. set_solver.
    + apply lookup_delete_ne. intros ->. apply Hk. rewrite elem_of_cons, elem_of_app, !elem_of_cons. set_solver.
    + apply claims_other. intros Hin. apply Hk. rewrite elem_of_cons, elem_of_app. right; right. apply elem_of_list_fmap. eauto.
    + by apply Facc.
  - intros [= <- <-]. exists [E_nft i; E_auction i]. split; [unfold nlen; cbn [length]; lia|].
    intros k Hk. destruct k as [j|j| |v|j| |j| |j|e v|e v|v]; try done; cbn [same]; st_cbn.
    + apply lookup_insert_ne. intros ->. apply Hk. set_solver.
    + apply lookup_delete_ne. intros ->. apply Hk. set_solver.
Qed.

Lemma auction_loop_same t fuel now : sreach t -> forall dl acts u, auctions (s_auc u) ⊆ auctions (s_auc t) ->
  exists L, nlen L <= nlen dl * (5 + bidder_limit) /\
    forall k, k ∉ E_account auction_pot :: L -> same u (snd (auction_loop fuel now dl acts u)) k.
Proof.
  intros Ht. induction fuel as [|f IH]; intros dl acts u Hu; cbn [auction_loop].
  { exists []. split; [unfold nlen; cbn; lia|]. by intros []. }
  destruct (q_pop now dl) as [[i q']|] eqn:Ep.
  2: { exists []. split; [unfold nlen; cbn; lia|]. by intros []. }
  apply q_pop_some in Ep as (b&->&_).
  destruct (settle_same t i u Ht Hu) as (L1&N1&S1). destruct (settle_w i u) as (r&u1&E&Hsub&_). rewrite E in S1. cbn [snd] in S1.
  unfold bind at 1. rewrite E. clear E.
  assert (Hq : nlen ((i, b) :: q') = 1 + nlen q') by (unfold nlen; cbn [length]; lia). rewrite Hq.
  destruct (r && _).
  - exists L1. split; [clear - N1; nia|]. exact S1.
  - destruct (IH q' (if r then acts + 1 else acts) u1 ltac:(by etrans)) as (L2&N2&S2).
    exists (L1 ++ L2). split; [rewrite nlen_app; clear - N1 N2; nia|].
    intros k Hk. rewrite elem_of_cons, elem_of_app in Hk. apply (same_trans u u1); [apply S1|apply S2]; rewrite elem_of_cons; tauto.
Qed.

Lemma auction_bound t : sreach t -> at_most (fun _ => True) t (snd (run_hook HookAuction t)) (most_changes HookAuction t).
Proof.
  intros Ht. pose proof (a_dlen _ _ (sreach_ainv t Ht)) as Hd. cbn [run_hook most_changes].
  destruct (auction_loop_same t (length (deadlines (s_auc t))) (s_now t) Ht (deadlines (s_auc t)) 0 t ltac:(done)) as (L&N1&S1).
  destruct (auction_w t (length (deadlines (s_auc t))) (s_now t) (deadlines (s_auc t)) 0 (1, 0) t ltac:(done)) as (dl'&l&u'&E1&_).
  rewrite E1 in S1. cbn [snd] in S1.
  assert (E : snd (auction_on_initialize t) = u' <| s_auc ::= fun x => x <| deadlines := dl' |> |>).
  { unfold auction_on_initialize. unfold bind at 1, gets at 1. unfold bind at 1, gets at 1. unfold bind at 1. by rewrite E1. }
  rewrite E. apply (at_most_same _ _ _ (E_deadlines :: E_account auction_pot :: L)).
  - intros k Hk. rewrite elem_of_cons in Hk. assert (Hs : same t u' k) by (apply S1; tauto).
    destruct k; try exact Hs. by destruct Hk; left.
  - unfold nlen in *. cbn [length]. clear - N1 Hd. nia.
Qed.

(** ** Rent *)
Definition nft_dep (f : cancel_fee) : list entry := match f with FeeNFT j => [E_nft j] | _ => [] end.
Definition touched (t : state) (i : N) : list entry :=
  match contracts (s_rent t) !! i with
  | Some c => [E_contract i; E_nft i; E_account (r_renter c)] ++ nft_dep (r_renter_cf c) ++ nft_dep (r_rentee_cf c) ++
      match r_rentee c with Some v => [E_account v] | None => [] end
  | None => []
  end.
Lemma touched_len t i : nlen (touched t i) <= 6.
Proof.
  unfold touched, nft_dep, nlen. destruct (contracts (s_rent t) !! i) as [c|]; [|cbn; lia].
  destruct (r_renter_cf c), (r_rentee_cf c), (r_rentee c); cbn; lia.
Qed.
Lemma touched_all t l : nlen (flat_map (touched t) l) <= nlen l * 6.
Proof.
  induction l as [|i l IH]; [unfold nlen; cbn; lia|]. cbn [flat_map]. rewrite nlen_app. pose proof (touched_len t i). unfold nlen in *. cbn [length]. lia.
Qed.
Lemma sum_zero {A} (f : A -> N) (l : list A) : (forall x, x ∈ l -> f x = 0) -> sum_of (map f l) = 0.
Proof. intros H. rewrite (sum_const f 0) by done. lia. Qed.

Lemma rent_bound s t t' : config_ok -> reachable s -> turn HookRent s t t' -> at_most (fun _ => True) t t' (most_changes HookRent t).
Proof.
  intros HC Hs Ht. destruct (fact_rent_turn s t t' HC Hs Ht) as (_&_&_&l&[Ro Ri _ Rb Re Rr]&_&_&_&Hlen&_).
  assert (E : t' = snd (run_hook HookRent t)) by (destruct Ht as (?&?&_&_&?); done).
  pose proof (hook_kept HookRent t) as Hk. rewrite <- E in Hk. unfold kept in Hk. cbn [hook_pallet] in Hk.
  destruct Hk as (_&_&_&Ka&Kt&Ke&_).
  assert (Hin : forall i c e, i ∈ l -> contracts (s_rent t) !! i = Some c -> e ∈ touched t i -> e ∈ flat_map (touched t) l).
  { intros i c e Hi _ He. apply elem_of_list_In, in_flat_map. exists i. split; by apply elem_of_list_In. }
  apply (at_most_same _ _ _ (E_account rent_pot :: E_rent_queues :: flat_map (touched t) l)).
  - intros k Hk. rewrite !not_elem_of_cons in Hk. destruct Hk as (Hp&Hq&Hk).
    destruct k as [j|j| |v|j| |j| |j|e v|e v|v]; cbn [same]; try (rewrite ?Ka, ?Kt, ?Ke; reflexivity).
    + apply Rr. intros i c Hi [Hc _]. split.
      * intros ->. apply Hk, (Hin i c); try done. unfold touched. rewrite Hc. set_solver.
      * intros Hsec. apply Hk, (Hin i c); try done. unfold touched. rewrite Hc. destruct Hsec as [Ef|[_ Ef]]; rewrite Ef; cbn [nft_dep]; set_solver.
    + apply Ro. intros Hi. destruct (Ri j Hi) as (c&Hc&_). apply Hk, (Hin j c); try done. unfold touched. rewrite Hc. set_solver.
    + done.
    + specialize (Rb v). rewrite !sum_zero in Rb; [rewrite !N.add_0_r in Rb; apply Rb; left; congruence|..].
      * intros i Hi. unfold gets_by. destruct (contracts (s_rent t) !! i) as [c|] eqn:Hc; [|done].
        assert (H1 : r_renter c <> v). { intros <-. apply Hk, (Hin i c); try done. unfold touched. rewrite Hc. set_solver. }
        assert (H2 : r_rentee c <> Some v). { intros Ev. apply Hk, (Hin i c); try done. unfold touched. rewrite Hc, Ev. rewrite !elem_of_app. right; right; right. by left. }
        unfold end_gets, renew_gets, at_acc. destruct (contracts (s_rent t') !! i); rewrite decide_False by done; [done|].
        destruct (r_rentee c); [rewrite decide_False by congruence|]; done.
      * intros i Hi. unfold pays_by. destruct (contracts (s_rent t) !! i) as [c|] eqn:Hc; [|done].
        assert (H2 : r_rentee c <> Some v). { intros Ev. apply Hk, (Hin i c); try done. unfold touched. rewrite Hc, Ev. rewrite !elem_of_app. right; right; right. by left. }
        unfold end_pays, renew_pays, at_acc. destruct (contracts (s_rent t') !! i); [|by rewrite decide_False by congruence].
        destruct (r_rentee c); [by rewrite decide_False by congruence|done].
  - pose proof (touched_all t l) as H. unfold most_changes. unfold nlen in *. cbn [length]. clear - H Hlen. nia.
Qed.

(** ** Transmissions and tee *)
Lemma trans_bound s t t' : config_ok -> reachable s -> turn HookTrans s t t' -> at_most (fun _ => True) t t' (most_changes HookTrans t).
Proof.
  intros HC Hs Ht ks Hnd Hks. destruct (fact_weight HookTrans s t t' HC Hs Ht) as (l&r&w&_&Hd&_&_&_&_&Hw).
  pose proof (fact_trans_writes s t t' r w HC Hs Ht Hd ks Hnd Hks). cbn [most_writes most_changes] in *. lia.
Qed.

Lemma tee_bound t : at_most (fun _ => True) t (snd (run_hook HookTee t)) (most_changes HookTee t).
Proof.
  cbn [run_hook most_changes].
  assert (E : tee_on_initialize t = match s_era t with None => emit (Ev_FailedToGetActiveEra (s_now t)) t
    | Some n => when (history_depth <=? n) (clear_old_era (n - history_depth)) t end).
  { unfold tee_on_initialize. unfold bind at 1, gets at 1. unfold bind at 1, gets at 1. by destruct (s_era t). }
  rewrite E. unfold old_records. destruct (s_era t) as [n|].
  2: { apply (at_most_same _ _ _ []); [by intros []|done]. }
  destruct (history_depth <=? n) eqn:Eh; cbn [when].
  2: { apply (at_most_same _ _ _ []); [by intros []|unfold nlen; cbn; lia]. }
  apply N.leb_le in Eh.
  apply (at_most_same _ _ _ (map (fun kv => E_claimed (fst (fst kv)) (snd (fst kv))) (filter (fun kv => fst (fst kv) + history_depth = n) (map_to_list (claimed (s_tee t)))) ++
    map (fun kv => E_report (fst (fst kv)) (snd (fst kv))) (filter (fun kv => fst (fst kv) + history_depth = n) (map_to_list (reports (s_tee t)))))).
  - intros k Hk. destruct k as [j|j| |v|j| |j| |j|e v|e v|v]; try done; cbn [same]; st_cbn.
    + destruct (claimed (s_tee t) !! (e, v)) as [x|] eqn:Ex.
      * apply map_filter_lookup_Some. split; [done|]. cbn. intros ->. apply Hk. apply elem_of_app. left.
        apply elem_of_list_fmap. exists ((n - history_depth, v), x). split; [done|]. apply elem_of_list_filter. split; [cbn; lia|]. by apply elem_of_map_to_list.
      * apply map_filter_lookup_None. by left.
    + destruct (reports (s_tee t) !! (e, v)) as [x|] eqn:Ex.
      * apply map_filter_lookup_Some. split; [done|]. cbn. intros ->. apply Hk. apply elem_of_app. right.
        apply elem_of_list_fmap. exists ((n - history_depth, v), x). split; [done|]. apply elem_of_list_filter. split; [cbn; lia|]. by apply elem_of_map_to_list.
      * apply map_filter_lookup_None. by left.
  - rewrite nlen_app. unfold nlen. rewrite !map_length. done.
Qed.

Lemma fact_bound h s t t' : config_ok -> reachable s -> turn h s t t' -> at_most (fun _ => True) t t' (most_changes h t).
Proof.
  intros HC Hs Ht.
  destruct (turn_state (fun _ => tt) h s t t' HC (reachable_sreach s Hs)) as (Hst&_); [done|done|done|].
  assert (E : t' = snd (run_hook h t)) by (destruct Ht as (?&?&_&_&?); done).
  destruct h; [rewrite E; by apply auction_bound|by eapply rent_bound|by eapply trans_bound|rewrite E; apply tee_bound].
Qed.
End bound.
