(** The auction hook: every due auction is settled when payments out of the account cannot
    fail (existential deposit at most one). *)
From Verif Require Export AucSolv.
Local Open Scope N_scope.

Section hook.
Context {C : Config}.

(** The part of a block around one hook. *)
Lemma next_block_hook {A} (f : state -> A) h s : config_ok -> sreach s ->
  (forall h' t, h' <> h -> f (snd (run_hook h' t)) = f t) ->
  (forall t, f (t <| s_now ::= fun n => n + 1 |>) = f t) ->
  exists t, sreach t /\ rtc sstep s t /\ s_now t = s_now s + 1 /\ f t = f s /\ f (next_block s) = f (snd (run_hook h t)).
Proof.
  intros HC Hs Hf Hn. unfold next_block, run_hooks.
  assert (Hin : h ∈ hook_order) by (rewrite (ok_hooks HC); destruct h; set_solver).
  assert (Hnd : NoDup hook_order).
  { rewrite (ok_hooks HC). repeat (apply NoDup_cons; split; [set_solver|]). apply NoDup_nil_2. }
  apply elem_of_list_split in Hin as (l1&l2&El). rewrite El in *.
  apply NoDup_app in Hnd as (_&Hd&Hnd). apply NoDup_cons in Hnd as [Hl2 _].
  assert (Hl1 : h ∉ l1). { intros H. apply (Hd _ H). by left. }
  assert (Hfold : forall l t, h ∉ l -> f (fold_left (fun s h => snd (run_hook h s)) l t) = f t).
  { induction l as [|h' l IH]; intros t Hl; [done|]. apply not_elem_of_cons in Hl as [Hne Hl]. cbn. rewrite IH by done. by apply Hf. }
  assert (Hnow : forall l t, s_now (fold_left (fun s h => snd (run_hook h s)) l t) = s_now t).
  { induction l as [|h' l IH]; intros t; [done|]. cbn. rewrite IH. pose proof (hook_kept h' t) as Hk. unfold kept in Hk. by destruct Hk as [-> _]. }
  rewrite fold_left_app. cbn [fold_left].
  set (t0 := s <| s_now ::= fun n => n + 1 |>).
  exists (fold_left (fun s h => snd (run_hook h s)) l1 t0). split_and!.
  - apply sreach_hooks. by apply sr_tick.
  - eapply rtc_l; [apply ss_tick|apply ssteps_hooks].
  - by rewrite Hnow.
  - rewrite Hfold by done. apply Hn.
  - by apply Hfold.
Qed.
Lemma hook_auc_kept h t : h <> HookAuction -> s_auc (snd (run_hook h t)) = s_auc t.
Proof.
  intros Hne. pose proof (hook_kept h t) as Hk. unfold kept in Hk. destruct h; cbn [hook_pallet] in Hk; try done; by destruct_and! Hk.
Qed.

(** An unlocked account can pay what it has. *)
Lemma can_pay p to amt b : ed <= 1 -> bsum b 0 -> frozen b p = 0 -> amt <= free b p -> exists b', transfer_b p to amt false b = Ok b'.
Proof.
  intros He Hb Hf Ha. unfold transfer_b. destruct ((amt =? 0) || (p =? to)) eqn:E0; [eauto|].
  apply orb_false_iff in E0 as [E0%N.eqb_neq E1%N.eqb_neq].
  destruct (free b p <? amt) eqn:E2; [apply N.ltb_lt in E2; lia|]. rewrite Hf, N.add_0_r, E2.
  unfold untouchable, has_lock. rewrite Hf. cbn [orb N.ltb N.compare N.max]. rewrite N.add_0_r, E2.
  destruct (free b to + amt <? ed) eqn:E3; [apply N.ltb_lt in E3; lia|].
  destruct (u128_max <? free b to + amt) eqn:E4; [|eauto]. apply N.ltb_lt in E4.
  pose proof (bsum_two b 0 p to Hb E1). destruct Hb as (_&_&?). lia.
Qed.
Lemma nolock_frozen s p : nolock s -> p ∈ pots -> frozen (s_bal s) p = 0.
Proof. intros H Hp. destruct (H p Hp) as [H1 H2]. unfold frozen. by rewrite H1, H2. Qed.
Lemma frozen_locks b b' p : same_locks b b' -> frozen b' p = frozen b p.
Proof. intros [E1 E2]. unfold frozen. by rewrite E1, E2. Qed.
(** What is left after paying, when no dust can arise. *)
Lemma pays_exact p to amt b b' : ed <= 1 -> transfer_b p to amt false b = Ok b' -> free b' p + amt = free b p + at_acc to p amt.
Proof.
  intros He H. assert (Hc : false = true \/ ed <= free b p - amt \/ free b p = amt \/ free b p < amt) by lia.
  destruct Hc as [Hc|[Hc|[Hc|Hc]]]; [done| | |].
  - pose proof (transfer_free _ _ _ _ _ _ H ltac:(auto) p) as Hf. unfold at_acc in *. by rewrite (decide_True (P := p = p)) in Hf.
  - pose proof (transfer_free _ _ _ _ _ _ H ltac:(auto) p) as Hf. unfold at_acc in *. by rewrite (decide_True (P := p = p)) in Hf.
  - unfold transfer_b in H. destruct ((amt =? 0) || (p =? to)) eqn:E0.
    + injection H as <-. apply orb_true_iff in E0 as [->%N.eqb_eq| ->%N.eqb_eq]; unfold at_acc; [by destruct (decide _)|by rewrite decide_True].
    + apply N.ltb_lt in Hc. by rewrite Hc in H.
Qed.
Lemma can_pay3 p mo cr se com roy rest b : ed <= 1 -> bsum b 0 -> frozen b p = 0 -> com + roy + rest <= free b p ->
  exists b', paid_b p mo cr se com roy rest false b b'.
Proof.
  intros He Hb Hf Ha. destruct (can_pay p mo com b He Hb Hf ltac:(lia)) as [b1 T1].
  assert (G1 : roy + rest <= free b1 p). { pose proof (pays_exact _ _ _ _ _ He T1). lia. }
  pose proof (transfer_bsum _ _ _ _ _ _ _ Hb T1) as Hb1. pose proof (frozen_locks _ _ p (transfer_locks _ _ _ _ _ _ T1)) as Hf1.
  destruct (can_pay p cr roy b1 He Hb1 ltac:(congruence) ltac:(lia)) as [b2 T2].
  assert (G2 : rest <= free b2 p). { pose proof (pays_exact _ _ _ _ _ He T2). lia. }
  pose proof (transfer_bsum _ _ _ _ _ _ _ Hb1 T2) as Hb2. pose proof (frozen_locks _ _ p (transfer_locks _ _ _ _ _ _ T2)) as Hf2.
  destruct (can_pay p se rest b2 He Hb2 ltac:(congruence) ltac:(lia)) as [b3 T3].
  exists b3, b1, b2. done.
Qed.

(** The invariant inside the loop, with [dl] the part of the queue not yet handled. *)
Record linv (s : state) (dl : list (N * N)) : Prop := {
  l_inv1 : inv1 s;
  l_pinv : pinv s;
  l_binv : binv s;
  l_lock : nolock s;
  l_aok : aok (s_auc s) dl;
  l_solv : solv s;
  l_all : forall i a, auctions (s_auc s) !! i = Some a -> i ∈ dl.*1
}.

Lemma pay_run i x d a m f s b' : mkts (s_mkt s) !! a_mkt a = Some m -> commissions (s_auc s) !! i = Some f ->
  paid_b auction_pot (m_owner m) (creator d) (a_creator a) (auc_com f x) (auc_roy f d x) (auc_rest f d x) false (s_bal s) b' ->
  pay_for_nft i auction_pot x d a s = (Ok (auc_com f x, auc_roy f d x, auc_rest f d x), s <| s_bal := b' |>).
Proof.
  intros Hm Hf (b1&b2&T1&T2&T3). unfold pay_for_nft, get_mkt, bind, gets, unwrap. rewrite Hm, Hf, N.eqb_refl. cbv zeta. cbn [negb].
  fold (auc_com f x). fold (auc_roy f d x). fold (auc_rest f d x).
  unfold transfer, lift_bal. rewrite T1. st_cbn. rewrite T2. st_cbn. rewrite T3. st_cbn. done.
Qed.

Lemma linv_settle i b dl s : ed <= 1 -> config_ok -> linv s ((i, b) :: dl) ->
  exists s', settle_one i s = (Ok true, s') /\ linv s' dl /\ auctions (s_auc s') = delete i (auctions (s_auc s)).
Proof.
  intros He HC [HI HP HB HL HA HS Hall].
  destruct (a_live _ _ HA i b ltac:(left)) as (a&Ha&_).
  assert (exists d, nfts (s_nft s) !! i = Some d) as [d Hd].
  { pose proof (i_view s HI i) as V. unfold view_ok in V. destruct (nfts (s_nft s) !! i); [eauto|]. apply vn_auc in V. congruence. }
  pose proof (i_view s HI i) as V. unfold view_ok in V. rewrite Hd, Ha in V.
  destruct (v_auc _ _ _ _ _ _ _ _ _ _ _ _ _ V a eq_refl) as (_&[m Hm]&[f Hf]).
  pose proof (aok_settle i b dl s HA) as HA'.
  pose proof (inv1_pres_settle_one i s HI) as HI'.
  assert (HB' : binv (snd (settle_one i s))). { assert (pres binv (settle_one i)) as Hp by (repeat bal_step). by apply Hp. }
  assert (HL' : nolock (snd (settle_one i s))). { assert (pres nolock (settle_one i)) as Hp by (repeat lock_step). by apply Hp. }
  assert (Hmk : s_mkt (snd (settle_one i s)) = s_mkt s).
  { assert (pres (fun t => s_mkt t = s_mkt s) (settle_one i)) as Hp by (pres_go; st_cbn; assumption). by apply Hp. }
  assert (Hpay : forall rest w x, a_bidders a = rest ++ [(w, x)] -> a_start_price a < x /\ (exists b',
    paid_b auction_pot (m_owner m) (creator d) (a_creator a) (auc_com f x) (auc_roy f d x) (auc_rest f d x) false (s_bal s) b') /\
    auc_com f x + auc_roy f d x + auc_rest f d x = x).
  { intros rest w x Eb. assert (Hx : (w, x) ∈ a_bidders a). { rewrite Eb. apply elem_of_app. right. by left. }
    destruct (b_each _ (a_books _ _ HA _ _ Ha) w x Hx) as (Hlt&_).
    destruct (shares_sum s i a d f x HP (or_intror (ex_intro _ _ HA)) Hd Ha Hf ltac:(lia)) as (_&_&Es).
    split_and!; [done| |done]. apply can_pay3; [done|done|apply nolock_frozen; [done|unfold pots; left]|].
    rewrite Es. unfold solv, escrow, stakes in HS. rewrite (msumf_delete _ _ _ _ Ha) in HS.
    pose proof (tot_elem _ _ _ Hx). lia. }
  destruct (settle_ok i s) as (r&s'&E&[(->&_&_&[Hn|[Hn|Hn]])|(->&d2&a2&rest&Hd2&Ha2&Ea&Hrest)]).
  - congruence.
  - congruence.
  - destruct Hn as (d2&a2&rest&w&x&e&Hd2&Ha2&Eb&Hp). assert (d2 = d) as -> by congruence. assert (a2 = a) as -> by congruence.
    destruct (Hpay _ _ _ Eb) as (_&[b' Hpd]&_). rewrite (pay_run i x d (a <| a_bidders := rest |>) m f s b') in Hp; done.
  - rewrite E in *. cbn [snd] in *. assert (d2 = d) as -> by congruence. assert (a2 = a) as -> by congruence.
    exists s'. assert (Eau : auctions (s_auc s') = delete i (auctions (s_auc s))) by (rewrite Ea; done).
    assert (Hroy : forall j d', nfts (s_nft s') !! j = Some d' -> exists d0, nfts (s_nft s) !! j = Some d0 /\ royalty d' = royalty d0).
    { intros j d'. assert (exists w, s_nft s' = s_nft s <| nfts ::= <[i := delist w d]> |>) as [w ->].
      { destruct Hrest as [(_&_&_&En)|(m2&f2&w&x&b'&_&_&_&_&_&En)]; [exists (owner d)|by exists w]. rewrite En. by destruct d. }
      st_cbn. intros [[<- <-]|[_ Hj]]%lookup_insert_Some; eauto. }
    split_and!; [done| |done]. split; try done.
    + destruct HP as [P1 P2 P3 P4]. split; rewrite ?Hmk; [done|done| |].
      * rewrite Ea. st_cbn. done.
      * intros j d' Hj. destruct (Hroy _ _ Hj) as (d0&Hd0&->). eauto.
    + pose proof (whole_escrow _ _ (ok_auction_ed HC) HA') as HW. unfold solv in *.
      assert (Hsub : sublist rest (a_bidders a)).
      { destruct Hrest as [(->&->&_)|(m2&f2&w&x&b'&->&_)]; [done|]. by apply sublist_inserts_r. }
      pose proof (escrow_done _ _ i a rest (deadlines (s_auc s)) HA Ha Hsub) as Hes.
      assert (Ea' : s_auc s' = mkAucSt (delete i (auctions (s_auc s))) (commissions (s_auc s)) (deadlines (s_auc s)) (claims_add rest (claims (s_auc s)))) by (rewrite Ea; done).
      rewrite <- Ea' in Hes.
      destruct Hrest as [(Eb&->&Ebal&_)|(m2&f2&w&x&b'&Eb&Hm2&Hf2&Hp&Ebal&_)].
      * rewrite Ebal. rewrite Eb in Hes. lia.
      * rewrite Ebal. assert (m2 = m) as -> by congruence. assert (f2 = f) as -> by congruence.
        destruct (Hpay _ _ _ Eb) as (_&_&Es). eapply pot_pays_paid; [exact Hp|exact HW|].
        rewrite Eb, tot_app in Hes. replace (tot [(w, x)]) with x in Hes by (unfold tot; cbn; lia). lia.
    + intros j aj Hj. rewrite Eau in Hj. apply lookup_delete_Some in Hj as [Hne Hj]. apply Hall in Hj. cbn in Hj.
      apply elem_of_cons in Hj as [?|Hj]; [congruence|done].
Qed.

Lemma linv_loop fuel : forall now dl acts s, ed <= 1 -> config_ok -> linv s dl -> (length dl <= fuel)%nat ->
  exists l1 dl' s', auction_loop fuel now dl acts s = (Ok dl', s') /\ dl = l1 ++ dl' /\ (forall x, x ∈ l1 -> snd x <= now) /\
    (forall i, auctions (s_auc s') !! i = if decide (i ∈ l1.*1) then None else auctions (s_auc s) !! i) /\ linv s' dl' /\
    ((forall x, x ∈ dl' -> now < snd x) \/ (1 <= nlen l1 /\ auction_actions <= acts + nlen l1)).
Proof.
  induction fuel as [|f IH]; intros now dl acts s He HC HL Hlen.
  - destruct dl; [|cbn in Hlen; lia]. exists [], [], s. cbn. split_and!; try done.
    + by intros x ?%elem_of_nil.
    + left. by intros x ?%elem_of_nil.
  - cbn [auction_loop]. destruct (q_pop now dl) as [[i dl']|] eqn:Ep.
    + apply q_pop_some in Ep as (b&->&Hb). destruct (linv_settle i b dl' s He HC HL) as (s1&E&HL1&Ea). unfold bind at 1. rewrite E. cbn [andb].
      destruct (auction_actions <=? acts + 1) eqn:El.
      * apply N.leb_le in El. exists [(i, b)], dl', s1. split_and!; try done.
        -- intros x ->%elem_of_list_singleton. done.
        -- intros j. rewrite Ea. cbn. destruct (decide (j ∈ [i])) as [Hj|Hj].
           ++ apply elem_of_list_singleton in Hj as ->. apply lookup_delete.
           ++ apply lookup_delete_ne. set_solver.
        -- right. cbn. lia.
      * destruct (IH now dl' (acts + 1) s1 He HC HL1) as (l1&dl2&s'&Er&->&Hd&Ha&HL'&Hend); [cbn in Hlen; lia|].
        exists ((i, b) :: l1), dl2, s'. split_and!; try done.
        -- intros x [->|Hx]%elem_of_cons; [done|]. by apply Hd.
        -- intros j. rewrite Ha, Ea. cbn. destruct (decide (j = i)) as [->|Hne].
           ++ rewrite lookup_delete. rewrite (decide_True (P := i ∈ i :: l1.*1)) by (by left). by destruct (decide _).
           ++ rewrite lookup_delete_ne by done. destruct (decide (j ∈ l1.*1)), (decide (j ∈ i :: l1.*1)); set_solver.
        -- destruct Hend as [Hend|[H1 H2]]; [by left|right]. unfold nlen in *. cbn [length]. lia.
    + exists [], dl, s. cbn. split_and!; try done; [by intros x ?%elem_of_nil|]. left. intros x Hx.
      eapply q_pop_none; [exact Ep|apply (a_dl _ _ (l_aok _ _ HL))|done].
Qed.

(** ** Reachable states *)
Definition all_due (s : state) : Prop := forall i a, auctions (s_auc s) !! i = Some a -> i ∈ (deadlines (s_auc s)).*1.

Lemma sreach_linv s : sreach s -> solv s -> all_due s -> linv s (deadlines (s_auc s)).
Proof.
  intros Hs H1 H2. split; auto.
  - by apply sreach_inv1.
  - by apply sreach_pinv.
  - by apply sreach_binv.
  - by apply sreach_nolock.
  - by apply sreach_ainv.
Qed.

Lemma auction_hook_ok s : ed <= 1 -> config_ok -> linv s (deadlines (s_auc s)) ->
  exists l1, deadlines (s_auc s) = l1 ++ deadlines (s_auc (snd (run_hook HookAuction s))) /\
    (forall x, x ∈ l1 -> snd x <= s_now s) /\
    (forall i, auctions (s_auc (snd (run_hook HookAuction s))) !! i = if decide (i ∈ l1.*1) then None else auctions (s_auc s) !! i) /\
    solv (snd (run_hook HookAuction s)) /\ all_due (snd (run_hook HookAuction s)) /\
    ((forall x, x ∈ deadlines (s_auc (snd (run_hook HookAuction s))) -> s_now s < snd x) \/ (1 <= nlen l1 /\ auction_actions <= nlen l1)).
Proof.
  intros He HC HL. cbn [run_hook].
  destruct (linv_loop (length (deadlines (s_auc s))) (s_now s) (deadlines (s_auc s)) 0 s He HC HL ltac:(done)) as (l1&dl'&s'&El&E&Hd&Ha&[_ _ _ _ _ HS Hall]&Hend).
  assert (Es : snd (auction_on_initialize s) = s' <| s_auc ::= fun x => x <| deadlines := dl' |> |>).
  { unfold auction_on_initialize, bind, gets. rewrite El. done. }
  rewrite Es. st_cbn. exists l1. split_and!; [exact E|exact Hd|exact Ha|exact HS|exact Hall|exact Hend].
Qed.

(** With an existential deposit of at most one, the account is always solvent and every
    auction has its deadline. *)
Lemma all_due_call s o c s' : sreach s -> all_due s -> action_ok (Extrinsic o c) -> is_mandate c = false -> exec_call o c s = (Ok tt, s') -> all_due s'.
Proof.
  intros Hs Hall Ho Hm He. pose proof (call_kept _ _ _ _ Hm He) as Hk. unfold kept in Hk. unfold all_due in *.
  pose proof (a_dl _ _ (sreach_ainv s Hs)) as [_ Hnd].
  destruct c; cbn [pallet_of] in Hk; try (destruct_and! Hk; match goal with E : s_auc s' = _ |- _ => rewrite E; exact Hall end); try discriminate Hm.
  all: clear Hk Hm; cbn [exec_call] in He; unfold signed in He; destruct o as [who| |]; try done; cbn [action_ok] in Ho.
  - apply create_ok in He as (d&m&_&_&_&_&_&_&_&_&_&_&_&_&_&_&E). rewrite E. cbn [auctions deadlines].
    intros j a. rewrite q_ins_perm. cbn. intros [[<- _]|[_ H]]%lookup_insert_Some; [by left|right; eauto].
  - apply cancel_ok in He as (d&a&_&Ha&_&_&_&_&E). rewrite E. unfold auc_done. cbn [auctions deadlines].
    intros j aj [Hne H]%lookup_delete_Some. apply Hall in H as [b Hb]%q_fst_elem. apply q_fst_elem. exists b. apply q_del_elem; [done|]. cbn. auto.
  - apply end_ok in He as (d&a&m&f&w&x&rest&b'&_&Ha&_&_&Hb&_&_&_&_&_&E). rewrite E. unfold auc_done. cbn [auctions deadlines].
    intros j aj [Hne H]%lookup_delete_Some. apply Hall in H as [b Hb']%q_fst_elem. apply q_fst_elem. exists b. apply q_del_elem; [done|]. cbn. auto.
  - apply bid_ok in He as (a&b'&l&a'&e&Ha&_&_&_&_&_&_&_&_&_&_&E). rewrite E. cbn [auctions deadlines].
    intros j aj Hj. assert (j ∈ (deadlines (s_auc s)).*1). { apply lookup_insert_Some in Hj as [[<- _]|[_ Hj]]; eauto. }
    destruct e; [|done]. by apply q_update_fst.
  - apply unbid_ok in He as (a&x&b'&Ha&_&_&_&_&_&E). rewrite E. cbn [auctions deadlines].
    intros j aj [[<- _]|[_ Hj]]%lookup_insert_Some; eauto.
  - apply buy_ok in He as (d&a&m&f&b'&_&Ha&_&_&_&_&_&_&_&_&_&E). rewrite E. unfold auc_done. cbn [auctions deadlines].
    intros j aj [Hne H]%lookup_delete_Some. apply Hall in H as [b Hb']%q_fst_elem. apply q_fst_elem. exists b. apply q_del_elem; [done|]. cbn. auto.
  - apply claim_ok in He as (x&b'&_&_&_&_&E). rewrite E. done.
Qed.

Lemma solv_env s e s' : config_ok -> sreach s -> solv s -> action_ok (Env e) -> run_env e s = (Ok tt, s') -> solv s'.
Proof.
  intros HC Hs HS Ha He. pose proof (env_kept _ _ _ _ He) as Hk. unfold env_kept_from in Hk. destruct Hk as (_&_&_&Ea&_). unfold solv. rewrite Ea.
  apply (pg_env auction_pot (escrow (s_auc s)) e s s'); [unfold pots; left| |done|done|].
  - by destruct (pots_ne (ok_pots HC)) as (_&_&?&_).
  - split; [apply (sreach_binv s Hs)|done].
Qed.
Lemma solv_hook s h : config_ok -> sreach s -> h <> HookAuction -> solv s -> solv (snd (run_hook h s)).
Proof.
  intros HC Hs Hne HS. unfold solv. rewrite hook_auc_kept by done.
  apply (pg_hook auction_pot (escrow (s_auc s)) h s); [apply HC|unfold pots; left| |by apply sreach_inv1|].
  - destruct (pots_ne (ok_pots HC)) as (?&?&?&_). destruct h; cbn; congruence.
  - split; [apply (sreach_binv s Hs)|done].
Qed.

Lemma sreach_solv s : ed <= 1 -> config_ok -> sreach s -> solv s /\ all_due s.
Proof.
  intros Hed HC H. induction H as [s Hs|s o c s' Hs IH Ha Hw Hm He|s ev Hs IH|s Hs IH|s h Hs IH|s e s' Hs IH Ha He].
  - destruct Hs as (now&era&bal&lk&->&_). split; [|intros i a Hx; cbn in Hx; by apply lookup_empty_Some in Hx].
    unfold solv, escrow, stakes. cbn. rewrite fmap_empty, msum_empty. lia.
  - destruct IH as [IH1 IH2]. split; [|by eapply all_due_call].
    eapply (solv_call s o c); eauto using sreach_inv1, sreach_pinv, sreach_binv, sreach_ainv.
  - exact IH.
  - exact IH.
  - destruct IH as [IH1 IH2]. assert (h = HookAuction \/ h <> HookAuction) as [->|Hne] by (destruct h; auto).
    + destruct (auction_hook_ok s Hed HC (sreach_linv s Hs IH1 IH2)) as (l1&_&_&_&?&?&_). done.
    + split; [by apply solv_hook|]. unfold all_due. by rewrite hook_auc_kept.
  - destruct IH as [IH1 IH2]. split; [by eapply solv_env|].
    pose proof (env_kept _ _ _ _ He) as Hk. unfold env_kept_from in Hk. destruct Hk as (_&_&_&Ea&_). unfold all_due. by rewrite Ea.
Qed.
End hook.
