(** The calls of pallet auction in closed form, and the invariant of its storages. *)
From Verif Require Export Queue MktFacts.
Local Open Scope N_scope.

Section auccalls.
Context {C : Config}.

Lemma find_bid_get w l : find_bid w l = q_get w l.
Proof. induction l as [|[j x] l IH]; [done|]. cbn. by destruct (j =? w). Qed.
Lemma del_bid_del w l : del_bid w l = q_del w l.
Proof. induction l as [|[j x] l IH]; [done|]. cbn. destruct (j =? w); [done|]. by rewrite IH. Qed.

(** The shares [pay_for_nft] computes. *)
Definition auc_com (f : option compound_fee) (amount : N) : N :=
  match f with None => 0 | Some f => fee_amount f amount end.
Definition auc_roy (f : option compound_fee) (d : nft_data) (amount : N) : N :=
  permill_mul (royalty d) (amount - auc_com f amount).
Definition auc_rest (f : option compound_fee) (d : nft_data) (amount : N) : N :=
  amount - auc_com f amount - auc_roy f d amount.

(** The three transfers of [pay_for_nft]. *)
Definition paid_b (from mo cr se com roy rest : N) (keep : bool) (b b' : balances) : Prop :=
  exists b1 b2, transfer_b from mo com keep b = Ok b1 /\ transfer_b from cr roy keep b1 = Ok b2 /\
    transfer_b from se rest keep b2 = Ok b'.

Lemma pay_ok i from amount d a s cut s' : pay_for_nft i from amount d a s = (Ok cut, s') ->
  exists m f b', mkts (s_mkt s) !! a_mkt a = Some m /\ commissions (s_auc s) !! i = Some f /\
    cut = (auc_com f amount, auc_roy f d amount, auc_rest f d amount) /\
    paid_b from (m_owner m) (creator d) (a_creator a) (auc_com f amount) (auc_roy f d amount) (auc_rest f d amount)
      (negb (from =? auction_pot)) (s_bal s) b' /\
    s' = s <| s_bal := b' |>.
Proof.
  intros H. unfold pay_for_nft in H. minv H. subst. st_cbn. st_cbn_in U. st_cbn_in U0.
  eexists _, _, _. split_and!; [done|done|done| |reflexivity].
  eexists _, _. unfold auc_com. split_and!; [exact T|exact T0|exact T1].
Qed.

Lemma pop_highest_some l x r : pop_highest l = Some (x, r) -> l = r ++ [x].
Proof.
  unfold pop_highest. destruct (last l) eqn:E; [|done]. intros [= <- <-].
  apply last_Some in E as [l' ->]. rewrite app_length. cbn [length].
  replace (length l' + 1 - 1)%nat with (length l') by lia. by rewrite take_app.
Qed.
Lemma pop_highest_none l : pop_highest l = None -> l = [].
Proof. unfold pop_highest. destruct (last l) eqn:E; [done|]. intros _. by apply last_None in E. Qed.
Lemma pop_highest_app l x : pop_highest (l ++ [x]) = Some (x, l).
Proof.
  unfold pop_highest. rewrite last_snoc, app_length. cbn [length].
  replace (length l + 1 - 1)%nat with (length l) by lia. by rewrite take_app.
Qed.

(** Delisting. *)
Definition delist (o : N) (d : nft_data) : nft_data :=
  d <| owner := o |> <| nstate ::= fun st => st <| is_listed := false |> |>.
Definition auc_done (i : N) (l : list (N * N)) (x : auc_st) : auc_st :=
  mkAucSt (delete i (auctions x)) (commissions x) (q_del i (deadlines x)) (claims_add l (claims x)).

Lemma create_ok who i mkt start e sp bi s r s' : create_auction who i mkt start e sp bi s = (Ok r, s') ->
  exists d m, nfts (s_nft s) !! i = Some d /\ owner d = who /\ unengaged d /\
    s_now s <= start /\ start < e /\ e - start <= max_auction_duration /\ min_auction_duration <= e - start /\
    start - s_now s <= max_auction_delay /\ (forall p, bi = Some p -> sp < p) /\
    mkts (s_mkt s) !! mkt = Some m /\ covers_flat (m_commission m) sp = true /\ nlen (deadlines (s_auc s)) < parallel_auctions /\
    s_bal s' = s_bal s /\
    s_nft s' = s_nft s <| nfts ::= <[i := put_listed true d]> |> /\
    s_auc s' = mkAucSt (<[i := mkAuction who start e sp bi [] mkt false]> (auctions (s_auc s)))
                 (<[i := m_commission m]> (commissions (s_auc s)))
                 (q_ins (i, e) (deadlines (s_auc s))) (claims (s_auc s)).
Proof.
  intros H. unfold create_auction in H. unfold unengaged.
  minv H; subst s'; st_cbn; repeat match goal with Hq : q_insert _ _ _ _ = Some _ |- _ => apply q_insert_some in Hq as [? ->] end.
  all: eexists _, _; split_and!; try eassumption; try done; intros ? ?; simplify_eq; assumption.
Qed.

Lemma cancel_ok who i s r s' : cancel_auction who i s = (Ok r, s') ->
  exists d a, nfts (s_nft s) !! i = Some d /\ auctions (s_auc s) !! i = Some a /\ a_creator a = who /\
    s_now s < a_start a /\ s_bal s' = s_bal s /\
    s_nft s' = s_nft s <| nfts ::= <[i := put_listed false d]> |> /\
    s_auc s' = auc_done i (a_bidders a) (s_auc s).
Proof.
  intros H. unfold cancel_auction in H. minv H. subst s'. st_cbn.
  eexists _, _. split_and!; try eassumption; done.
Qed.

Lemma end_ok who i s r s' : end_auction who i s = (Ok r, s') ->
  exists d a m f w x rest b', nfts (s_nft s) !! i = Some d /\ auctions (s_auc s) !! i = Some a /\ a_creator a = who /\
    a_extended a = true /\ a_bidders a = rest ++ [(w, x)] /\
    mkts (s_mkt s) !! a_mkt a = Some m /\ commissions (s_auc s) !! i = Some f /\
    paid_b auction_pot (m_owner m) (creator d) (a_creator a) (auc_com f x) (auc_roy f d x) (auc_rest f d x) false (s_bal s) b' /\
    s_bal s' = b' /\ s_nft s' = s_nft s <| nfts ::= <[i := delist w d]> |> /\
    s_auc s' = auc_done i rest (s_auc s).
Proof.
  intros H. unfold end_auction in H. do 7 mstep H.
  destruct x1 as [[w x1] rest]. apply pop_highest_some in U1. cbn [fst snd] in H.
  apply bind_ok in H as (cut&s2&HP&H). apply pay_ok in HP as (m&f&b'&Hm&Hf&->&Hp&->). rewrite N.eqb_refl in Hp.
  minv H. subst s'. st_cbn. exists x, x0, m, f, w, x1, rest, b'. split_and!; done.
Qed.

Lemma bid_ok who i amt s r s' : add_bid who i amt s = (Ok r, s') ->
  exists a b' l a' e, auctions (s_auc s) !! i = Some a /\ a_creator a <> who /\ a_start a <= s_now s /\ auction_ed < amt /\
    match last (a_bidders a) with Some hb => snd hb < amt | None => a_start_price a < amt end /\
    bidder_limit <> 0 /\ l = q_del who (a_bidders a) /\
    transfer_b who auction_pot (amt - default 0 (q_get who (a_bidders a))) true (s_bal s) = Ok b' /\
    extend_if_necessary (s_now s) (a <| a_bidders := snd (insert_new_bid who amt l) |>) = (a', e) /\
    s_bal s' = b' /\ s_nft s' = s_nft s /\
    s_auc s' = mkAucSt (<[i := a']> (auctions (s_auc s))) (commissions (s_auc s))
      (match e with Some e => q_update i e (deadlines (s_auc s)) | None => deadlines (s_auc s) end)
      (match fst (insert_new_bid who amt l) with Some x => claims_add [x] (claims (s_auc s)) | None => claims (s_auc s) end).
Proof.
  intros H. unfold add_bid in H. do 6 mstep H.
  apply bind_ok in H as ([]&s1&H1&H).
  assert (match last (a_bidders x) with Some hb => snd hb < amt | None => a_start_price x < amt end /\ s1 = s) as [Hl ->].
  { unfold highest_bid in H1. destruct (last (a_bidders x)); minv H1; done. }
  clear H1. apply bind_ok in H as ([]&s1&H1&H).
  assert (exists b', transfer_b who auction_pot (amt - default 0 (q_get who (a_bidders x))) true (s_bal s) = Ok b' /\ s1 = s <| s_bal := b' |>) as (b'&Hb&->).
  { rewrite find_bid_get in H1. destruct (q_get who (a_bidders x)); minv H1; subst; cbn; rewrite ?N.sub_0_r; eauto. }
  clear H1. rewrite del_bid_del in H.
  destruct (extend_if_necessary (s_now s) (x <| a_bidders := snd (insert_new_bid who amt (q_del who (a_bidders x))) |>)) as [a' e] eqn:Ee.
  exists x, b', (q_del who (a_bidders x)), a', e. cbv zeta in H. cbn [fst snd] in H.
  destruct (fst (insert_new_bid who amt (q_del who (a_bidders x)))) as [y|]; destruct e; cbn [on_some] in H; minv H; subst s'; st_cbn; split_and!; try done.
Qed.

Lemma unbid_ok who i s r s' : remove_bid who i s = (Ok r, s') ->
  exists a x b', auctions (s_auc s) !! i = Some a /\ ending_period < a_end a - s_now s /\
    q_get who (a_bidders a) = Some x /\ transfer_b auction_pot who x false (s_bal s) = Ok b' /\
    s_bal s' = b' /\ s_nft s' = s_nft s /\
    s_auc s' = mkAucSt (<[i := a <| a_bidders ::= q_del who |>]> (auctions (s_auc s))) (commissions (s_auc s))
      (deadlines (s_auc s)) (claims (s_auc s)).
Proof.
  intros H. unfold remove_bid in H. minv H. subst s'. st_cbn. rewrite find_bid_get in U0.
  eexists _, _, _. split_and!; try eassumption; try done.
  replace (x <| a_bidders ::= del_bid who |>) with (x <| a_bidders ::= q_del who |>); [done|].
  unfold set. cbn. by rewrite del_bid_del.
Qed.

Lemma buy_ok who i p s r s' : buy_it_now who i p s = (Ok r, s') ->
  exists d a m f b', nfts (s_nft s) !! i = Some d /\ auctions (s_auc s) !! i = Some a /\ a_buy_it a = Some p /\
    a_creator a <> who /\ a_start a <= s_now s /\
    match last (a_bidders a) with Some hb => snd hb < p | None => True end /\
    mkts (s_mkt s) !! a_mkt a = Some m /\ commissions (s_auc s) !! i = Some f /\
    paid_b who (m_owner m) (creator d) (a_creator a) (auc_com f p) (auc_roy f d p) (auc_rest f d p) (negb (who =? auction_pot)) (s_bal s) b' /\
    s_bal s' = b' /\ s_nft s' = s_nft s <| nfts ::= <[i := delist who d]> |> /\
    s_auc s' = auc_done i (a_bidders a) (s_auc s).
Proof.
  intros H. unfold buy_it_now in H. do 9 mstep H.
  apply bind_ok in H as ([]&s1&H1&H).
  assert (match last (a_bidders x0) with Some hb => snd hb < p | None => True end /\ s1 = s) as [Hl ->].
  { unfold highest_bid in H1. destruct (last (a_bidders x0)); minv H1; simplify_eq; done. }
  clear H1. apply bind_ok in H as (cut&s2&HP&H). apply pay_ok in HP as (m&f&b'&Hm&Hf&->&Hp&->).
  subst. minv H. subst s'. st_cbn. eexists _, _, m, f, b'. split_and!; try eassumption; done.
Qed.

Lemma claim_ok who s r s' : claim who s = (Ok r, s') ->
  exists x b', claims (s_auc s) !! who = Some x /\ transfer_b auction_pot who x false (s_bal s) = Ok b' /\
    s_bal s' = b' /\ s_nft s' = s_nft s /\
    s_auc s' = mkAucSt (auctions (s_auc s)) (commissions (s_auc s)) (deadlines (s_auc s)) (delete who (claims (s_auc s))).
Proof.
  intros H. unfold claim in H. minv H. subst s'. st_cbn. eexists _, _. split_and!; try eassumption; done.
Qed.

(** One round of the hook. *)
Lemma claim_all_bind l (k : unit -> M bool) s : bind (claim_all l) k s = k tt (s <| s_auc ::= fun x => x <| claims ::= claims_add l |> |>).
Proof. unfold bind. by rewrite claim_all_run. Qed.
Lemma settle_ok i s : exists r s', settle_one i s = (Ok r, s') /\
  ((r = false /\ s_auc s' = s_auc s /\ s_nft s' = s_nft s /\
      (auctions (s_auc s) !! i = None \/ nfts (s_nft s) !! i = None \/
       exists d a rest w x e, nfts (s_nft s) !! i = Some d /\ auctions (s_auc s) !! i = Some a /\ a_bidders a = rest ++ [(w, x)] /\
         pay_for_nft i auction_pot x d (a <| a_bidders := rest |>) s = (Err e, s'))) \/
   (r = true /\ exists d a rest, nfts (s_nft s) !! i = Some d /\ auctions (s_auc s) !! i = Some a /\
      s_auc s' = (s_auc s) <| auctions ::= delete i |> <| claims ::= claims_add rest |> /\
      ((a_bidders a = [] /\ rest = [] /\ s_bal s' = s_bal s /\
        s_nft s' = s_nft s <| nfts ::= <[i := put_listed false d]> |>) \/
       exists m f w x b', a_bidders a = rest ++ [(w, x)] /\
         mkts (s_mkt s) !! a_mkt a = Some m /\ commissions (s_auc s) !! i = Some f /\
         paid_b auction_pot (m_owner m) (creator d) (a_creator a) (auc_com f x) (auc_roy f d x) (auc_rest f d x) false (s_bal s) b' /\
         s_bal s' = b' /\ s_nft s' = s_nft s <| nfts ::= <[i := delist w d]> |>))).
Proof.
  unfold settle_one, get_auction, get_nft. unfold bind at 1, gets at 1.
  destruct (auctions (s_auc s) !! i) as [a|] eqn:Ha; [|eexists _, _; split; [done|]; left; auto].
  unfold bind at 1, gets at 1.
  destruct (nfts (s_nft s) !! i) as [d|] eqn:Hd; [|eexists _, _; split; [done|]; left; split_and!; auto].
  destruct (pop_highest (a_bidders a)) as [[[w x] rest]|] eqn:Hp.
  - apply pop_highest_some in Hp. unfold bind at 1, catch.
    destruct (pay_for_nft i auction_pot x d (a <| a_bidders := rest |>) s) as [[cut|e] s1] eqn:HP.
    + apply pay_ok in HP as (m&f&b'&Hm&Hf&->&HP&->). rewrite N.eqb_refl in HP.
      rewrite claim_all_bind. eexists _, _. split; [reflexivity|]. right. split; [done|].
      exists d, a, rest. split_and!; try done. right. exists m, f, w, x, b'. split_and!; done.
    + eexists _, _. split; [reflexivity|]. left. split; [done|].
      assert (Hk : s_auc s1 = s_auc s /\ s_nft s1 = s_nft s).
      { cut (pres (fun t => s_auc t = s_auc s /\ s_nft t = s_nft s) (pay_for_nft i auction_pot x d (a <| a_bidders := rest |>))).
        { intros H. unfold pres in H. specialize (H s (conj eq_refl eq_refl)). cbv beta in H. rewrite HP in H. exact H. }
        pres_go; st_cbn; assumption. }
      destruct Hk. split_and!; [done|done|]. right. right. exists d, a, rest, w, x, e. done.
  - apply pop_highest_none in Hp. eexists _, _. split; [reflexivity|]. right. split; [done|].
    exists d, a, []. split_and!; try done. left. done.
Qed.
End auccalls.

(** * The invariant *)
Section aucinv.
Context {C : Config}.

Definition blt (x y : N * N) : Prop := snd x < snd y.
(** A bid book. *)
Record bok (a : auction) : Prop := {
  b_sorted : StronglySorted blt (a_bidders a);
  b_uniq : NoDup ((a_bidders a).*1);
  b_each : forall w x, (w, x) ∈ a_bidders a ->
    a_start_price a < x /\ auction_ed < x <= u128_max /\ w <> a_creator a /\ w ∉ pots;
  b_len : nlen (a_bidders a) <= bidder_limit;
  b_time : a_start a < a_end a;
  b_creator : a_creator a ∉ pots;
  b_buy : forall p, a_buy_it a = Some p -> a_start_price a < p
}.

(** The storages of the pallet with deadline list [dl]. *)
Record aok (x : auc_st) (dl : list (N * N)) : Prop := {
  a_books : forall i a, auctions x !! i = Some a -> bok a;
  a_cover : forall i a f, auctions x !! i = Some a -> commissions x !! i = Some f -> covers_flat f (a_start_price a) = true;
  a_dl : qok dl;
  a_live : forall i b, (i, b) ∈ dl -> exists a, auctions x !! i = Some a /\ a_end a = b;
  a_dlen : nlen dl <= parallel_auctions;
  a_claims : forall w c, claims x !! w = Some c -> auction_ed < c <= u128_max /\ w ∉ pots
}.
Definition ainv (s : state) : Prop := aok (s_auc s) (deadlines (s_auc s)).

Lemma blt_elem x l : StronglySorted blt (x :: l) <-> StronglySorted blt l /\ forall y, y ∈ l -> snd x < snd y.
Proof.
  split.
  - intros H. apply StronglySorted_inv in H as [H1 H2]. split; [done|]. intros y Hy.
    rewrite Forall_forall in H2. by apply H2.
  - intros [H1 H2]. constructor; [done|]. apply Forall_forall. done.
Qed.
Lemma blt_sub l l' : sublist l' l -> StronglySorted blt l -> StronglySorted blt l'.
Proof.
  induction 1 as [|x l' l H IH|x l' l H IH]; [done| |].
  - intros [H1 H2]%blt_elem. apply blt_elem. split; [by apply IH|]. intros y Hy. apply H2.
    eapply sublist_submseteq, elem_of_submseteq in H; eauto.
  - intros [H1 H2]%blt_elem. by apply IH.
Qed.
Lemma fst_sub (l l' : list (N * N)) : sublist l' l -> NoDup (l.*1) -> NoDup (l'.*1).
Proof.
  intros H. apply nodup_sub. induction H; cbn; [constructor|by constructor|by constructor].
Qed.
Lemma blt_snoc l x : StronglySorted blt l -> (forall y, y ∈ l -> snd y < snd x) -> StronglySorted blt (l ++ [x]).
Proof.
  induction l as [|z l IH]; [by repeat constructor|]. intros [H1 H2]%blt_elem H. cbn. apply blt_elem. split.
  - apply IH; [done|]. intros y Hy. apply H. by right.
  - intros y [Hy| ->%elem_of_list_singleton]%elem_of_app; [by apply H2|]. apply H. by left.
Qed.
Lemma blt_last l x y : StronglySorted blt (l ++ [x]) -> y ∈ l -> snd y < snd x.
Proof.
  induction l as [|z l IH]; [intros _ ?%elem_of_nil; done|]. cbn. intros [H1 H2]%blt_elem [->|Hy]%elem_of_cons.
  - apply H2. apply elem_of_app. right. by left.
  - by apply IH.
Qed.
Lemma elem_sub {A} (x : A) l l' : sublist l' l -> x ∈ l' -> x ∈ l.
Proof. intros H Hx. by eapply elem_of_submseteq, sublist_submseteq. Qed.

(** The list after a bid. *)
Lemma insert_split who amt l : exists k, sublist k l /\ snd (insert_new_bid who amt l) = k ++ [(who, amt)] /\
  (match fst (insert_new_bid who amt l) with Some y => l = y :: k | None => k = l end \/ l = [] /\ bidder_limit = 0) /\
  (nlen l <= bidder_limit -> bidder_limit <> 0 -> nlen (snd (insert_new_bid who amt l)) <= bidder_limit).
Proof.
  unfold insert_new_bid. destruct (bidder_limit <=? nlen l) eqn:E.
  - apply N.leb_le in E. exists (tail l). cbn [fst snd]. split_and!; [|done| |].
    + destruct l; [done|]. by apply sublist_cons.
    + destruct l; [|by left]. right. split; [done|]. cbn in E. lia.
    + unfold nlen in *. intros H1 H2. destruct l; cbn [tail length] in *; rewrite ?app_length; cbn [length] in *; lia.
  - apply N.leb_gt in E. exists l. cbn [fst snd]. split_and!; [done|done|by left|].
    intros _ _. unfold nlen in *. rewrite app_length. cbn. lia.
Qed.

Lemma bok_bid a who amt : bok a -> a_creator a <> who -> who ∉ pots -> auction_ed < amt <= u128_max -> bidder_limit <> 0 ->
  match last (a_bidders a) with Some hb => snd hb < amt | None => a_start_price a < amt end ->
  bok (a <| a_bidders := snd (insert_new_bid who amt (q_del who (a_bidders a))) |>).
Proof.
  intros [B1 B2 B3 B4 B5 B6 B7] Hc Hw He Hb Hl.
  destruct (insert_split who amt (q_del who (a_bidders a))) as (k&Hk&Es&_&Hn).
  assert (Hka : sublist k (a_bidders a)). { etrans; [exact Hk|apply q_del_sub]. }
  assert (Ha : forall y, y ∈ a_bidders a -> snd y < amt).
  { intros y Hy. destruct (last (a_bidders a)) as [hb|] eqn:El.
    - apply last_Some in El as [l' El]. rewrite El in Hy, B1. apply elem_of_app in Hy as [Hy| ->%elem_of_list_singleton]; [|done].
      pose proof (blt_last _ _ _ B1 Hy). lia.
    - apply last_None in El. rewrite El in Hy. by apply elem_of_nil in Hy. }
  assert (Hs : a_start_price a < amt).
  { destruct (last (a_bidders a)) as [[w x]|] eqn:El; [|done]. apply last_Some in El as [l' El].
    assert (Hx : (w, x) ∈ a_bidders a). { rewrite El. apply elem_of_app. right. by left. }
    specialize (B3 _ _ Hx) as (?&_). cbn in Hl. lia. }
  split; st_cbn; cbn [a_bidders a_start_price a_creator a_start a_end a_buy_it]; try done.
  - rewrite Es. apply blt_snoc; [by eapply blt_sub|]. intros y Hy. apply Ha. by eapply elem_sub.
  - rewrite Es. rewrite fmap_app. cbn. apply NoDup_app. split_and!; [by eapply fst_sub| |apply NoDup_singleton].
    intros j Hj ->%elem_of_list_singleton. apply (q_del_fst who (a_bidders a)); [done|].
    apply q_fst_elem in Hj as [x Hx]. apply q_fst_elem. exists x. by eapply elem_sub.
  - intros w x Hx. rewrite Es in Hx. apply elem_of_app in Hx as [Hx|Hx%elem_of_list_singleton].
    + apply B3. by eapply elem_sub.
    + injection Hx as -> ->. destruct He. split_and!; auto.
  - apply Hn; [|done]. pose proof (q_del_length who (a_bidders a)). unfold nlen in *. lia.
Qed.
Lemma extend_fields now a a' e : extend_if_necessary now a = (a', e) ->
  a_creator a' = a_creator a /\ a_start a' = a_start a /\ a_start_price a' = a_start_price a /\
  a_buy_it a' = a_buy_it a /\ a_bidders a' = a_bidders a /\ a_mkt a' = a_mkt a /\ a_end a <= a_end a' /\
  match e with Some e => a_end a' = e /\ a_extended a' = true /\ a_end a - now < grace_period /\ e = a_end a + (grace_period - (a_end a - now))
  | None => a' = a /\ grace_period <= a_end a - now end.
Proof.
  unfold extend_if_necessary. destruct (_ <? _) eqn:E; intros [= <- <-]; [apply N.ltb_lt in E|apply N.ltb_ge in E].
  - cbn. split_and!; try done. lia.
  - split_and!; done.
Qed.
Lemma bok_extend now a a' e : extend_if_necessary now a = (a', e) -> bok a -> bok a'.
Proof.
  intros H [B1 B2 B3 B4 B5 B6 B7]. apply extend_fields in H as (E1&E2&E3&E4&E5&E6&E7&_).
  split; rewrite ?E1, ?E2, ?E3, ?E4, ?E5; try done. lia.
Qed.
Lemma bok_unbid a who : bok a -> bok (a <| a_bidders ::= q_del who |>).
Proof.
  intros [B1 B2 B3 B4 B5 B6 B7]. split; st_cbn; cbn [a_bidders a_start_price a_creator a_start a_end a_buy_it]; try done.
  - eapply blt_sub; [apply q_del_sub|done].
  - eapply fst_sub; [apply q_del_sub|done].
  - intros w x Hx. apply B3. eapply elem_sub; [apply q_del_sub|done].
  - pose proof (q_del_length who (a_bidders a)). unfold nlen in *. lia.
Qed.

(** Refunds. *)
Lemma claims_add_cons x l m : claims_add (x :: l) m = claims_add l (<[fst x := sadd (default 0 (m !! fst x)) (snd x)]> m).
Proof. done. Qed.
Lemma claims_add_lookup l m w : NoDup (l.*1) ->
  claims_add l m !! w = match q_get w l with Some x => Some (sadd (default 0 (m !! w)) x) | None => m !! w end.
Proof.
  revert m. induction l as [|[v x] l IH]; intros m; [done|]. cbn [fmap list_fmap fst]. intros [Hv Hn]%NoDup_cons.
  rewrite claims_add_cons, IH by done. cbn [fst snd q_get]. destruct (N.eqb_spec v w) as [->|Hne].
  - apply q_get_none in Hv. rewrite Hv. apply lookup_insert.
  - rewrite lookup_insert_ne by done. done.
Qed.
Lemma sadd_max a b : sadd a b <= u128_max.
Proof. unfold sadd. lia. Qed.
Lemma claims_add_ok l m :
  (forall w c, m !! w = Some c -> auction_ed < c <= u128_max /\ w ∉ pots) ->
  (forall w x, (w, x) ∈ l -> auction_ed < x <= u128_max /\ w ∉ pots) ->
  forall w c, claims_add l m !! w = Some c -> auction_ed < c <= u128_max /\ w ∉ pots.
Proof.
  revert m. induction l as [|[v x] l IH]; intros m Hm Hl; [done|]. rewrite claims_add_cons. apply IH.
  - intros w c. cbn [fst snd]. intros [[<- <-]|[_ H]]%lookup_insert_Some; [|by apply Hm].
    destruct (Hl v x) as [? ?]; [by left|]. split; [|done]. unfold sadd. lia.
  - intros w y Hy. apply (Hl w y). by right.
Qed.

(** An auction ends. *)
Lemma aok_remove x dl i l a com : aok x dl -> auctions x !! i = Some a -> sublist l (a_bidders a) ->
  forall dl', sublist dl' dl -> i ∉ dl'.*1 ->
  aok (mkAucSt (delete i (auctions x)) (commissions x) com (claims_add l (claims x))) dl'.
Proof.
  intros [H1 H2 H3 H4 H5 H6] Ha Hl dl' Hs Hi. split; cbn [auctions commissions deadlines claims].
  - intros j b Hb. apply lookup_delete_Some in Hb as [_ Hb]. eauto.
  - intros j b f Hb. apply lookup_delete_Some in Hb as [_ Hb]. eauto.
  - by eapply qok_sub.
  - intros j b Hb. destruct (H4 j b) as (a'&Ha'&E); [by eapply elem_sub|]. exists a'. split; [|done].
    rewrite lookup_delete_ne; [done|]. intros <-. apply Hi. apply q_fst_elem. eauto.
  - apply sublist_length in Hs. unfold nlen in *. lia.
  - apply claims_add_ok; [done|]. intros w v Hv. apply (elem_sub _ _ _ Hl) in Hv.
    by destruct (b_each _ (H1 i a Ha) w v Hv) as (_&?&_&?).
Qed.

Lemma ainv_call s o c s' : inv1 s -> ainv s -> action_ok (Extrinsic o c) -> wf_call c = true -> is_mandate c = false ->
  exec_call o c s = (Ok tt, s') -> ainv s'.
Proof.
  intros HI HA Ho Hw Hm He. pose proof (call_kept _ _ _ _ Hm He) as Hk. unfold kept in Hk. unfold ainv in *.
  destruct c; cbn [pallet_of] in Hk; try (destruct_and! Hk; match goal with E : s_auc s' = _ |- _ => rewrite E; exact HA end); try discriminate Hm.
  all: clear Hk Hm; cbn [exec_call] in He; unfold signed in He; destruct o as [who| |]; try done; cbn [action_ok] in Ho.
  - apply create_ok in He as (d&m&Hd&Hw'&Hu&T1&T2&_&_&_&Hp&Hmk&Hcv&Hl&_&_&E). rewrite E. cbn [deadlines].
    assert (Ha : auctions (s_auc s) !! id = None).
    { pose proof (i_view s HI id) as V. unfold view_ok in V. rewrite Hd in V. apply v_listed in V.
      destruct Hu as (Hu&_). rewrite Hu in V. symmetry in V. apply orb_false_iff in V as [_ V]. by apply isS_false. }
    destruct HA as [H1 H2 H3 H4 H5 H6].
    assert (Hni : id ∉ (deadlines (s_auc s)).*1).
    { intros [b Hb]%q_fst_elem. destruct (H4 _ _ Hb) as (a&Ha'&_). congruence. }
    split; cbn [auctions commissions claims].
    + intros j b [[<- <-]|[_ Hb]]%lookup_insert_Some; [|eauto]. split; cbn; try done.
      * constructor.
      * constructor.
      * by intros w x ?%elem_of_nil.
      * lia.
    + intros j b f [[<- <-]|[Hne Hb]]%lookup_insert_Some.
      * rewrite lookup_insert. intros [= <-]. done.
      * rewrite lookup_insert_ne by done. eauto.
    + by apply q_ins_ok.
    + intros j b [[= -> ->]|Hj]%q_ins_elem; [eexists; rewrite lookup_insert; done|].
      destruct (H4 _ _ Hj) as (a&Ha'&E'). exists a. rewrite lookup_insert_ne; [done|]. congruence.
    + unfold nlen in *. rewrite q_ins_length. lia.
    + done.
  - apply cancel_ok in He as (d&a&_&Ha&_&_&_&_&E). rewrite E. unfold auc_done. cbn [deadlines].
    eapply aok_remove; eauto; [apply q_del_sub|apply q_del_fst, HA].
  - apply end_ok in He as (d&a&m&f&w&x&rest&b'&_&Ha&_&_&Hb&_&_&_&_&_&E). rewrite E. unfold auc_done. cbn [deadlines].
    eapply aok_remove; eauto; [|apply q_del_sub|apply q_del_fst, HA]. rewrite Hb. by apply sublist_inserts_r.
  - apply bid_ok in He as (a&b'&l&a'&e&Ha&Hc&Hst&Hed&Hl&Hbl&->&_&Hx&_&_&E). rewrite E. clear E. cbn [deadlines].
    destruct HA as [H1 H2 H3 H4 H5 H6].
    assert (Ba : bok (a <| a_bidders := snd (insert_new_bid who amount (q_del who (a_bidders a))) |>)).
    { cbn [wf_call] in Hw. apply andb_true_iff in Hw as [_ Hw%N.leb_le]. apply bok_bid; eauto. }
    pose proof (bok_extend _ _ _ _ Hx Ba) as Ba'. apply extend_fields in Hx as (E1&E2&E3&E4&E5&E6&E7&Ex).
    split; cbn [auctions commissions claims].
    + intros j b [[<- <-]|[_ Hb]]%lookup_insert_Some; [done|eauto].
    + intros j b f [[<- <-]|[_ Hb]]%lookup_insert_Some; [|eauto]. rewrite E3. cbn. eauto.
    + destruct e; [by apply q_update_ok|done].
    + assert (Hold : forall j b, (j, b) ∈ deadlines (s_auc s) -> j <> id ->
        exists a0, <[id := a']> (auctions (s_auc s)) !! j = Some a0 /\ a_end a0 = b).
      { intros j b Hj Hne. destruct (H4 _ _ Hj) as (a0&Ha0&Ee). exists a0. by rewrite lookup_insert_ne. }
      destruct e as [e|].
      * intros j b Hj. destruct (decide (id ∈ (deadlines (s_auc s)).*1)) as [Hin|Hin].
        -- apply q_update_elem in Hj as [[= -> ->]|[Hj Hne]]; [|by apply Hold|apply H3|done].
           exists a'. rewrite lookup_insert. split; [done|]. tauto.
        -- rewrite q_update_notin in Hj by done. apply Hold; [done|]. intros ->. apply Hin, q_fst_elem. eauto.
      * intros j b Hj. destruct (decide (j = id)) as [->|Hne]; [|by apply Hold].
        exists a'. rewrite lookup_insert. split; [done|]. destruct (H4 _ _ Hj) as (a0&Ha0&Ee).
        destruct Ex as [-> _]. cbn. congruence.
    + destruct e; [|done]. unfold nlen in *. by rewrite q_update_length.
    + destruct (insert_split who amount (q_del who (a_bidders a))) as (k&Hk&Es&Hf&_).
      destruct (fst (insert_new_bid who amount (q_del who (a_bidders a)))) as [[w x]|] eqn:Ef; [|done].
      apply claims_add_ok; [done|]. intros v y [= -> ->]%elem_of_list_singleton.
      destruct Hf as [Hf|[_ ?]]; [|done].
      assert (Hin : (w, x) ∈ a_bidders a). { eapply elem_sub; [apply (q_del_sub who)|]. rewrite Hf. by left. }
      by destruct (b_each _ (H1 _ _ Ha) _ _ Hin) as (_&?&_&?).
  - apply unbid_ok in He as (a&x&b'&Ha&_&_&_&_&_&E). rewrite E. cbn [deadlines].
    destruct HA as [H1 H2 H3 H4 H5 H6]. split; cbn [auctions commissions claims]; try done.
    + intros j b [[<- <-]|[_ Hb]]%lookup_insert_Some; [|eauto]. apply bok_unbid. eauto.
    + intros j b f [[<- <-]|[_ Hb]]%lookup_insert_Some; [|eauto]. cbn. eauto.
    + intros j b Hj. destruct (H4 _ _ Hj) as (a0&Ha0&Ee). destruct (decide (j = id)) as [->|Hne].
      * eexists. rewrite lookup_insert. split; [done|]. cbn. congruence.
      * exists a0. by rewrite lookup_insert_ne.
  - apply buy_ok in He as (d&a&m&f&b'&_&Ha&_&_&_&_&_&_&_&_&_&E). rewrite E. unfold auc_done. cbn [deadlines].
    eapply aok_remove; eauto; [apply q_del_sub|apply q_del_fst, HA].
  - apply claim_ok in He as (x&b'&_&_&_&_&E). rewrite E. cbn [deadlines].
    destruct HA as [H1 H2 H3 H4 H5 H6]. split; cbn [auctions commissions claims]; try done.
    intros w c [_ Hc]%lookup_delete_Some. eauto.
Qed.

(** The hook. *)
Lemma aok_settle i b dl s : aok (s_auc s) ((i, b) :: dl) -> aok (s_auc (snd (settle_one i s))) dl.
Proof.
  intros HA. assert (Hi : i ∉ dl.*1). { destruct (a_dl _ _ HA) as [_ Hn]. cbn in Hn. by apply NoDup_cons in Hn as [? _]. }
  destruct (settle_ok i s) as (r&s'&->&[(_&E&_)|(_&d&a&rest&_&Ha&E&H)]); cbn [snd]; rewrite E.
  - destruct HA as [H1 H2 H3 H4 H5 H6]. split; try done.
    + eapply qok_sub; [|exact H3]. by apply sublist_cons.
    + intros j c Hj. apply H4. by right.
    + unfold nlen in *. cbn [length] in H5. lia.
  - eapply (aok_remove _ _ i rest a (deadlines (s_auc s))) in HA; [exact HA|done| |by apply sublist_cons|done].
    destruct H as [(->&->&_)|(m&f&w&x&b'&->&_)]; [done|]. by apply sublist_inserts_r.
Qed.
Lemma aok_loop fuel : forall now dl acts s, aok (s_auc s) dl ->
  exists dl', fst (auction_loop fuel now dl acts s) = Ok dl' /\ aok (s_auc (snd (auction_loop fuel now dl acts s))) dl'.
Proof.
  induction fuel as [|f IH]; intros now dl acts s HA; [by exists dl|]. cbn [auction_loop].
  destruct (q_pop now dl) as [[i dl']|] eqn:Ep; [|by exists dl].
  apply q_pop_some in Ep as (b&->&_). apply aok_settle in HA. unfold bind.
  destruct (settle_ok i s) as (r&s'&E&_). rewrite E in *. cbn [snd] in HA.
  destruct (_ && _); [by exists dl'|]. by apply IH.
Qed.
Lemma ainv_auction_hook s : ainv s -> ainv (snd (auction_on_initialize s)).
Proof.
  intros HA. unfold auction_on_initialize, bind, gets, mod_auc, modify.
  destruct (aok_loop (length (deadlines (s_auc s))) (s_now s) (deadlines (s_auc s)) 0 s HA) as (dl'&E1&H).
  destruct (auction_loop _ _ _ _ s) as [[dl2|] s2]; [|done]. cbn in *. injection E1 as ->. destruct H; split; done.
Qed.
Lemma ainv_hook s h : ainv s -> ainv (snd (run_hook h s)).
Proof.
  intros HA. pose proof (hook_kept h s) as Hk. unfold kept in Hk. unfold ainv in *.
  destruct h; cbn [hook_pallet] in Hk; try (destruct_and! Hk; match goal with E : s_auc _ = s_auc _ |- _ => rewrite E; exact HA end).
  by apply ainv_auction_hook.
Qed.

Lemma sreach_ainv s : sreach s -> ainv s.
Proof.
  intros H. induction H as [s Hs|s o c s' Hs IH Ha Hw Hm He|s ev Hs IH|s Hs IH|s h Hs IH|s e s' Hs IH Ha He].
  - destruct Hs as (now&era&bal&lk&->&_). split; cbn.
    + intros k x Hx; by apply lookup_empty_Some in Hx.
    + intros k x f Hx; by apply lookup_empty_Some in Hx.
    + split; constructor.
    + by intros i b ?%elem_of_nil.
    + lia.
    + intros k x Hx; by apply lookup_empty_Some in Hx.
  - eapply (ainv_call s); eauto using sreach_inv1.
  - exact IH.
  - exact IH.
  - by apply ainv_hook.
  - apply env_kept in He. unfold env_kept_from in He. destruct He as (_&En&Em&Ea&_). unfold ainv. by rewrite Ea.
Qed.
Lemma reachable_ainv s : reachable s -> ainv s.
Proof. intros H. apply sreach_ainv, reachable_sreach, H. Qed.
End aucinv.
