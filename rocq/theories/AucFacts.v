(** The lemmas behind the auction properties. *)
From Verif Require Export SpecAuction AucHook.
Local Open Scope N_scope.

Section aucfacts.
Context {C : Config}.

Lemma next_block_ind (P : state -> Prop) s : P (s <| s_now ::= fun n => n + 1 |>) ->
  (forall h t, P t -> P (snd (run_hook h t))) -> P (next_block s).
Proof.
  intros H0 H. unfold next_block, run_hooks. set (t := s <| s_now ::= fun n => n + 1 |>) in *. clearbody t. revert t H0.
  generalize hook_order. intros l. induction l as [|h l IH]; intros t Ht; [done|]. cbn [fold_left]. apply IH. by apply H.
Qed.

(** ** Balances *)
Lemma transfer_exact from to amt keep b b' a : a <> from \/ keep = true \/ ed <= 1 ->
  transfer_b from to amt keep b = Ok b' -> free b' a + at_acc from a amt = free b a + at_acc to a amt.
Proof.
  intros Hk H. destruct (decide (a = from)) as [->|Hne].
  - destruct keep; [by eapply transfer_free; [|left]|]. destruct Hk as [Hk|[Hk|Hk]]; [done|done|].
    pose proof (pays_exact _ _ _ _ _ Hk H) as Hx. unfold at_acc at 1. rewrite decide_True by done. exact Hx.
  - rewrite (transfer_free_other _ _ _ _ _ _ _ H Hne). unfold at_acc at 2. rewrite (decide_False (P := a = from)) by done. lia.
Qed.
Lemma paid_exact from mo cr se com roy rest keep s b' a : a <> from \/ keep = true \/ ed <= 1 ->
  paid_b from mo cr se com roy rest keep (s_bal s) b' ->
  free b' a + at_acc from a (com + roy + rest) = free (s_bal s) a + at_acc mo a com + at_acc cr a roy + at_acc se a rest.
Proof.
  intros Hk (b1&b2&T1&T2&T3).
  pose proof (transfer_exact _ _ _ _ _ _ a Hk T1). pose proof (transfer_exact _ _ _ _ _ _ a Hk T2).
  pose proof (transfer_exact _ _ _ _ _ _ a Hk T3). unfold at_acc in *. destruct (decide (a = from)); lia.
Qed.

Lemma transfer_le from to amt keep b b' : transfer_b from to amt keep b = Ok b' -> free b' from + amt <= free b from + at_acc to from amt.
Proof.
  intros H. unfold transfer_b in H. unfold at_acc. destruct ((amt =? 0) || (from =? to)) eqn:E0.
  { injection H as <-. apply orb_true_iff in E0 as [->%N.eqb_eq| ->%N.eqb_eq]; [destruct (decide _); lia|]. rewrite decide_True by done. lia. }
  apply orb_false_iff in E0 as [E0%N.eqb_neq Ene%N.eqb_neq].
  destruct (free b from <? amt) eqn:E1; [done|]. apply N.ltb_ge in E1.
  destruct (free b from <? amt + frozen b from); [done|].
  destruct (free b from <? amt + untouchable b from keep) eqn:E2; [done|].
  destruct (free b to + amt <? ed); [done|]. destruct (u128_max <? free b to + amt); [done|].
  injection H as <-. rewrite decide_False by done. rewrite !free_set_free. rewrite (decide_False (P := from = to)) by done. rewrite decide_True by done. destruct (_ <? ed); lia.
Qed.
Lemma paid_le from mo cr se com roy rest keep s b' : paid_b from mo cr se com roy rest keep (s_bal s) b' ->
  free b' from + (com + roy + rest) <= free (s_bal s) from + at_acc mo from com + at_acc cr from roy + at_acc se from rest.
Proof.
  intros (b1&b2&T1&T2&T3). apply transfer_le in T1, T2, T3. lia.
Qed.

(** ** Refunds *)
Lemma claims_refunded l s s' : NoDup (l.*1) -> claims (s_auc s') = claims_add l (claims (s_auc s)) -> refunded l s s'.
Proof.
  intros Hn E. split.
  - intros w x Hx. unfold refund. rewrite E, (claims_add_lookup _ _ _ Hn), (proj2 (q_get_elem w x l Hn) Hx).
    cbn [default from_option id]. unfold sadd. change (from_option id 0 (claims (s_auc s) !! w)) with (default 0 (claims (s_auc s) !! w)). lia.
  - intros w Hw. unfold refund. rewrite E, (claims_add_lookup _ _ _ Hn).
    destruct (q_get w l) as [x|] eqn:Eg; [|done]. apply (q_get_elem w x l Hn) in Eg. by destruct (Hw x).
Qed.
Lemma claims_add_ge l m w : NoDup (l.*1) -> (forall c, m !! w = Some c -> c <= u128_max) ->
  default 0 (m !! w) <= default 0 (claims_add l m !! w).
Proof.
  intros Hn Hm. rewrite (claims_add_lookup _ _ _ Hn). destruct (q_get w l) as [x|]; [|lia].
  change (default 0 (Some (sadd (default 0 (m !! w)) x))) with (sadd (default 0 (m !! w)) x). unfold sadd.
  assert (default 0 (m !! w) <= u128_max). { destruct (m !! w) eqn:E; cbn; [by apply Hm|lia]. } lia.
Qed.

Lemma tot_spec l : tot l = sum_of (map snd l).
Proof. induction l as [|x l IH]; [done|]. rewrite tot_cons, IH. done. Qed.
Lemma pot_covers_solv s : pot_covers s <-> solv s.
Proof.
  reflexivity.
Qed.

Lemma done_closed s s' i l : ainv s -> s_auc s' = auc_done i l (s_auc s) -> closed s s' i.
Proof.
  intros HA E. unfold closed. rewrite E. split; [done|]. intros j b. cbn [auc_done deadlines].
  rewrite q_del_elem by apply (a_dl _ _ HA). done.
Qed.

(** ** C20 *)
Lemma fact_book s i a : reachable s -> auctions (s_auc s) !! i = Some a ->
  StronglySorted (fun x y => snd x < snd y) (a_bidders a) /\ NoDup (map fst (a_bidders a)) /\
  (forall w x, (w, x) ∈ a_bidders a -> a_start_price a < x /\ w <> a_creator a) /\
  nlen (a_bidders a) <= bidder_limit.
Proof.
  intros Hs Ha. destruct (a_books _ _ (reachable_ainv s Hs) i a Ha) as [H1 H2 H3 H4 _ _ _]. split_and!; [done|done| |done].
  intros w x Hx. destruct (H3 w x Hx) as (?&_&?&_). done.
Qed.
Lemma blt_head_last l hb : StronglySorted blt l -> last l = Some hb -> forall y, y ∈ l -> snd y <= snd hb.
Proof.
  intros Hl Hb y Hy. apply last_Some in Hb as [l' ->]. apply elem_of_app in Hy as [Hy| ->%elem_of_list_singleton]; [|lia].
  pose proof (blt_last _ _ _ Hl Hy). lia.
Qed.
Lemma fact_bid_book s who i amt s' : reachable s -> dispatch (Signed who) (C_add_bid i amt) s = (Ok tt, s') ->
  exists a a', auctions (s_auc s) !! i = Some a /\ auctions (s_auc s') = <[i := a']> (auctions (s_auc s)) /\
    who <> a_creator a /\ a_start_price a < amt /\ (forall w x, (w, x) ∈ a_bidders a -> x < amt) /\
    last (a_bidders a') = Some (who, amt).
Proof.
  intros Hs H. apply dispatch_ok in H as [_ H]. cbn [exec_call signed] in H.
  apply bid_ok in H as (a&b'&l&a'&e&Ha&Hc&_&_&Hl&_&El&_&Ee&_&_&E).
  pose proof (a_books _ _ (reachable_ainv s Hs) i a Ha) as B. destruct (extend_fields _ _ _ _ Ee) as (_&_&_&_&Eb&_).
  exists a, a'. rewrite E. split_and!; [done|done|by apply not_eq_sym| | |].
  - destruct (last (a_bidders a)) as [hb|] eqn:Elast; [|done]. apply last_Some in Elast as [l' El'].
    destruct hb as [w x]. destruct (b_each _ B w x) as [? _]; [rewrite El'; apply elem_of_app; right; by left|]. cbn in Hl. lia.
  - intros w x Hx. destruct (last (a_bidders a)) as [hb|] eqn:Elast.
    + pose proof (blt_head_last _ _ (b_sorted _ B) Elast _ Hx) as Hle. cbn in Hle. lia.
    + apply last_None in Elast. rewrite Elast in Hx. by apply elem_of_nil in Hx.
  - rewrite Eb. destruct (insert_split who amt l) as (k&_&Ek&_). change (a_bidders (a <| a_bidders := snd (insert_new_bid who amt l) |>)) with (snd (insert_new_bid who amt l)). rewrite Ek. apply last_snoc.
Qed.

(** ** C21 *)
Lemma step_small (P : state -> Prop) s a : a <> NextBlock -> action_ok a -> sreach s -> P s ->
  (forall t o c t', sreach t -> P t -> action_ok (Extrinsic o c) -> wf_call c = true -> is_mandate c = false -> exec_call o c t = (Ok tt, t') -> P t') ->
  (forall t ev, P t -> P (t <| s_events ::= cons ev |>)) ->
  (forall t e t', sreach t -> P t -> action_ok (Env e) -> run_env e t = (Ok tt, t') -> P t') ->
  P (step s a).
Proof.
  intros Hb Ha Hs HP Hc Hv He. destruct a as [o c| |e]; cbn [step]; [|done|].
  - destruct (dispatch_cases o c s) as [(s'&Hw&Hx&->)|[e ->]]; [|done]. cbn [snd]. clear Hb. revert o s s' Ha Hs HP Hw Hx.
    induction c; intros oo s s' Ha Hs HP Hw Hx; try (by eapply (Hc s oo); [exact Hs|exact HP|exact Ha|exact Hw|done|exact Hx]).
    cbn [exec_call] in Hx. unfold external in Hx. destruct (external_ok oo); [|done].
    apply bind_catch in Hx as (r & s1 & He1 & He2). apply modify_ok in He2. subst s'. apply Hv.
    destruct (transactional_cases (exec_call Root c) s) as [(s2&Hok&Ht)|(e&s2&_&Ht)]; rewrite Ht in He1; injection He1 as <- <-; [|done].
    by apply (IHc Root s s2).
  - destruct (transactional_cases (run_env e) s) as [(s2&Hok&->)|(x&s2&_&->)]; [|done]. by eapply He.
Qed.
Lemma fact_covers s : config_ok -> ed <= 1 -> reachable s -> pot_covers s.
Proof. intros HC He Hs. apply pot_covers_solv. by apply sreach_solv; [| |apply reachable_sreach]. Qed.
Lemma fact_covers_step s a : config_ok -> reachable s -> pot_covers s -> action_ok a -> a <> NextBlock -> pot_covers (step s a).
Proof.
  intros HC Hs%reachable_sreach HP Ha Hb. apply pot_covers_solv in HP. apply pot_covers_solv.
  apply (step_small solv s a); try done.
  - intros t o c t' Ht HPt Ho Hw Hm He. eapply (solv_call t o c); eauto using sreach_inv1, sreach_pinv, sreach_binv, sreach_ainv.
  - intros t e t' Ht HPt He Hr. by eapply solv_env.
Qed.

(** ** C22 *)
Lemma auc_com_share f x : fee_share f x (auc_com f x).
Proof. destruct f; [apply fee_amount_share|done]. Qed.
Lemma auc_division s i a d f x : reachable s -> nfts (s_nft s) !! i = Some d -> auctions (s_auc s) !! i = Some a ->
  commissions (s_auc s) !! i = Some f -> a_start_price a <= x ->
  division f d x (auc_com f x) (auc_roy f d x) (auc_rest f d x).
Proof.
  intros Hs Hd Ha Hf Hx. unfold division. split; [apply auc_com_share|]. split; [apply permill_mul_share|].
  destruct (shares_sum s i a d f x (reachable_pinv s Hs) (or_introl (reachable_ainv s Hs)) Hd Ha Hf Hx) as (_&_&?). done.
Qed.
Lemma nodup_prefix (l : list (N * N)) x : NoDup ((l ++ [x]).*1) -> NoDup (l.*1).
Proof. rewrite fmap_app. by intros [? _]%NoDup_app. Qed.

Lemma pot_le s i a d f m x b' : reachable s -> nfts (s_nft s) !! i = Some d -> auctions (s_auc s) !! i = Some a ->
  commissions (s_auc s) !! i = Some f -> a_start_price a < x ->
  paid_b auction_pot (m_owner m) (creator d) (a_creator a) (auc_com f x) (auc_roy f d x) (auc_rest f d x) false (s_bal s) b' ->
  free b' auction_pot + x <= free (s_bal s) auction_pot + at_acc (m_owner m) auction_pot (auc_com f x) + at_acc (creator d) auction_pot (auc_roy f d x).
Proof.
  intros Hs Hd Ha Hf Hx Hp. apply paid_le in Hp. destruct (auc_division s i a d f x Hs Hd Ha Hf ltac:(lia)) as (_&_&Hsum).
  pose proof (b_creator _ (a_books _ _ (reachable_ainv s Hs) i a Ha)) as Hc.
  assert (at_acc (a_creator a) auction_pot (auc_rest f d x) = 0) as E0; [|rewrite E0 in Hp; lia].
  unfold at_acc. rewrite decide_False; [done|]. intros E. apply Hc. rewrite <- E. unfold pots. left.
Qed.
Lemma fact_end s who i s' : reachable s -> dispatch (Signed who) (C_end_auction i) s = (Ok tt, s') ->
  exists d a m f w b rest com roy r,
    nfts (s_nft s) !! i = Some d /\ auctions (s_auc s) !! i = Some a /\ mkts (s_mkt s) !! a_mkt a = Some m /\
    commissions (s_auc s) !! i = Some f /\ a_bidders a = rest ++ [(w, b)] /\ (forall v y, (v, y) ∈ rest -> y < b) /\
    division f d b com roy r /\
    (forall k, k <> auction_pot \/ ed <= 1 -> pays3 s s' auction_pot (m_owner m) com (creator d) roy (a_creator a) r k) /\
    free (s_bal s') auction_pot + b <= free (s_bal s) auction_pot + at_acc (m_owner m) auction_pot com + at_acc (creator d) auction_pot roy /\
    handed_over s s' i w /\ closed s s' i /\ refunded rest s s'.
Proof.
  intros Hs H. apply dispatch_ok in H as [_ H]. cbn [exec_call signed] in H.
  apply end_ok in H as (d&a&m&f&w&x&rest&b'&Hd&Ha&_&_&Hb&Hm&Hf&Hp&Eb&En&Ea).
  pose proof (reachable_ainv s Hs) as HA. pose proof (a_books _ _ HA i a Ha) as B.
  assert (Hx : a_start_price a < x). { apply (b_each _ B w x). rewrite Hb. apply elem_of_app. right. by left. }
  eexists d, a, m, f, w, x, rest, _, _, _. split_and!; try eassumption.
  - intros v y Hy. apply (blt_last rest (w, x) (v, y)); [|done]. rewrite <- Hb. apply B.
  - eapply auc_division; try eassumption. lia.
  - intros k Hk. unfold pays3. rewrite Eb. eapply paid_exact; [|exact Hp]. destruct Hk; auto.
  - rewrite Eb. eapply pot_le; eauto.
  - exists d. split; [done|]. by rewrite En.
  - by eapply done_closed.
  - apply claims_refunded; [|by rewrite Ea]. apply (nodup_prefix _ (w, x)). rewrite <- Hb. apply B.
Qed.

(** With no dust possible refunds never saturate. *)
Lemma msum_ge m w : default 0 (m !! w) <= msum m.
Proof. rewrite (msum_lookup m w). change (from_option id 0 (m !! w)) with (default 0 (m !! w)). lia. Qed.
Lemma msum_fmap_ge {A} (g : A -> N) (m : gmap N A) i a : m !! i = Some a -> g a <= msum (g <$> m).
Proof. intros H. rewrite (msumf_delete g m i a H). lia. Qed.
Lemma fact_no_saturation s i a v y : config_ok -> ed <= 1 -> reachable s -> auctions (s_auc s) !! i = Some a -> (v, y) ∈ a_bidders a ->
  refund s v + y <= u128_max.
Proof.
  intros HC He Hs Ha Hy. destruct (sreach_solv s He HC (reachable_sreach s Hs)) as [HS _]. unfold solv, escrow, stakes in HS.
  pose proof (msum_ge (claims (s_auc s)) v). pose proof (msum_fmap_ge (fun a => tot (a_bidders a)) _ _ _ Ha) as H1. cbv beta in H1.
  pose proof (tot_elem _ _ _ Hy). pose proof (reachable_binv s Hs) as Hb. unfold binv in Hb.
  assert (free (s_bal s) auction_pot <= u128_max) by (pose proof (bsum_max _ _ auction_pot Hb); lia).
  unfold refund. lia.
Qed.

(** The hook settles like [end_auction]. *)
Lemma fact_settle s i s' : reachable s -> settle_one i s = (Ok true, s') ->
  exists d a, nfts (s_nft s) !! i = Some d /\ auctions (s_auc s) !! i = Some a /\ auctions (s_auc s') = delete i (auctions (s_auc s)) /\
  ((a_bidders a = [] /\ handed_over s s' i (owner d) /\ s_bal s' = s_bal s /\ claims (s_auc s') = claims (s_auc s)) \/
   exists m f w b rest com roy r, mkts (s_mkt s) !! a_mkt a = Some m /\
    commissions (s_auc s) !! i = Some f /\ a_bidders a = rest ++ [(w, b)] /\ (forall v y, (v, y) ∈ rest -> y < b) /\
    division f d b com roy r /\
    (forall k, k <> auction_pot \/ ed <= 1 -> pays3 s s' auction_pot (m_owner m) com (creator d) roy (a_creator a) r k) /\
    free (s_bal s') auction_pot + b <= free (s_bal s) auction_pot + at_acc (m_owner m) auction_pot com + at_acc (creator d) auction_pot roy /\
    handed_over s s' i w /\ refunded rest s s').
Proof.
  intros Hs H. destruct (settle_ok i s) as (r0&s0&E&Hc). rewrite H in E. injection E as <- <-.
  destruct Hc as [[? _]|(_&d&a&rest&Hd&Ha&Ea&Hc)]; [done|]. exists d, a. rewrite Ea. split_and!; [done|done|done|].
  pose proof (reachable_ainv s Hs) as HA. pose proof (a_books _ _ HA i a Ha) as B.
  destruct Hc as [(Hb&->&Eb&En)|(m&f&w&x&b'&Hb&Hm&Hf&Hp&Eb&En)]; [left|right].
  - split_and!; [done| |done|done]. exists d. split; [done|]. rewrite En. cbn. by destruct d.
  - assert (Hx : a_start_price a < x). { apply (b_each _ B w x). rewrite Hb. apply elem_of_app. right. by left. }
    eexists m, f, w, x, rest, _, _, _. split_and!; try eassumption.
    + intros v y Hy. apply (blt_last rest (w, x) (v, y)); [|done]. rewrite <- Hb. apply B.
    + eapply auc_division; try eassumption. lia.
    + intros k Hk. unfold pays3. rewrite Eb. eapply paid_exact; [|exact Hp]. destruct Hk; auto.
    + rewrite Eb. eapply pot_le; eauto.
    + exists d. split; [done|]. by rewrite En.
    + apply claims_refunded; [|by rewrite Ea]. apply (nodup_prefix _ (w, x)). rewrite <- Hb. apply B.
Qed.

(** The commission agreed at creation stays the agreed one. *)
Lemma fact_create s who i k st e sp bi s' : reachable s -> dispatch (Signed who) (C_create_auction i k st e sp bi) s = (Ok tt, s') ->
  exists m, mkts (s_mkt s) !! k = Some m /\ commissions (s_auc s') !! i = Some (m_commission m) /\
    auctions (s_auc s') !! i = Some (mkAuction who st e sp bi [] k false) /\ auctions (s_auc s) !! i = None /\
    claims (s_auc s') = claims (s_auc s) /\ s_bal s' = s_bal s /\
    (forall j b, (j, b) ∈ deadlines (s_auc s') <-> (j, b) ∈ deadlines (s_auc s) \/ j = i /\ b = e).
Proof.
  intros Hs H. apply dispatch_ok in H as [_ H]. cbn [exec_call signed] in H.
  apply create_ok in H as (d&m&Hd&_&Hu&_&_&_&_&_&_&Hm&_&_&Eb&_&E). exists m. rewrite E. cbn. rewrite !lookup_insert. split_and!; try done.
  - pose proof (i_view s (reachable_inv1 s Hs) i) as V. unfold view_ok in V. rewrite Hd in V. destruct Hu as (Hu&_).
    apply v_listed in V. rewrite Hu in V. destruct (auctions (s_auc s) !! i); [|done]. by rewrite orb_comm in V.
  - intros j b. rewrite q_ins_perm, elem_of_cons. split; [intros [[= -> ->]|?]; auto|]. intros [?|[-> ->]]; auto.
Qed.
Lemma hook_auctions h s i : auctions (s_auc (snd (run_hook h s))) !! i = None \/ auctions (s_auc (snd (run_hook h s))) !! i = auctions (s_auc s) !! i.
Proof.
  destruct h.
  2-4: rewrite hook_auc_kept by done; by right.
  cut (pres (fun t => auctions (s_auc t) !! i = None \/ auctions (s_auc t) !! i = auctions (s_auc s) !! i) (run_hook HookAuction)).
  { intros H. apply H. by right. }
  cbn [run_hook]. apply pres_auction_hook; [|intros; st_cbn; assumption]. intros id. unfold settle_one, finish_auction, del_auction. pres_go; st_cbn; try assumption.
  all: match goal with H : _ \/ _ |- _ => destruct (decide (id = i)) as [->|Hne]; [left; apply lookup_delete|rewrite lookup_delete_ne by done; exact H] end.
Qed.
Lemma fact_terms_kept s a i x x' : reachable s -> action_ok a -> auctions (s_auc s) !! i = Some x -> auctions (s_auc (step s a)) !! i = Some x' ->
  commissions (s_auc (step s a)) !! i = commissions (s_auc s) !! i /\ a_mkt x' = a_mkt x /\ a_creator x' = a_creator x /\
  a_start x' = a_start x /\ a_start_price x' = a_start_price x /\ a_buy_it x' = a_buy_it x /\ a_end x <= a_end x'.
Proof.
  intros Hs Ha Hx. revert x'.
  set (Rr := fun t : state => forall x', auctions (s_auc t) !! i = Some x' -> commissions (s_auc t) !! i = commissions (s_auc s) !! i /\
    a_mkt x' = a_mkt x /\ a_creator x' = a_creator x /\
    a_start x' = a_start x /\ a_start_price x' = a_start_price x /\ a_buy_it x' = a_buy_it x /\ a_end x <= a_end x').
  change (Rr (step s a)).
  assert (R0 : Rr s). { intros x' H. rewrite Hx in H. injection H as <-. split_and!; done. }
  assert (Hk : forall t, s_auc t = s_auc s -> Rr t). { intros t E x' H. rewrite E in *. by apply R0. }
  apply step_cases; try done.
  - intros c s' Hm He. apply Hk. pose proof (call_kept _ _ _ _ Hm He) as K. unfold kept in K.
    destruct c; cbn [pallet_of] in K; try (by destruct_and! K); try discriminate Hm; discriminate He.
  - intros o c s' -> Hm _ He. pose proof (call_kept _ _ _ _ Hm He) as K. unfold kept in K.
    destruct c; cbn [pallet_of] in K; try (apply Hk; by destruct_and! K); try discriminate Hm.
    all: clear K Hm; cbn [exec_call] in He; unfold signed in He; destruct o as [who| |]; try done.
    + apply create_ok in He as (d&m&Hd&_&Hu&_&_&_&_&_&_&_&_&_&_&_&E).
      pose proof (i_view s (reachable_inv1 s Hs) id) as V. unfold view_ok in V. rewrite Hd in V.
      intros x' Hx'. rewrite E in Hx' |- *. cbn [auctions commissions] in *. destruct (decide (id = i)) as [->|Hne].
      * exfalso. rewrite Hx in V. destruct Hu as (Hu&_). apply v_listed in V. rewrite Hu in V. by rewrite orb_comm in V.
      * apply lookup_insert_Some in Hx' as [[? _]|[_ Hx']]; [done|]. rewrite lookup_insert_ne by done. by apply R0.
    + apply cancel_ok in He as (d&y&_&_&_&_&_&_&E). intros x' Hx'. rewrite E in Hx' |- *. cbn [auc_done auctions commissions] in *.
      apply lookup_delete_Some in Hx' as [_ Hx']. by apply R0.
    + apply end_ok in He as (d&y&m&f&w&v&rest&b'&_&_&_&_&_&_&_&_&_&_&E). intros x' Hx'. rewrite E in Hx' |- *. cbn [auc_done auctions commissions] in *.
      apply lookup_delete_Some in Hx' as [_ Hx']. by apply R0.
    + apply bid_ok in He as (y&b'&l&a'&e&Hy&_&_&_&_&_&_&_&Ee&_&_&E). intros x' Hx'. rewrite E in Hx' |- *. cbn [auctions commissions] in *.
      apply lookup_insert_Some in Hx' as [[-> ->]|[_ Hx']]; [|by apply R0]. rewrite Hx in Hy. injection Hy as <-.
      destruct (extend_fields _ _ _ _ Ee) as (?&?&?&?&?&?&?&_). split_and!; done.
    + apply unbid_ok in He as (y&v&b'&Hy&_&_&_&_&_&E). intros x' Hx'. rewrite E in Hx' |- *. cbn [auctions commissions] in *.
      apply lookup_insert_Some in Hx' as [[-> <-]|[_ Hx']]; [|by apply R0]. rewrite Hx in Hy. injection Hy as <-. split_and!; done.
    + apply buy_ok in He as (d&y&m&f&b'&_&_&_&_&_&_&_&_&_&_&_&E). intros x' Hx'. rewrite E in Hx' |- *. cbn [auc_done auctions commissions] in *.
      apply lookup_delete_Some in Hx' as [_ Hx']. by apply R0.
    + apply claim_ok in He as (v&b'&_&_&_&_&E). intros x' Hx'. rewrite E in Hx' |- *. cbn [auctions commissions] in *. by apply R0.
  - intros _. apply next_block_ind; [by apply Hk|]. intros h t Ht.
    intros x' Hx'. rewrite hook_commissions. destruct (hook_auctions h t i) as [E|E]; rewrite E in Hx'; [done|]. by apply Ht.
  - intros e s' -> He. apply Hk. by apply env_kept in He as (_&_&_&?&_).
Qed.

(** ** C23 *)
Lemma fact_settled s l i a : config_ok -> ed <= 1 -> reachable s ->
  (forall j b, auctions (s_auc s) !! j = Some b -> a_end b <= s_now s + 1 -> j ∈ l) -> nlen l <= N.max 1 auction_actions ->
  auctions (s_auc s) !! i = Some a -> a_end a <= s_now s + 1 -> auctions (s_auc (next_block s)) !! i = None.
Proof.
  intros HC He Hs Hl Hn Ha Hd. pose proof (reachable_sreach s Hs) as Hsr.
  destruct (next_block_hook s_auc HookAuction s HC Hsr) as (t&Ht&_&Hnow&Et&En); [intros; by apply hook_auc_kept|done|].
  destruct (sreach_solv t He HC Ht) as [HS HD].
  destruct (auction_hook_ok t He HC (sreach_linv t Ht HS HD)) as (l1&E1&Hdue&Hau&_&HD'&Hcase).
  rewrite En, Hau. case_decide as Hin; [done|]. exfalso.
  pose proof (sreach_ainv t Ht) as HA. unfold ainv in HA. rewrite E1 in HA.
  assert (Hsub : forall j, j ∈ l1.*1 -> j ∈ l).
  { intros j Hj. apply q_fst_elem in Hj as [b Hj].
    destruct (a_live _ _ HA j b) as (x&Hx&Ex); [apply elem_of_app; by left|]. apply (Hl j x); [by rewrite <- Et|].
    specialize (Hdue _ Hj). cbn in Hdue. lia. }
  assert (Hnd : NoDup (l1.*1)). { destruct (a_dl _ _ HA) as [_ Hnd]. rewrite fmap_app in Hnd. by apply NoDup_app in Hnd as [? _]. }
  assert (Hs1 : l1.*1 ⊆+ l) by (by apply NoDup_submseteq).
  assert (Hil : i ∈ l) by (by eapply Hl).
  destruct Hcase as [Hcase|[Hc1 Hc2]].
  - assert (Hi' : auctions (s_auc t) !! i = Some a) by (by rewrite Et).
    pose proof (HD _ _ Hi') as Hq. rewrite E1, fmap_app, elem_of_app in Hq. destruct Hq as [Hq|Hq]; [done|].
    apply q_fst_elem in Hq as [b Hq]. specialize (Hcase _ Hq). cbn in Hcase.
    destruct (a_live _ _ HA i b) as (x&Hx&Ex); [apply elem_of_app; by right|]. rewrite Hi' in Hx. injection Hx as <-. lia.
  - assert (length l <= length (l1.*1))%nat by (rewrite fmap_length; unfold nlen in *; lia).
    pose proof (submseteq_Permutation_length_le _ _ ltac:(eassumption) Hs1) as Hp. rewrite <- Hp in Hil. done.
Qed.

(** ** C24 *)
Lemma fact_deadlines s : reachable s ->
  StronglySorted (fun x y => snd x <= snd y) (deadlines (s_auc s)) /\ NoDup (map fst (deadlines (s_auc s))) /\
  (forall i b, (i, b) ∈ deadlines (s_auc s) -> exists a, auctions (s_auc s) !! i = Some a /\ a_end a = b) /\
  nlen (deadlines (s_auc s)) <= parallel_auctions.
Proof.
  intros Hs. destruct (reachable_ainv s Hs) as [_ _ [H1 H2] H4 H5 _]. split_and!; done.
Qed.
Lemma fact_all_due s i a : config_ok -> ed <= 1 -> reachable s -> auctions (s_auc s) !! i = Some a -> (i, a_end a) ∈ deadlines (s_auc s).
Proof.
  intros HC He Hs Ha. destruct (sreach_solv s He HC (reachable_sreach s Hs)) as [_ HD].
  pose proof (HD _ _ Ha) as Hq. apply q_fst_elem in Hq as [b Hq].
  destruct (a_live _ _ (reachable_ainv s Hs) i b Hq) as (x&Hx&<-). by simplify_eq.
Qed.

(** ** C25 *)
Lemma fact_claim s who s' : who ∉ pots -> dispatch (Signed who) C_claim s = (Ok tt, s') ->
  exists x, claims (s_auc s) !! who = Some x /\ free (s_bal s') who = free (s_bal s) who + x /\
    (ed <= 1 -> free (s_bal s') auction_pot + x = free (s_bal s) auction_pot) /\
    (forall a, a <> who -> a <> auction_pot -> free (s_bal s') a = free (s_bal s) a) /\
    (forall w, refund s' w = if decide (w = who) then 0 else refund s w) /\
    auctions (s_auc s') = auctions (s_auc s) /\ s_nft s' = s_nft s /\
    dispatch (Signed who) C_claim s' = (Err (Auction_err A_ClaimDoesNotExist), s').
Proof.
  intros Hw H. apply dispatch_ok in H as [_ H]. cbn [exec_call signed] in H.
  apply claim_ok in H as (x&b'&Hx&T&Eb&En&Ea).
  assert (Hne : who <> auction_pot) by (intros ->; apply Hw; unfold pots; left).
  exists x. rewrite Eb. split_and!; [done| | | | |by rewrite Ea|done|].
  - rewrite (transfer_free_other _ _ _ _ _ _ who T Hne). unfold at_acc. by rewrite decide_True.
  - intros He. pose proof (pays_exact _ _ _ _ _ He T) as Hp. unfold at_acc in Hp. rewrite decide_False in Hp by congruence. lia.
  - intros a Ha1 Ha2. rewrite (transfer_free_other _ _ _ _ _ _ a T Ha2). unfold at_acc. rewrite decide_False by done. lia.
  - intros w. unfold refund. rewrite Ea. cbn [claims]. case_decide as E; [subst; by rewrite lookup_delete|by rewrite lookup_delete_ne].
  - assert (Ec : claims (s_auc s') !! who = None) by (rewrite Ea; apply lookup_delete).
    unfold dispatch, transactional. cbn [wf_call exec_call signed]. unfold claim, bind, gets, unwrap. by rewrite Ec.
Qed.

Lemma settle_refund i b dl s w : aok (s_auc s) ((i, b) :: dl) -> refund s w <= refund (snd (settle_one i s)) w.
Proof.
  intros HA. unfold refund. destruct (settle_ok i s) as (r&s'&->&[(_&E&_)|(_&d&a&rest&_&Ha&E&H)]); cbn [snd]; rewrite E; [done|].
  cbn. apply claims_add_ge; [|intros c Hc; by apply (a_claims _ _ HA w c)].
  pose proof (b_uniq _ (a_books _ _ HA i a Ha)) as Hn.
  destruct H as [(_&->&_)|(m&f&v&x&b'&Eb&_)]; [constructor|]. rewrite Eb in Hn. by eapply nodup_prefix.
Qed.
Lemma loop_refund fuel w : forall now dl acts s, aok (s_auc s) dl -> refund s w <= refund (snd (auction_loop fuel now dl acts s)) w.
Proof.
  induction fuel as [|f IH]; intros now dl acts s HA; [done|]. cbn [auction_loop].
  destruct (q_pop now dl) as [[i dl']|] eqn:Ep; [|done].
  apply q_pop_some in Ep as (b&->&_). pose proof (settle_refund i b dl' s w HA) as H1. apply aok_settle in HA. unfold bind.
  destruct (settle_ok i s) as (r&s'&E&_). rewrite E in *. cbn [snd] in HA, H1.
  destruct (_ && _); [done|]. specialize (IH now dl' (if r then acts + 1 else acts) s' HA). lia.
Qed.
Lemma hook_refund h s w : sreach s -> refund s w <= refund (snd (run_hook h s)) w.
Proof.
  intros Hs. destruct h.
  2-4: unfold refund; by rewrite hook_auc_kept by done.
  cbn [run_hook]. unfold auction_on_initialize, bind, gets.
  pose proof (loop_refund (length (deadlines (s_auc s))) w (s_now s) _ 0 s (sreach_ainv s Hs)) as H1.
  destruct (aok_loop (length (deadlines (s_auc s))) (s_now s) _ 0 s (sreach_ainv s Hs)) as (dl'&E&_).
  destruct (auction_loop _ _ _ _ _) as [r s']. cbn [fst snd] in *. subst r. exact H1.
Qed.
Lemma fact_refund_grows s a w : reachable s -> action_ok a -> a <> Extrinsic (Signed w) C_claim -> refund s w <= refund (step s a) w.
Proof.
  intros Hs Ha Hne. pose proof (reachable_ainv s Hs) as HA. unfold ainv in HA.
  assert (Hk : forall t, s_auc t = s_auc s -> refund s w <= refund t w) by (intros t E; unfold refund; by rewrite E).
  assert (Hmax : forall c, claims (s_auc s) !! w = Some c -> c <= u128_max) by (intros c Hc; by apply (a_claims _ _ HA w c)).
  apply (step_cases (fun t => refund s w <= refund t w)); try done.
  - intros c s' Hm He. apply Hk. pose proof (call_kept _ _ _ _ Hm He) as K. unfold kept in K.
    destruct c; cbn [pallet_of] in K; try (by destruct_and! K); try discriminate Hm; discriminate He.
  - intros o c s' -> Hm _ He. pose proof (call_kept _ _ _ _ Hm He) as K. unfold kept in K.
    destruct c; cbn [pallet_of] in K; try (apply Hk; by destruct_and! K); try discriminate Hm.
    all: clear K Hm; cbn [exec_call] in He; unfold signed in He; destruct o as [who| |]; try done; unfold refund.
    + apply create_ok in He as (d&m&_&_&_&_&_&_&_&_&_&_&_&_&_&_&E). by rewrite E.
    + apply cancel_ok in He as (d&y&_&Hy&_&_&_&_&E). rewrite E. cbn [auc_done claims]. apply claims_add_ge; [|done].
      by apply (b_uniq _ (a_books _ _ HA _ _ Hy)).
    + apply end_ok in He as (d&y&m&f&v&x&rest&b'&_&Hy&_&_&Eb&_&_&_&_&_&E). rewrite E. cbn [auc_done claims]. apply claims_add_ge; [|done].
      apply (nodup_prefix _ (v, x)). rewrite <- Eb. by apply (b_uniq _ (a_books _ _ HA _ _ Hy)).
    + apply bid_ok in He as (y&b'&l&a'&e&Hy&_&_&_&_&_&_&_&Ee&_&_&E). rewrite E. cbn [claims].
      destruct (fst _); [|done]. apply claims_add_ge; [|done]. cbn. by repeat constructor; apply not_elem_of_nil.
    + apply unbid_ok in He as (y&v&b'&Hy&_&_&_&_&_&E). by rewrite E.
    + apply buy_ok in He as (d&y&m&f&b'&_&Hy&_&_&_&_&_&_&_&_&_&E). rewrite E. cbn [auc_done claims]. apply claims_add_ge; [|done].
      by apply (b_uniq _ (a_books _ _ HA _ _ Hy)).
    + apply claim_ok in He as (v&b'&_&_&_&_&E). rewrite E. cbn [claims]. rewrite lookup_delete_ne; [done|]. intros ->. done.
  - intros _. apply (next_block_ind (fun t => sreach t /\ refund s w <= refund t w)).
    { split; [by apply sr_tick, reachable_sreach|by apply Hk]. }
    intros h t [Ht1 Ht2]. split; [by apply sr_hook|]. pose proof (hook_refund h t w Ht1). lia.
  - intros e s' -> He. apply Hk. by apply env_kept in He as (_&_&_&?&_).
Qed.

(** ** C26 *)
Lemma fact_bid s who i amt s' : reachable s -> who ∉ pots -> dispatch (Signed who) (C_add_bid i amt) s = (Ok tt, s') ->
  exists a a' old kept_, auctions (s_auc s) !! i = Some a /\ auctions (s_auc s') = <[i := a']> (auctions (s_auc s)) /\
    ((who, old) ∈ a_bidders a \/ old = 0 /\ who ∉ map fst (a_bidders a)) /\ old <= amt /\
    (forall k, free (s_bal s') k + at_acc who k (amt - old) = free (s_bal s) k + at_acc auction_pot k (amt - old)) /\
    a_bidders a' = kept_ ++ [(who, amt)] /\ s_nft s' = s_nft s /\
    ((refunded [] s s' /\ forall v y, (v, y) ∈ kept_ <-> (v, y) ∈ a_bidders a /\ v <> who) \/
     exists lv ly, (lv, ly) ∈ a_bidders a /\ lv <> who /\ (forall v y, (v, y) ∈ kept_ -> ly < y) /\
       (forall v y, (v, y) ∈ kept_ <-> (v, y) ∈ a_bidders a /\ v <> who /\ v <> lv) /\
       refunded [(lv, ly)] s s' /\ nlen kept_ + 1 = bidder_limit).
Proof.
  intros Hs Hw H. apply dispatch_ok in H as [_ H]. cbn [exec_call signed] in H.
  apply bid_ok in H as (a&b'&l&a'&e&Ha&_&_&_&Hl&Hlim&El&T&Ee&Eb&En&E).
  pose proof (a_books _ _ (reachable_ainv s Hs) i a Ha) as B. destruct (extend_fields _ _ _ _ Ee) as (_&_&_&_&Ebs&_).
  pose proof (b_uniq _ B) as Hnd. change (a_bidders (a <| a_bidders := snd (insert_new_bid who amt l) |>)) with (snd (insert_new_bid who amt l)) in Ebs.
  assert (Hel : forall x, x ∈ l <-> x ∈ a_bidders a /\ fst x <> who) by (intros x; rewrite El; by apply q_del_elem).
  assert (Hold : default 0 (q_get who (a_bidders a)) <= amt).
  { destruct (q_get who (a_bidders a)) as [y|] eqn:Eg; cbn; [|lia]. apply (q_get_elem who y _ Hnd) in Eg.
    destruct (last (a_bidders a)) as [hb|] eqn:Elast.
    - pose proof (blt_head_last _ _ (b_sorted _ B) Elast _ Eg) as Hle. cbn in Hle. lia.
    - apply last_None in Elast. rewrite Elast in Eg. by apply elem_of_nil in Eg. }
  assert (Hsl : StronglySorted blt l) by (rewrite El; eapply blt_sub; [apply q_del_sub|apply B]).
  assert (Hnl : NoDup (l.*1)) by (rewrite El; eapply fst_sub; [apply q_del_sub|done]).
  assert (Hcl : claims (s_auc s') = match fst (insert_new_bid who amt l) with Some x => claims_add [x] (claims (s_auc s)) | None => claims (s_auc s) end) by (by rewrite E).
  assert (Hau : auctions (s_auc s') = <[i := a']> (auctions (s_auc s))) by (by rewrite E).
  assert (Hbal : forall k, free (s_bal s') k + at_acc who k (amt - default 0 (q_get who (a_bidders a))) = free (s_bal s) k + at_acc auction_pot k (amt - default 0 (q_get who (a_bidders a)))).
  { intros k. rewrite Eb. eapply transfer_free; [exact T|by left]. }
  assert (Hmem : (who, default 0 (q_get who (a_bidders a))) ∈ a_bidders a \/ default 0 (q_get who (a_bidders a)) = 0 /\ who ∉ map fst (a_bidders a)).
  { destruct (q_get who (a_bidders a)) as [y|] eqn:Eg; cbn; [left; by apply (q_get_elem who y _ Hnd)|right]. split; [done|]. by apply q_get_none in Eg. }
  exists a, a', (default 0 (q_get who (a_bidders a))).
  unfold insert_new_bid in Ebs, Hcl. destruct (bidder_limit <=? nlen l) eqn:Eq; cbn [fst snd] in Ebs, Hcl.
  - apply N.leb_le in Eq. destruct l as [|[lv ly] k]; [cbn in Eq; lia|]. exists k. cbn [head tail] in *.
    split_and!; try done. right. exists lv, ly. 
    assert (Hlv : lv ∉ k.*1) by (cbn in Hnl; by apply NoDup_cons in Hnl as [? _]).
    destruct (proj1 (Hel (lv, ly)) ltac:(left)) as [Hlv1 Hlv2]. split_and!; [done|done| | | |].
    + intros v y Hy. apply blt_elem in Hsl as [_ Hsl]. by apply (Hsl (v, y)).
    + intros v y. split.
      * intros Hy. destruct (proj1 (Hel (v, y)) ltac:(by right)) as [? ?]. split_and!; [done|done|]. intros ->. apply Hlv, q_fst_elem. eauto.
      * intros (H1&H2&H3). assert (Hx : (v, y) ∈ (lv, ly) :: k) by (by apply Hel). apply elem_of_cons in Hx as [Hx|Hx]; [congruence|done].
    + apply claims_refunded; [|done]. cbn. by repeat constructor; apply not_elem_of_nil.
    + pose proof (b_len _ B) as Hb. assert (Hle : nlen ((lv, ly) :: k) <= nlen (a_bidders a)).
      { rewrite El. unfold nlen. pose proof (sublist_length _ _ (q_del_sub who (a_bidders a))). lia. }
      unfold nlen in *. cbn [length] in *. lia.
  - exists l. split_and!; try done. left. split.
    + apply claims_refunded; [constructor|done].
    + intros v y. apply (Hel (v, y)).
Qed.
Lemma fact_unbid s who i s' : reachable s -> who ∉ pots -> dispatch (Signed who) (C_remove_bid i) s = (Ok tt, s') ->
  exists a x l, auctions (s_auc s) !! i = Some a /\ (who, x) ∈ a_bidders a /\
    auctions (s_auc s') = <[i := a <| a_bidders := l |>]> (auctions (s_auc s)) /\
    (forall v y, (v, y) ∈ l <-> (v, y) ∈ a_bidders a /\ v <> who) /\
    (forall k, k <> auction_pot \/ ed <= 1 -> free (s_bal s') k + at_acc auction_pot k x = free (s_bal s) k + at_acc who k x) /\
    claims (s_auc s') = claims (s_auc s) /\ deadlines (s_auc s') = deadlines (s_auc s) /\ s_nft s' = s_nft s.
Proof.
  intros Hs Hw H. apply dispatch_ok in H as [_ H]. cbn [exec_call signed] in H.
  apply unbid_ok in H as (a&x&b'&Ha&_&Hx&T&Eb&En&E).
  pose proof (a_books _ _ (reachable_ainv s Hs) i a Ha) as B. pose proof (b_uniq _ B) as Hnd.
  exists a, x, (q_del who (a_bidders a)). rewrite E, Eb. split_and!; try done.
  - by apply (q_get_elem who x _ Hnd).
  - intros v y. by rewrite q_del_elem.
  - intros k Hk. eapply transfer_exact; [|exact T]. destruct Hk; auto.
Qed.

(** ** C27 *)
Lemma fact_windows s who s' :
  (forall i, dispatch (Signed who) (C_cancel_auction i) s = (Ok tt, s') -> exists a, auctions (s_auc s) !! i = Some a /\ a_creator a = who /\ s_now s < a_start a) /\
  (forall i x, dispatch (Signed who) (C_add_bid i x) s = (Ok tt, s') -> exists a, auctions (s_auc s) !! i = Some a /\ a_creator a <> who /\ a_start a <= s_now s) /\
  (forall i x, dispatch (Signed who) (C_buy_it_now i x) s = (Ok tt, s') -> exists a, auctions (s_auc s) !! i = Some a /\ a_creator a <> who /\ a_start a <= s_now s) /\
  (forall i, dispatch (Signed who) (C_remove_bid i) s = (Ok tt, s') -> exists a, auctions (s_auc s) !! i = Some a /\ who ∈ map fst (a_bidders a) /\ s_now s + ending_period < a_end a) /\
  (forall i, dispatch (Signed who) (C_end_auction i) s = (Ok tt, s') -> exists a, auctions (s_auc s) !! i = Some a /\ a_creator a = who /\ a_extended a = true /\ a_bidders a <> []).
Proof.
  split_and!; intros *; intros H; apply dispatch_ok in H as [_ H]; cbn [exec_call signed] in H.
  - apply cancel_ok in H as (d&a&_&Ha&Hc&Hn&_). eauto.
  - apply bid_ok in H as (a&b'&l&a'&e&Ha&Hc&Hn&_). eauto.
  - apply buy_ok in H as (d&a&m&f&b'&_&Ha&_&Hc&Hn&_). eauto.
  - apply unbid_ok in H as (a&y&b'&Ha&Hn&Hy&_). exists a. split_and!; [done| |lia].
    destruct (decide (who ∈ (a_bidders a).*1)) as [Hd|Hd]; [exact Hd|]. apply q_get_none in Hd. congruence.
  - apply end_ok in H as (d&a&m&f&w&x&rest&b'&_&Ha&Hc&He&Hb&_). exists a. split_and!; try done. rewrite Hb. by destruct rest.
Qed.

(** ** C28 *)
Lemma fact_extension s who i amt s' : dispatch (Signed who) (C_add_bid i amt) s = (Ok tt, s') ->
  exists a a', auctions (s_auc s) !! i = Some a /\ auctions (s_auc s') !! i = Some a' /\
    a_end a <= a_end a' /\ (s_now s <= a_end a -> s_now s + grace_period <= a_end a') /\
    (a_end a' <> a_end a -> a_end a < s_now s + grace_period /\ a_extended a' = true) /\
    (a_extended a' = true -> a_extended a = true \/ a_end a < s_now s + grace_period).
Proof.
  intros H. apply dispatch_ok in H as [_ H]. cbn [exec_call signed] in H.
  apply bid_ok in H as (a&b'&l&a'&e&Ha&_&_&_&_&_&_&_&Ee&_&_&E).
  destruct (extend_fields _ _ _ _ Ee) as (_&_&_&_&_&_&Hle&He). exists a, a'. rewrite E. cbn [auctions]. rewrite lookup_insert.
  change (a_end (a <| a_bidders := snd (insert_new_bid who amt l) |>)) with (a_end a) in *.
  split; [done|]. split; [done|]. destruct e as [e|].
  - destruct He as (H1&H2&H3&H4). split_and!; [done|lia|intros; split; [lia|done]|]. intros _. right. lia.
  - destruct He as (->&H2). split_and!; [done|cbn; lia|done|by left].
Qed.

(** ** C29 *)
Lemma fact_buy_now s who i p s' : reachable s -> who ∉ pots -> dispatch (Signed who) (C_buy_it_now i p) s = (Ok tt, s') ->
  exists d a m f com roy r,
    nfts (s_nft s) !! i = Some d /\ auctions (s_auc s) !! i = Some a /\ mkts (s_mkt s) !! a_mkt a = Some m /\
    commissions (s_auc s) !! i = Some f /\ a_buy_it a = Some p /\ (forall v y, (v, y) ∈ a_bidders a -> y < p) /\
    division f d p com roy r /\
    (forall k, pays3 s s' who (m_owner m) com (creator d) roy (a_creator a) r k) /\
    handed_over s s' i who /\ closed s s' i /\ refunded (a_bidders a) s s'.
Proof.
  intros Hs Hw H. apply dispatch_ok in H as [_ H]. cbn [exec_call signed] in H.
  apply buy_ok in H as (d&a&m&f&b'&Hd&Ha&Hp&_&_&Hl&Hm&Hf&Hpay&Eb&En&Ea).
  pose proof (reachable_ainv s Hs) as HA. pose proof (a_books _ _ HA i a Ha) as B.
  assert (Hne : who <> auction_pot) by (intros ->; apply Hw; unfold pots; left).
  eexists d, a, m, f, _, _, _. split_and!; try eassumption.
  - intros v y Hy. destruct (last (a_bidders a)) as [hb|] eqn:Elast.
    + pose proof (blt_head_last _ _ (b_sorted _ B) Elast _ Hy) as Hle. cbn in Hle. lia.
    + apply last_None in Elast. rewrite Elast in Hy. by apply elem_of_nil in Hy.
  - eapply auc_division; try eassumption. pose proof (b_buy _ B p Hp). lia.
  - intros k. unfold pays3. rewrite Eb. eapply paid_exact; [|exact Hpay]. right. left. by apply negb_true_iff, N.eqb_neq.
  - exists d. split; [done|]. by rewrite En.
  - by eapply done_closed.
  - apply claims_refunded; [apply B|by rewrite Ea].
Qed.

(** ** C30 *)
Lemma loop_bound fuel : forall now dl acts s, exists l, acts + nlen l <= N.max (acts + 1) auction_actions /\
  forall i, i ∉ l -> auctions (s_auc (snd (auction_loop fuel now dl acts s))) !! i = auctions (s_auc s) !! i.
Proof.
  induction fuel as [|f IH]; intros now dl acts s; [exists []; unfold nlen; cbn; split; [lia|done]|]. cbn [auction_loop].
  destruct (q_pop now dl) as [[i dl']|] eqn:Ep; [|exists []; unfold nlen; cbn; split; [lia|done]].
  unfold bind. destruct (settle_ok i s) as (r&s'&->&[(->&E&_)|(->&d&a&rest&_&Ha&E&H)]); cbn [andb].
  - destruct (IH now dl' acts s') as (l&H1&H2). exists l. split; [done|]. intros j Hj. by rewrite H2, E.
  - assert (Es : auctions (s_auc s') = delete i (auctions (s_auc s))) by (by rewrite E).
    destruct (auction_actions <=? acts + 1) eqn:Eq; [apply N.leb_le in Eq|apply N.leb_gt in Eq].
    + exists [i]. unfold nlen. cbn [length snd ret]. split; [lia|]. intros j Hj. rewrite Es, lookup_delete_ne; [done|].
      intros ->. apply Hj. left.
    + destruct (IH now dl' (acts + 1) s') as (l&H1&H2). exists (i :: l). unfold nlen in *. cbn [length]. split; [lia|].
      intros j [Hj1 Hj2]%not_elem_of_cons. rewrite H2 by done. by rewrite Es, lookup_delete_ne.
Qed.
Lemma fact_bounded s : config_ok -> reachable s -> exists l, nlen l <= N.max 1 auction_actions /\
  forall i, i ∉ l -> auctions (s_auc (next_block s)) !! i = auctions (s_auc s) !! i.
Proof.
  intros HC Hs. destruct (next_block_hook s_auc HookAuction s HC (reachable_sreach s Hs)) as (t&Ht&_&Hnow&Et&En); [intros; by apply hook_auc_kept|done|].
  destruct (loop_bound (length (deadlines (s_auc t))) (s_now t) (deadlines (s_auc t)) 0 t) as (l&H1&H2).
  exists l. split; [done|]. intros i Hi. rewrite En, <- Et. cbn [run_hook]. unfold auction_on_initialize, bind, gets.
  rewrite <- (H2 i Hi). destruct (auction_loop _ _ _ _ _) as [[dl'|e] s']; done.
Qed.
End aucfacts.
