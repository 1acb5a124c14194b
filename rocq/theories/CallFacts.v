(** Facts behind the size of calls. *)
From Verif Require Export SpecCall RentFacts2 AucFacts TransFacts3 Effects.
Local Open Scope N_scope.

Section facts.
Context {C : Config}.

(** ** Offers *)
Definition offers_ok (m : gmap N (list N)) : Prop := forall i l, m !! i = Some l -> NoDup l /\ nlen l <= rent_accounts_limit.

Lemma roffer_len who id cb s r s' : make_rent_offer who id cb s = (Ok r, s') -> nlen (default [] (offers (s_rent s) !! id)) < rent_accounts_limit.
Proof.
  intros H. unfold make_rent_offer in H. do 13 mstep H.
  all: apply bind_ok in H as ([]&s0&HW&H); assert (s0 = s) as -> by (by minv HW); clear HW.
  all: minv H; first [assumption|by apply N.ltb_lt].
Qed.
Lemma offers_insert m i l : offers_ok m -> NoDup l -> nlen l <= rent_accounts_limit -> offers_ok (<[i := l]> m).
Proof. intros Hm Hl Hn j x H. apply lookup_insert_Some in H as [[-> <-]|[_ H]]; [done|by eapply Hm]. Qed.
Lemma offers_delete m i : offers_ok m -> offers_ok (delete i m).
Proof. intros Hm j x H. apply lookup_delete_Some in H as [_ H]. by eapply Hm. Qed.
Lemma sublist_nodup {A} (l k : list A) : NoDup k -> sublist l k -> NoDup l.
Proof.
  intros Hk H. induction H as [|x l k H IH|x l k H IH]; [done| |]; apply NoDup_cons in Hk as [Hx Hk]; [|auto].
  apply NoDup_cons. split; [|auto]. intros Hin. apply Hx. eapply elem_of_submseteq; [exact Hin|]. by apply sublist_submseteq.
Qed.
Lemma hook_offers h s : offers (s_rent (snd (run_hook h s))) = offers (s_rent s).
Proof.
  assert (H : pres (fun t => offers (s_rent t) = offers (s_rent s)) (run_hook h)); [|by apply H].
  destruct h; cbn [run_hook].
  - apply pres_auction_hook; [|intros; st_cbn; assumption]. intros id. pres_go; st_cbn; assumption.
  - apply pres_rent_hook; [| | |intros; st_cbn; assumption]; intros; pres_go; st_cbn; assumption.
  - apply pres_trans_hook; [| |intros; st_cbn; assumption]; intros; pres_go; st_cbn; assumption.
  - pres_go; st_cbn; assumption.
Qed.

Lemma sreach_offers s : sreach s -> offers_ok (offers (s_rent s)).
Proof.
  intros H. induction H as [s Hs|s o x s' Hs IH Ha Hw Hm He|s ev Hs IH|s Hs IH|s h Hs IH|s e s' Hs IH Ha He].
  - destruct Hs as (now&era&bal&lk&->&_). intros i l Hl. cbn in Hl. by apply lookup_empty_Some in Hl.
  - assert (pallet_of x = PRent \/ pallet_of x <> PRent) as [Hp|Hp] by (destruct (pallet_of x); auto).
    2: { by rewrite (call_rent_kept _ _ _ _ Hm He Hp). }
    destruct x; try discriminate Hp; clear Hp Hm; cbn [exec_call] in He; unfold signed in He; destruct o as [who| |]; try done.
    + apply rcreate_ok in He as (b&nd&Hd&_&Hr&_&_&_&_&_&_&_&_&_&_&E). by rewrite E.
    + apply rcancel_ok in He as (x&b1&_&_&_&_&_&E). rewrite E. by apply offers_delete.
    + apply rrevoke_ok in He as (x&y&b1&b2&_&_&_&He). cbv zeta in He. destruct He as (_&_&_&E). by rewrite E.
    + apply rent_ok in He as (x&b1&b2&Hx&Hcb&Hr&_&_&_&_&_&_&E). rewrite E. by apply offers_delete.
    + pose proof (roffer_len _ _ _ _ _ _ He) as Hlen. apply roffer_ok in He as (x&Hx&Hcb&Hst&Hne&_&_&Hni&_&_&E). rewrite E. cbn [offers].
      assert (Hd : NoDup (default [] (offers (s_rent s) !! id))).
      { destruct (offers (s_rent s) !! id) as [l|] eqn:El; [by apply IH in El as [? _]|constructor]. }
      apply offers_insert; [done| |].
      * apply NoDup_app. split; [done|]. split; [|apply NoDup_singleton]. by intros y Hy ->%elem_of_list_singleton.
      * unfold nlen in *. rewrite app_length. cbn [length]. lia.
    + apply raccept_ok in He as (x&l&b1&b2&Hx&Hl&Hr&Hin&_&_&_&E). rewrite E. by apply offers_delete.
    + apply rretract_ok in He as (l&k&Hl0&_&_&E). rewrite E. cbn [offers]. destruct (IH _ _ Hl0) as [Hn Hl]. apply offers_insert; [done| |].
      * eapply sublist_nodup; [exact Hn|apply sublist_delete].
      * pose proof (sublist_length _ _ (sublist_delete l k)). unfold nlen in *. lia.
    + apply rchange_ok in He as (x&o&Hx&Hr&Hadj&_&_&_&_&Eo&E). rewrite E. cbn [offers]. subst o. destruct (r_rentee x); [done|by apply offers_delete].
    + apply raccterms_ok in He as (x&sub&Hx&Hd&Hr&Hnt&Hf&Hp&Hmd&Hch&_&_&E). by rewrite E.
  - exact IH.
  - exact IH.
  - by rewrite hook_offers.
  - apply env_kept in He as (_&_&_&_&Er&_). by rewrite Er.
Qed.
Lemma reachable_offers s : reachable s -> offers_ok (offers (s_rent s)).
Proof. intros H. apply sreach_offers, reachable_sreach, H. Qed.

(** ** No bids before the start *)
Definition waits (s : state) : Prop := forall i a, auctions (s_auc s) !! i = Some a -> s_now s < a_start a -> a_bidders a = [].
Lemma sreach_waits s : sreach s -> waits s.
Proof.
  intros H. induction H as [s Hs|s o c s' Hs IH Ha Hw Hm He|s ev Hs IH|s Hs IH|s h Hs IH|s e s' Hs IH Ha He].
  - destruct Hs as (now&era&bal&lk&->&_). intros i l Hl. cbn in Hl. by apply lookup_empty_Some in Hl.
  - pose proof (call_now _ _ _ _ Hm He) as En. unfold waits. rewrite En. clear En. pose proof (call_kept _ _ _ _ Hm He) as K. unfold kept in K.
    destruct c; cbn [pallet_of] in K; try (destruct_and! K; match goal with E : s_auc s' = s_auc s |- _ => rewrite E end; exact IH); try discriminate Hm.
    all: clear K Hm; cbn [exec_call] in He; unfold signed in He; destruct o as [who| |]; try done.
    + apply create_ok in He as (d&m&Hd&_&Hu&_&_&_&_&_&_&_&_&_&_&_&E). rewrite E. cbn [auctions]. intros i a Hx.
      apply lookup_insert_Some in Hx as [[-> <-]|[_ Hx]]; [done|by eapply IH].
    + apply cancel_ok in He as (d&y&_&_&_&_&_&_&E). rewrite E. cbn [auc_done auctions]. intros i a Hx.
      apply lookup_delete_Some in Hx as [_ Hx]. by eapply IH.
    + apply end_ok in He as (d&y&m&f&w&v&rest&b'&_&_&_&_&_&_&_&_&_&_&E). rewrite E. cbn [auc_done auctions]. intros i a Hx.
      apply lookup_delete_Some in Hx as [_ Hx]. by eapply IH.
    + apply bid_ok in He as (y&b'&l&a'&e&Hy&_&Hst&_&_&_&_&_&Ee&_&_&E). rewrite E. cbn [auctions]. intros i a Hx Hlt.
      apply lookup_insert_Some in Hx as [[-> <-]|[_ Hx]]; [|by eapply IH]. exfalso.
      assert (a_start a' = a_start y). { unfold extend_if_necessary in Ee. repeat case_match; simplify_eq; done. } lia.
    + apply unbid_ok in He as (y&v&b'&Hy&_&_&_&_&_&E). rewrite E. cbn [auctions]. intros i a Hx Hlt.
      apply lookup_insert_Some in Hx as [[-> <-]|[_ Hx]]; [|by eapply IH]. cbn in *. by rewrite (IH _ _ Hy Hlt).
    + apply buy_ok in He as (d&y&m&f&b'&_&_&_&_&_&_&_&_&_&_&_&E). rewrite E. cbn [auc_done auctions]. intros i a Hx.
      apply lookup_delete_Some in Hx as [_ Hx]. by eapply IH.
    + apply claim_ok in He as (v&b'&_&_&_&_&E). rewrite E. cbn [auctions]. exact IH.
  - exact IH.
  - intros i a Hx Hlt. cbn in *. eapply IH; [exact Hx|lia].
  - intros i a Hx Hlt. rewrite hook_now in Hlt. destruct (hook_auctions h s i) as [E|E]; rewrite E in Hx; [done|]. by eapply IH.
  - apply env_kept in He as (En&_&_&Ea&_). intros i a Hx Hlt. rewrite Ea in Hx. eapply IH; [exact Hx|]. congruence.
Qed.
Lemma reachable_waits s : reachable s -> waits s.
Proof. intros H. apply sreach_waits, reachable_sreach, H. Qed.

(** ** Capacities *)
Lemma listing_sep now cs (P Q : contract -> Prop) l k : listing now cs P l -> listing now cs Q k -> (forall c, P c -> Q c -> False) ->
  forall i, i ∈ l.*1 -> i ∉ k.*1.
Proof.
  intros (_&Hl&_) (_&Hk&_) HPQ i [b Hb]%q_fst_elem [b' Hb']%q_fst_elem.
  destruct (Hl _ _ Hb) as (c&Hc&Hp&_). destruct (Hk _ _ Hb') as (c'&Hc'&Hq&_). apply (HPQ c); [done|]. congruence.
Qed.
Lemma fact_capacity b s : config_ok -> reachable s -> NoDup (entries b s).*1 /\ nlen (entries b s) <= capacity b.
Proof.
  intros HC Hs. destruct b as [k| |i| |i|]; cbn [entries capacity].
  - destruct (colls (s_nft s) !! k) as [c|] eqn:Ec; [|split; [constructor|apply N.le_0_l]].
    destruct (ci_ok s (reachable_cinv s Hs) k c Ec) as (Hn&Hl&_). unfold nlen. rewrite map_length. split; [|done].
    rewrite <- list_fmap_compose. erewrite list_fmap_ext; [|by intros]. by rewrite list_fmap_id.
  - pose proof (reachable_ainv s Hs) as HA. split; [apply (a_dl _ _ HA)|apply (a_dlen _ _ HA)].
  - destruct (auctions (s_auc s) !! i) as [a|] eqn:Ea; [|split; [constructor|apply N.le_0_l]].
    pose proof (a_books _ _ (reachable_ainv s Hs) i a Ea) as B. split; [apply (b_uniq _ B)|apply (b_len _ B)].
  - destruct (reachable_rent s HC Hs) as [HR _]. destruct HR as [H1 H2 H3 H4 _]. split.
    + rewrite !fmap_app. apply NoDup_app. split; [apply H1|]. split.
      * intros j Hj. rewrite not_elem_of_app. split; (eapply listing_sep; [exact H1| | |exact Hj]; [eassumption|]).
        -- intros c [? E1] [? E2]. congruence.
        -- intros c [E1 ?] E2. unfold in_avail in E2. congruence.
      * apply NoDup_app. split; [apply H2|]. split; [|apply H3].
        intros j Hj. eapply listing_sep; [exact H2|exact H3| |exact Hj]. intros c [E1 ?] E2. unfold in_avail in E2. congruence.
    + unfold queues_size, nlen in *. rewrite !app_length. lia.
  - destruct (offers (s_rent s) !! i) as [l|] eqn:El; [|split; [constructor|apply N.le_0_l]].
    destruct (reachable_offers s Hs i l El) as (Hn&Hl). unfold nlen. rewrite map_length. split; [|done].
    rewrite <- list_fmap_compose. erewrite list_fmap_ext; [|by intros]. by rewrite list_fmap_id.
  - pose proof (reachable_tinv s Hs) as HT. split; [apply (to_q _ _ HT)|apply (to_len _ _ HT)].
Qed.

Lemma entries_members s k c : colls (s_nft s) !! k = Some c -> nlen (entries (B_members k) s) = nlen (c_nfts c).
Proof. intros E. cbn [entries]. rewrite E. unfold nlen. by rewrite map_length. Qed.
Lemma fact_size c s n : config_ok -> reachable s -> weight_size s c = Some n ->
  exists b, (n = 1 \/ n = nlen (entries b s)) /\ n <= N.max 1 (capacity b).
Proof.
  intros HC Hs. set (G := fun n => exists b, (n = 1 \/ n = nlen (entries b s)) /\ n <= N.max 1 (capacity b)). change (weight_size s c = Some n -> G n).
  assert (Gb : forall b, G (nlen (entries b s))).
  { intros b. exists b. split; [by right|]. destruct (fact_capacity b s HC Hs) as [_ H]. lia. }
  assert (G1 : G 1). { exists B_deadlines. split; [by left|lia]. }
  assert (Gc : forall co, G (coll_weight s co)).
  { intros [k|]; cbn [coll_weight]; [|done]. destruct (colls (s_nft s) !! k) as [x|] eqn:E; [|done].
    rewrite <- (entries_members s k x E). apply Gb. }
  induction c; cbn [weight_size]; intros E; try discriminate E; try (injection E as <-); auto.
  all: try (exact (Gb B_deadlines)); try (exact (Gb B_trans_queue)).
  all: try (case_match; auto; fail).
  all: try (replace (queues_size (queues (s_rent s))) with (nlen (entries B_rent_queues s)) by (cbn [entries]; unfold queues_size, nlen; rewrite !app_length; lia); apply Gb).
  all: try (specialize (Gb (B_bidders id)); cbn [entries] in Gb; case_match; exact Gb).
  1: exact (Gc (Some coll)).
  specialize (Gb (B_offers id)); cbn [entries] in Gb; case_match; [|exact Gb]. unfold nlen in *. by rewrite map_length in Gb.
Qed.

(** ** The list a call changes *)
Lemma becomes_parts s' s1 news : becomes s' s1 news ->
  s_nft s' = s_nft s1 /\ s_auc s' = s_auc s1 /\ s_rent s' = s_rent s1 /\ s_trans s' = s_trans s1.
Proof. intros E. unfold becomes in E. rewrite E. done. Qed.
Lemma exec_colls o c t : is_mandate c = false -> pallet_of c <> PNft -> pres (fun s => colls (s_nft s) = colls (s_nft t)) (exec_call o c).
Proof.
  intros Hm Hp. destruct c; try discriminate Hm; try (exfalso; by apply Hp); clear Hm Hp; cbn [exec_call]; pres_go; st_cbn; assumption.
Qed.
Lemma call_colls o c s s' : is_mandate c = false -> pallet_of c <> PNft -> exec_call o c s = (Ok tt, s') -> colls (s_nft s') = colls (s_nft s).
Proof. intros Hm Hp He. pose proof (exec_colls o c s Hm Hp s eq_refl) as H. by rewrite He in H. Qed.

Lemma nft_cover s w c s' k : reachable s -> is_nft_call c -> dispatch (Signed w) c s = (Ok tt, s') ->
  entries (B_members k) s' = entries (B_members k) s \/ weight_size s c = Some (nlen (entries (B_members k) s)).
Proof.
  intros Hs Hc Hd. destruct (fact_nft_does s w c s' Hs Hc Hd) as [HD _].
  assert (Hw : forall j x t, colls (s_nft t) = <[j := x]> (colls (s_nft s)) ->
     (forall y, colls (s_nft s) !! j = Some y -> c_nfts x = c_nfts y) -> (colls (s_nft s) !! j = None -> c_nfts x = []) ->
     entries (B_members k) t = entries (B_members k) s).
  { intros j x t E H1 H2. cbn [entries]. rewrite E. destruct (decide (j = k)) as [->|Hne]; [|by rewrite lookup_insert_ne].
    rewrite lookup_insert. destruct (colls (s_nft s) !! k) as [y|] eqn:Ey; [by rewrite (H1 y eq_refl)|]. by rewrite H2. }
  assert (Hj : forall co i s1, joins s co i s1 -> colls (s_nft s') = colls (s_nft s1) ->
     entries (B_members k) s' = entries (B_members k) s \/ Some (coll_weight s co) = Some (nlen (entries (B_members k) s))).
  { intros [j|] i s1 HJ E; cbn [joins] in HJ; [|subst s1; left; cbn [entries]; by rewrite E].
    destruct HJ as (x&Hx&->). cbn in E. destruct (decide (j = k)) as [->|Hne].
    - right. cbn [coll_weight]. by rewrite Hx, (entries_members _ _ _ Hx).
    - left. cbn [entries]. rewrite E. by rewrite lookup_insert_ne. }
  destruct c; try done; cbn [nft_does] in HD; cbn [weight_size].
  all: try (apply becomes_parts in HD as (E&_); left; cbn [entries]; by rewrite E).
  all: try (destruct HD as (d&_&E); apply becomes_parts in E as (E&_); left; cbn [entries]; by rewrite E).
  all: try (destruct HD as (d&Hd'&E); apply becomes_parts in E as (E&_); left; eapply Hw; [by rewrite E|by intros ? ?; simplify_eq|congruence]).
  - destruct HD as (s1&HJ&E). apply becomes_parts in E as (E&_). eapply Hj; [exact HJ|by rewrite E].
  - destruct HD as (d&s1&Hd'&HQ&E). apply becomes_parts in E as (E&_). rewrite Hd'. destruct (collection_id d) as [j|]; cbn [quits] in HQ.
    + destruct HQ as (x&l&Hx&_&->). cbn in E. destruct (decide (j = k)) as [->|Hne].
      * right. cbn [coll_weight]. by rewrite Hx, (entries_members _ _ _ Hx).
      * left. cbn [entries]. rewrite E. cbn. by rewrite lookup_insert_ne.
    + subst s1. left. cbn [entries]. by rewrite E.
  - destruct HD as (d&_&E). apply becomes_parts in E as (E&_). left. cbn [entries]. rewrite E. by destruct (delegate w recipient).
  - apply becomes_parts in HD as (E&_). left. eapply Hw; [by rewrite E| |done]. cbn. intros y Hy.
    pose proof (ci_next s (reachable_cinv s Hs) (next_coll (s_nft s)) ltac:(lia)). congruence.
  - apply becomes_parts in HD as (E&_). left. cbn [entries]. rewrite E. cbn. destruct (decide (coll = k)) as [->|Hne]; [|by rewrite lookup_delete_ne].
    rewrite lookup_delete. apply dispatch_ok in Hd as [_ Hd]. cbn [exec_call signed] in Hd. unfold burn_collection in Hd. minv Hd.
    all: simplify_eq; repeat match goal with H : _ !! _ = Some _ |- _ => rewrite H end.
    destruct (c_nfts x); [done|]. unfold nlen in E1. cbn in E1. lia.
  - destruct HD as (d&s1&_&HJ&E). apply becomes_parts in E as (E&_). eapply Hj; [exact HJ|by rewrite E].
  - destruct HD as (s1&HJ&E). apply becomes_parts in E as (E&_). eapply Hj; [exact HJ|by rewrite E].
  - destruct HD as (d&op&cl&_&_&E). left. cbn [entries]. destruct (decide _); apply becomes_parts in E as (E&_); by rewrite E.
  - destruct HD as (s1&HJ&E). apply becomes_parts in E as (E&_). eapply Hj; [exact HJ|by rewrite E].
  - destruct HD as (d&op&cl&_&_&E). left. cbn [entries]. destruct (decide _); apply becomes_parts in E as (E&_); by rewrite E.
Qed.

Lemma auc_cover s w c s' b : reachable s -> is_auc_call c -> dispatch (Signed w) c s = (Ok tt, s') ->
  b = B_deadlines \/ (exists i, b = B_bidders i) ->
  entries b s' = entries b s \/ undeclared c b \/ weight_size s c = Some (nlen (entries b s)).
Proof.
  intros Hs Hc Hd Hb. destruct (fact_auc_does s w c s' Hs Hc Hd) as [HD _].
  assert (Hover : forall i o d cl, s_auc s' = s_auc (auction_over i o d cl s) ->
     (exists j, b = B_bidders j) -> (exists j, b = B_bidders j /\ j <> i) \/ b = B_bidders i \/ entries b s' = entries b s).
  { intros i o d cl E (j&->). destruct (decide (j = i)) as [->|Hne]; [by right; left|left; eauto]. }
  assert (Hother : forall i j o d cl, s_auc s' = s_auc (auction_over i o d cl s) -> j <> i -> entries (B_bidders j) s' = entries (B_bidders j) s).
  { intros i j o d cl E Hne. cbn [entries]. rewrite E. cbn. by rewrite lookup_delete_ne. }
  destruct c; try done; cbn [auc_does] in HD; cbn [weight_size].
  - destruct HD as (d&m&dl&_&_&_&_&E). apply becomes_parts in E as (_&E&_). destruct Hb as [->|(j&->)]; [by right; right|]. left. cbn [entries]. rewrite E. cbn.
    destruct (decide (id = j)) as [->|Hne]; [|by rewrite lookup_insert_ne]. rewrite lookup_insert. cbn.
    apply dispatch_ok in Hd as [_ Hd]. cbn [exec_call signed] in Hd. apply create_ok in Hd as (d'&m'&Hd'&_&Hu&_).
    pose proof (i_view s (reachable_inv1 s Hs) j) as V. unfold view_ok in V. rewrite Hd' in V.
    destruct (auctions (s_auc s) !! j) as [x|] eqn:Ex; [|done]. exfalso. destruct Hu as (Hu&_). apply v_listed in V. rewrite Hu in V. by rewrite orb_comm in V.
  - destruct HD as (d&a&cl&_&Ha&_&E). apply becomes_parts in E as (_&E&_). destruct Hb as [->|(j&->)]; [by right; right|]. left.
    destruct (decide (j = id)) as [->|Hne]; [|by eapply Hother]. cbn [entries]. rewrite E. cbn. rewrite lookup_delete, Ha.
    apply dispatch_ok in Hd as [_ Hd]. cbn [exec_call signed] in Hd. apply cancel_ok in Hd as (d'&a'&_&Ha'&_&Hlt&_).
    assert (a' = a) as -> by congruence. by rewrite (reachable_waits s Hs _ _ Ha Hlt).
  - destruct HD as (d&a&l&v&x&f&com&roy&rest&cl&_&_&_&_&_&_&E). apply becomes_parts in E as (_&E&_). destruct Hb as [->|(j&->)]; [by right; right|].
    destruct (decide (j = id)) as [->|Hne]; [by right; left|left; by eapply Hother].
  - destruct HD as (a&l&dl&cl&news&Ha&_&_&E). apply becomes_parts in E as (_&E&_). destruct Hb as [->|(j&->)]; [by right; left|].
    destruct (decide (j = id)) as [->|Hne]; [right; right; cbn [entries]; by rewrite Ha|]. left. cbn [entries]. rewrite E. cbn. by rewrite lookup_insert_ne.
  - destruct HD as (a&x&Ha&_&E). apply becomes_parts in E as (_&E&_). destruct Hb as [->|(j&->)]; [left; cbn [entries]; by rewrite E|].
    destruct (decide (j = id)) as [->|Hne]; [right; right; cbn [entries]; by rewrite Ha|]. left. cbn [entries]. rewrite E. cbn. by rewrite lookup_insert_ne.
  - destruct HD as (d&a&f&com&roy&rest&cl&_&_&_&_&_&E). apply becomes_parts in E as (_&E&_). destruct Hb as [->|(j&->)]; [by right; right|].
    destruct (decide (j = id)) as [->|Hne]; [by right; left|left; by eapply Hother].
  - destruct HD as (x&_&E). apply becomes_parts in E as (_&E&_). left. destruct Hb as [->|(j&->)]; cbn [entries]; by rewrite E.
Qed.

Lemma queues_entries s : nlen (entries B_rent_queues s) = queues_size (queues (s_rent s)).
Proof. cbn [entries]. unfold queues_size, nlen. rewrite !app_length. lia. Qed.
Lemma rent_cover s w c s' b : config_ok -> reachable s -> is_rent_call c -> dispatch (Signed w) c s = (Ok tt, s') ->
  b = B_rent_queues \/ (exists i, b = B_offers i) ->
  entries b s' = entries b s \/ undeclared c b \/ weight_size s c = Some (nlen (entries b s)).
Proof.
  intros HC Hs Hc Hd Hb. destruct (fact_rent_does s w c s' HC Hs Hc Hd) as [HD _].
  assert (Hkeep : forall i x, offers (s_rent s') = x -> (forall j, j <> i -> x !! j = offers (s_rent s) !! j) -> forall j, j <> i -> entries (B_offers j) s' = entries (B_offers j) s).
  { intros i x E H j Hne. cbn [entries]. rewrite E. by rewrite (H j Hne). }
  destruct c; try done; cbn [rent_does] in HD; cbn [weight_size].
  all: destruct Hb as [->|(j&->)]; [right; right; by rewrite <- queues_entries|] || idtac.
  - destruct HD as (nd&q&_&_&E). apply becomes_parts in E as (_&_&E&_). left. cbn [entries]. by rewrite E.
  - destruct HD as (d&x&_&_&E). apply becomes_parts in E as (_&_&E&_). destruct (decide (id = j)) as [->|Hne]; [by right; left|left].
    cbn [entries]. rewrite E. cbn. by rewrite lookup_delete_ne.
  - destruct HD as (x&other&own&theirs&_&_&E). apply becomes_parts in E as (_&_&E&_). left. cbn [entries]. rewrite E. by destruct own, theirs.
  - destruct HD as (x&q&_&_&E). apply becomes_parts in E as (_&_&E&_). destruct (decide (id = j)) as [->|Hne]; [by right; left|left].
    cbn [entries]. rewrite E. assert (Eo : offers (s_rent (begun id w x q s)) = delete id (offers (s_rent s))) by (unfold begun; by destruct (r_rentee_cf x), (r_rent_fee x)).
    rewrite Eo. by rewrite lookup_delete_ne.
  - apply becomes_parts in HD as (_&_&E&_). destruct (decide (id = j)) as [->|Hne]; [by right; left|left].
    cbn [entries]. rewrite E. cbn. by rewrite lookup_insert_ne.
  - destruct HD as (x&q&_&_&E). apply becomes_parts in E as (_&_&E&_). destruct (decide (id = j)) as [->|Hne]; [by right; left|left].
    cbn [entries]. rewrite E. assert (Eo : offers (s_rent (begun id rentee x q s)) = delete id (offers (s_rent s))) by (unfold begun; by destruct (r_rentee_cf x), (r_rent_fee x)).
    rewrite Eo. by rewrite lookup_delete_ne.
  - destruct HD as (l1&l2&Hl&E). apply becomes_parts in E as (_&_&E&_). destruct Hb as [->|(j&->)]; [left; cbn [entries]; by rewrite E|].
    destruct (decide (id = j)) as [->|Hne].
    + right; right. cbn [entries]. rewrite Hl. unfold nlen. by rewrite map_length.
    + left. cbn [entries]. rewrite E. cbn. by rewrite lookup_insert_ne.
  - destruct HD as (x&_&E). apply becomes_parts in E as (_&_&E&_). destruct (decide (id = j)) as [->|Hne]; [by right; left|left].
    cbn [entries]. rewrite E. cbn. destruct (r_rentee x); [done|]. by rewrite lookup_delete_ne.
  - destruct HD as (x&y&_&_&E). apply becomes_parts in E as (_&_&E&_). left. cbn [entries]. by rewrite E.
Qed.

Lemma trans_cover s w c s' : reachable s -> is_trans_call c -> dispatch (Signed w) c s = (Ok tt, s') ->
  entries B_trans_queue s' = entries B_trans_queue s \/ weight_size s c = Some (nlen (entries B_trans_queue s)).
Proof. intros Hs Hc Hd. destruct (fact_trans_does s w c s' Hs Hc Hd) as [HD _]. destruct c; try done; by right. Qed.

Ltac other_parts :=
  repeat match goal with
         | E : s_auc ?x = s_auc ?y |- _ => rewrite E; clear E
         | E : s_rent ?x = s_rent ?y |- _ => rewrite E; clear E
         | E : s_trans ?x = s_trans ?y |- _ => rewrite E; clear E
         end.
Lemma fact_cover s o c s' b : config_ok -> reachable s -> dispatch o c s = (Ok tt, s') -> entries b s' <> entries b s ->
  undeclared c b \/ weight_size s c = Some (nlen (entries b s)).
Proof.
  intros HC Hs Hd.
  set (Rr := fun t : state => entries b t <> entries b s -> undeclared c b \/ weight_size s c = Some (nlen (entries b s))).
  assert (Hstep : Rr (step s (Extrinsic o c))); [|unfold Rr in Hstep; cbn [step] in Hstep; by rewrite Hd in Hstep].
  assert (Hk : forall t, entries b t = entries b s -> Rr t). { by intros t E H. }
  apply step_cases; try done.
  - by apply Hk.
  - intros c' t Hm He. apply Hk. pose proof (call_kept _ _ _ _ Hm He) as K. unfold kept in K.
    assert (Ec : pallet_of c' <> PNft -> colls (s_nft t) = colls (s_nft s)) by (intros; by eapply call_colls).
    destruct c'; cbn [pallet_of] in K, Ec; try discriminate Hm; try discriminate He.
    all: destruct b; cbn [entries]; destruct_and! K; try (by rewrite Ec by done).
    all: try (other_parts; done).
    all: cbn [exec_call] in He; minv He; rewrite He; first [done|by case_match].
  - intros o' c' t E Hm Hd' He Hne. injection E as <- <-. assert (t = s') as -> by congruence. clear Hd'.
    pose proof (call_kept _ _ _ _ Hm He) as K. unfold kept in K.
    assert (Ec : pallet_of c <> PNft -> colls (s_nft s') = colls (s_nft s)) by (intros; by eapply call_colls).
    assert (Hr : forall w, o = Signed w -> (is_nft_call c -> (exists k, b = B_members k) -> undeclared c b \/ weight_size s c = Some (nlen (entries b s))) /\
      (is_auc_call c -> b = B_deadlines \/ (exists i, b = B_bidders i) -> undeclared c b \/ weight_size s c = Some (nlen (entries b s))) /\
      (is_rent_call c -> b = B_rent_queues \/ (exists i, b = B_offers i) -> undeclared c b \/ weight_size s c = Some (nlen (entries b s))) /\
      (is_trans_call c -> b = B_trans_queue -> undeclared c b \/ weight_size s c = Some (nlen (entries b s)))).
    { intros w ->. split_and!.
      - intros Hc (k&->). destruct (nft_cover s w c s' k Hs Hc Hd) as [?|?]; [done|by right].
      - intros Hc Hb. destruct (auc_cover s w c s' b Hs Hc Hd Hb) as [?|?]; done.
      - intros Hc Hb. destruct (rent_cover s w c s' b HC Hs Hc Hd Hb) as [?|?]; done.
      - intros Hc ->. destruct (trans_cover s w c s' Hs Hc Hd) as [?|?]; [done|by right]. }
    destruct o as [|w|n].
    1,3: exfalso; apply Hne; destruct c; cbn [pallet_of] in K, Ec; try discriminate Hm; try discriminate He;
      destruct b; cbn [entries]; destruct_and! K; try (by rewrite Ec by done);
      try (other_parts; done);
      cbn [exec_call] in He; minv He; rewrite He; first [done|by case_match].
    destruct (Hr w eq_refl) as (H1&H2&H3&H4). clear Hr.
    assert (Hp : pallet_of c = PNft \/ pallet_of c <> PNft) by (destruct (pallet_of c); auto).
    destruct b as [k| |i| |i|]; cbn [entries] in Hne.
    + apply H1; [|eauto]. destruct c; try done; exfalso; apply Hne; by rewrite Ec by done.
    + apply H2; [|eauto]. destruct c; try done; exfalso; apply Hne; cbn [pallet_of] in K; destruct_and! K; congruence.
    + apply H2; [|eauto]. destruct c; try done; exfalso; apply Hne; cbn [pallet_of] in K; destruct_and! K; by match goal with E : s_auc s' = s_auc s |- _ => rewrite E end.
    + apply H3; [|eauto]. destruct c; try done; exfalso; apply Hne; cbn [pallet_of] in K; destruct_and! K; by match goal with E : s_rent s' = s_rent s |- _ => rewrite E end.
    + apply H3; [|eauto]. destruct c; try done; exfalso; apply Hne; cbn [pallet_of] in K; destruct_and! K; by match goal with E : s_rent s' = s_rent s |- _ => rewrite E end.
    + apply H4; [|done]. destruct c; try done; exfalso; apply Hne; cbn [pallet_of] in K; destruct_and! K; congruence.
Qed.
End facts.
