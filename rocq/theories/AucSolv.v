(** The auction account covers all bids and refunds. *)
From Verif Require Export AucInv Pots.
Local Open Scope N_scope.

Definition tot (l : list (N * N)) : N := sum_of (l.*2).
Definition stakes (x : auc_st) : N := msum ((fun a => tot (a_bidders a)) <$> auctions x).
Definition escrow (x : auc_st) : N := stakes x + msum (claims x).

Lemma tot_cons x l : tot (x :: l) = snd x + tot l.
Proof. done. Qed.
Lemma tot_app l k : tot (l ++ k) = tot l + tot k.
Proof. induction l as [|x l IH]; [done|]. cbn [app]. rewrite !tot_cons, IH. lia. Qed.
Lemma tot_del w l : tot l = default 0 (q_get w l) + tot (q_del w l).
Proof.
  induction l as [|[j x] l IH]; [done|]. cbn [q_get q_del fst snd]. destruct (j =? w); cbn [default from_option id]; [done|].
  rewrite !tot_cons, IH. cbn [snd]. lia.
Qed.
Lemma tot_elem w x l : (w, x) ∈ l -> x <= tot l.
Proof.
  induction l as [|y l IH]; [intros ?%elem_of_nil; done|]. rewrite tot_cons. intros [<-|H]%elem_of_cons; cbn [snd]; [lia|].
  specialize (IH H). lia.
Qed.

Section msumf.
Context {A : Type} (f : A -> N).
Implicit Types (m : gmap N A).
Lemma msumf_delete m k v : m !! k = Some v -> msum (f <$> m) = f v + msum (f <$> delete k m).
Proof. intros H. rewrite fmap_delete. apply msum_delete. by rewrite lookup_fmap, H. Qed.
Lemma msumf_insert m k v v' : m !! k = Some v -> msum (f <$> <[k := v']> m) + f v = msum (f <$> m) + f v'.
Proof.
  intros H. rewrite (msumf_delete m k v H), (msumf_delete (<[k := v']> m) k v') by apply lookup_insert.
  rewrite delete_insert_delete. lia.
Qed.
Lemma msumf_new m k v : m !! k = None -> msum (f <$> <[k := v]> m) = f v + msum (f <$> m).
Proof. intros H. rewrite fmap_insert. apply msum_insert. by rewrite lookup_fmap, H. Qed.
End msumf.

Section solv.
Context {C : Config}.

Lemma msum_add m w x : msum (<[w := sadd (default 0 (m !! w)) x]> m) <= msum m + x.
Proof.
  rewrite (msum_lookup m w), (msum_lookup (<[w := _]> m) w), lookup_insert, delete_insert_delete.
  cbn [default from_option id]. unfold sadd. change (from_option id 0 (m !! w)) with (default 0 (m !! w)). lia.
Qed.
Lemma claims_add_sum l m : msum (claims_add l m) <= msum m + tot l.
Proof.
  revert m. induction l as [|[w x] l IH]; intros m; [cbn; lia|]. rewrite claims_add_cons, tot_cons. cbn [fst snd].
  specialize (IH (<[w := sadd (default 0 (m !! w)) x]> m)). pose proof (msum_add m w x). lia.
Qed.

Definition solv (s : state) : Prop := escrow (s_auc s) <= free (s_bal s) auction_pot.

(** Nothing or at least the existential deposit. *)
Definition whole (n : N) : Prop := n = 0 \/ ed <= n.
Lemma whole_add a b : whole a -> whole b -> whole (a + b).
Proof. unfold whole. lia. Qed.
Lemma whole_msum m : (forall k v, m !! k = Some v -> whole v) -> whole (msum m).
Proof.
  induction m as [|k v m Hk IH] using map_ind; intros H; [left; apply msum_empty|].
  rewrite msum_insert by done. apply whole_add.
  - apply (H k). apply lookup_insert.
  - apply IH. intros j x Hx. apply (H j). rewrite lookup_insert_ne; [done|]. congruence.
Qed.
Lemma whole_tot l : (forall w x, (w, x) ∈ l -> whole x) -> whole (tot l).
Proof.
  induction l as [|[w x] l IH]; intros H; [by left|]. rewrite tot_cons. apply whole_add.
  - apply (H w). by left.
  - apply IH. intros v y Hy. apply (H v). by right.
Qed.
Lemma whole_escrow x dl : ed <= auction_ed -> aok x dl -> whole (escrow x).
Proof.
  intros He [H1 _ _ _ _ H6]. apply whole_add; apply whole_msum.
  - intros k v. rewrite lookup_fmap. intros (a&Ha&->)%fmap_Some. apply whole_tot. intros w y Hy.
    destruct (b_each _ (H1 _ _ Ha) _ _ Hy) as (_&?&_). right. lia.
  - intros k v Hv. destruct (H6 _ _ Hv) as [? _]. right. lia.
Qed.

(** Paying out of the account. *)
Lemma pot_pays to amt keep b b' n : transfer_b auction_pot to amt keep b = Ok b' -> whole n ->
  n + amt <= free b auction_pot -> n <= free b' auction_pot.
Proof.
  intros H Hn Hb. destruct Hn as [->|Hn]; [lia|].
  pose proof (transfer_free _ _ _ _ _ _ H) as Hf.
  assert (Hc : keep = true \/ ed <= free b auction_pot - amt \/ free b auction_pot = amt) by lia.
  specialize (Hf Hc auction_pot). unfold at_acc in Hf. rewrite decide_True in Hf by done. destruct (decide _); lia.
Qed.
Lemma pot_pays_paid mo cr se com roy rest keep b b' n : paid_b auction_pot mo cr se com roy rest keep b b' -> whole n ->
  n + com + roy + rest <= free b auction_pot -> n <= free b' auction_pot.
Proof.
  intros (b1&b2&T1&T2&T3) Hn Hb. destruct Hn as [->|Hn]; [lia|].
  apply (pot_pays _ _ _ _ _ (n + roy + rest)) in T1; [|right; lia|lia].
  apply (pot_pays _ _ _ _ _ (n + rest)) in T2; [|right; lia|lia].
  apply (pot_pays _ _ _ _ _ n) in T3; [|by right|lia]. done.
Qed.
Lemma paid_other p v from mo cr se com roy rest keep b b' : from <> p -> paid_b from mo cr se com roy rest keep b b' -> potge p v b -> potge p v b'.
Proof.
  intros Hf (b1&b2&T1&T2&T3) Hb. eapply transfer_potge; [done|exact T3|]. eapply transfer_potge; [done|exact T2|].
  eapply transfer_potge; [done|exact T1|done].
Qed.

(** The shares add up. *)
Lemma shares_sum s i a d f x : pinv s -> aok (s_auc s) (deadlines (s_auc s)) \/ (exists dl, aok (s_auc s) dl) ->
  nfts (s_nft s) !! i = Some d -> auctions (s_auc s) !! i = Some a -> commissions (s_auc s) !! i = Some f ->
  a_start_price a <= x ->
  auc_com f x <= x /\ auc_roy f d x <= x - auc_com f x /\ auc_com f x + auc_roy f d x + auc_rest f d x = x.
Proof.
  intros HP HA Hd Ha Hf Hx.
  assert (Hcv : covers_flat f (a_start_price a) = true) by (destruct HA as [HA|[dl HA]]; by eapply (a_cover _ _ HA)).
  assert (Hc : auc_com f x <= x).
  { unfold auc_com. destruct f as [f|]; [|lia]. apply fee_amount_le; [by apply (p_auc s HP i)|].
    destruct f; cbn in *; [|done]. apply N.leb_le in Hcv. apply N.leb_le. lia. }
  assert (Hr : auc_roy f d x <= x - auc_com f x) by (apply permill_mul_le, (p_nft s HP i d Hd)).
  split_and!; [done|done|]. unfold auc_rest. lia.
Qed.

(** Ending an auction with refunds [l] and payment [paid]. *)
Lemma escrow_done x dl i a l dl2 : aok x dl -> auctions x !! i = Some a -> sublist l (a_bidders a) ->
  escrow (mkAucSt (delete i (auctions x)) (commissions x) dl2 (claims_add l (claims x))) + tot (a_bidders a) <= escrow x + tot l.
Proof.
  intros HA Ha Hl. unfold escrow, stakes. cbn [auctions claims].
  rewrite (msumf_delete (fun a => tot (a_bidders a)) (auctions x) i a Ha). pose proof (claims_add_sum l (claims x)). lia.
Qed.

Lemma solv_call s o c s' : config_ok -> inv1 s -> pinv s -> binv s -> ainv s -> solv s -> action_ok (Extrinsic o c) -> wf_call c = true ->
  is_mandate c = false -> exec_call o c s = (Ok tt, s') -> solv s'.
Proof.
  intros HC HI HP HB HA HS Ho Hw Hm He. pose proof (ainv_call s o c s' HI HA Ho Hw Hm He) as HA'.
  pose proof (whole_escrow _ _ (ok_auction_ed HC) HA') as HW.
  assert (Hap : auction_pot ∈ pots) by (unfold pots; left).
  assert (Hpg : forall v, v <= free (s_bal s) auction_pot -> potge auction_pot v (s_bal s)).
  { intros v Hv. split; [apply HB|done]. }
  unfold solv in *.
  assert (pallet_of c = PAuction \/ pallet_of c <> PAuction) as [Hpal|Hpal] by (destruct (pallet_of c); auto).
  2: { assert (E : s_auc s' = s_auc s).
       { pose proof (call_kept _ _ _ _ Hm He) as Hk. unfold kept in Hk. destruct (pallet_of c) eqn:Ec; try done; destruct_and! Hk; done. }
       rewrite E. apply (pg_call auction_pot (escrow (s_auc s)) o c s s'); [apply HC|done| |done|done|done|exact He|by apply Hpg].
       pose proof (pots_ne (ok_pots HC)) as (N1&N2&N3&_). destruct (pallet_of c); cbn [pot_of]; congruence. }
  destruct c; try discriminate Hpal; clear Hpal Hm; cbn [exec_call] in He; unfold signed in He; destruct o as [who| |]; try done; cbn [action_ok] in Ho.
  all: assert (Hwp : who <> auction_pot) by (intros ->; done).
  - apply create_ok in He as (d&m&Hd&Hw'&Hu&T1&T2&_&_&_&Hp&Hmk&Hcv&Hl&Eb&_&E). rewrite E, Eb. unfold escrow, stakes in *. cbn [auctions claims].
    assert (Ha : auctions (s_auc s) !! id = None).
    { pose proof (i_view s HI id) as V. unfold view_ok in V. rewrite Hd in V. apply v_listed in V.
      destruct Hu as (Hu&_). rewrite Hu in V. symmetry in V. apply orb_false_iff in V as [_ V]. by apply isS_false. }
    rewrite msumf_new by done. cbn [a_bidders tot fmap list_fmap sum_of fold_right]. lia.
  - apply cancel_ok in He as (d&a&_&Ha&_&_&Eb&_&E). rewrite E, Eb. unfold auc_done.
    pose proof (escrow_done _ _ id a (a_bidders a) (q_del id (deadlines (s_auc s))) HA Ha ltac:(done)). lia.
  - apply end_ok in He as (d&a&m&f&w&x&rest&b'&Hd&Ha&_&_&Hb&_&Hf&Hp&Eb&_&E). rewrite Eb.
    assert (Hx : a_start_price a < x).
    { apply (b_each _ (a_books _ _ HA _ _ Ha) w x). rewrite Hb. apply elem_of_app. right. by left. }
    destruct (shares_sum s id a d f x HP (or_introl HA) Hd Ha Hf ltac:(lia)) as (_&_&Es).
    eapply pot_pays_paid; [exact Hp|exact HW|]. rewrite E. unfold auc_done.
    pose proof (escrow_done _ _ id a rest (q_del id (deadlines (s_auc s))) HA Ha ltac:(rewrite Hb; by apply sublist_inserts_r)) as Hes.
    rewrite Hb, tot_app in Hes. replace (tot [(w, x)]) with x in Hes by (unfold tot; cbn; lia). lia.
  - apply bid_ok in He as (a&b'&l&a'&e&Ha&Hc&Hst&Hed&Hl&Hbl&El&HT&Hx&Eb&_&E). rewrite E, Eb in *. clear E Eb.
    apply extend_fields in Hx as (_&_&_&_&E5&_&_&_). cbn [a_bidders set] in E5.
    pose proof (tot_del who (a_bidders a)) as Htd. rewrite <- El in Htd.
    set (old := default 0 (q_get who (a_bidders a))) in *.
    assert (Hold : old <= amount).
    { subst old. destruct (q_get who (a_bidders a)) as [y|] eqn:Eg; [|cbn; lia]. cbn.
      apply q_get_elem in Eg; [|apply (b_uniq _ (a_books _ _ HA _ _ Ha))].
      destruct (last (a_bidders a)) as [hb|] eqn:Ela.
      - apply last_Some in Ela as [l' Ela]. pose proof (b_sorted _ (a_books _ _ HA _ _ Ha)) as Hso. rewrite Ela in Eg, Hso.
        apply elem_of_app in Eg as [Eg|Eg%elem_of_list_singleton]; [|subst hb; cbn in Hl; lia].
        pose proof (blt_last _ _ _ Hso Eg). cbn in *. lia.
      - apply last_None in Ela. rewrite Ela in Eg. by apply elem_of_nil in Eg. }
    assert (Hdel : escrow (mkAucSt (<[id:=a']> (auctions (s_auc s))) (commissions (s_auc s))
              match e with Some e => q_update id e (deadlines (s_auc s)) | None => deadlines (s_auc s) end
              match fst (insert_new_bid who amount l) with Some x => claims_add [x] (claims (s_auc s)) | None => claims (s_auc s) end)
              <= escrow (s_auc s) + (amount - old)).
    { unfold escrow, stakes. cbn [auctions claims].
      pose proof (msumf_insert (fun a => tot (a_bidders a)) (auctions (s_auc s)) id a a' Ha) as Hi. cbv beta in Hi.
      destruct (insert_split who amount l) as (k&_&Es&Hf&_). rewrite E5, Es, tot_app in Hi.
      replace (tot [(who, amount)]) with amount in Hi by (unfold tot; cbn; lia).
      destruct (fst (insert_new_bid who amount l)) as [y|] eqn:Efst.
      - destruct Hf as [Hf|[_ ?]]; [|done]. pose proof (claims_add_sum [y] (claims (s_auc s))) as Hcl.
        replace (tot [y]) with (snd y) in Hcl by (unfold tot; cbn; lia). rewrite Hf, tot_cons in Htd. lia.
      - destruct Hf as [Hf|[_ ?]]; [|done]. subst k. lia. }
    pose proof (transfer_free _ _ _ _ _ _ HT (or_introl eq_refl) auction_pot) as Hfr. unfold at_acc in Hfr.
    rewrite decide_False, decide_True in Hfr by done. lia.
  - apply unbid_ok in He as (a&x&b'&Ha&_&Hg&HT&Eb&_&E). rewrite Eb.
    eapply pot_pays; [exact HT|exact HW|]. rewrite E. unfold escrow, stakes in *. cbn [auctions claims].
    pose proof (msumf_insert (fun a => tot (a_bidders a)) (auctions (s_auc s)) id a (a <| a_bidders ::= q_del who |>) Ha) as Hi. cbv beta in Hi.
    cbn [a_bidders set] in Hi. pose proof (tot_del who (a_bidders a)) as Htd. rewrite Hg in Htd. change (default 0 (Some x)) with x in Htd. lia.
  - apply buy_ok in He as (d&a&m&f&b'&_&Ha&_&_&_&_&_&_&Hp&Eb&_&E). rewrite E, Eb. unfold auc_done.
    pose proof (escrow_done _ _ id a (a_bidders a) (q_del id (deadlines (s_auc s))) HA Ha ltac:(done)) as Hes.
    eapply (paid_other auction_pot) in Hp; [|exact Hwp|apply Hpg; exact HS]. destruct Hp as [_ Hp]. lia.
  - apply claim_ok in He as (x&b'&Hx&HT&Eb&_&E). rewrite Eb. eapply pot_pays; [exact HT|exact HW|].
    rewrite E. unfold escrow, stakes in *. cbn [auctions claims]. rewrite (msum_delete _ _ _ Hx) in HS. lia.
Qed.
End solv.
