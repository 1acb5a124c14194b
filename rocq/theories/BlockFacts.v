(** The start of a block touches only what is due. *)
From Verif Require Export SpecBlock AucFacts RentHook.
Local Open Scope N_scope.

Section block.
Context {C : Config}.

(** ** Single writes *)
Section writes.
Context (s0 : state).
Notation R := (touches_only_due s0).

Ltac same H := destruct H; split; st_cbn; assumption.

Lemma td_emit e : pres R (emit e).
Proof.
  intros t H. destruct H. split; unfold emit, modify; st_cbn; try assumption.
  destruct td_events as [l E]. exists (e :: l). by rewrite E.
Qed.

Lemma td_bal t b : R t -> (forall w, ~ due_party s0 w -> free b w = free (s_bal t) w) -> same_locks (s_bal t) b ->
  R (t <| s_bal := b |>).
Proof.
  intros H Hf [L1 L2]. destruct H. split; st_cbn; try assumption.
  - intros w Hw. rewrite Hf by done. by apply td_free.
  - destruct td_locks. split; congruence.
Qed.
Lemma td_transfer from to amt keep : due_party s0 from -> due_party s0 to -> pres R (transfer from to amt keep).
Proof.
  intros Hf Ht t H. unfold transfer, lift_bal. destruct (transfer_b from to amt keep (s_bal t)) as [b|e] eqn:E; [|done].
  cbn [snd]. apply td_bal; [done| |by eapply transfer_locks].
  intros w Hw. rewrite (transfer_free_other _ _ _ _ _ _ w E) by (intros ->; done).
  unfold at_acc. rewrite decide_False by (intros ->; done). lia.
Qed.

(** [d'] may be what became of NFT [i]. *)
Definition worn (i : N) (d' : nft_data) : Prop := exists d, nfts (s_nft s0) !! i = Some d /\
    d' = d <| owner := owner d' |>
           <| nstate ::= fun st => st <| is_listed := is_listed (nstate d') |> <| is_rented := is_rented (nstate d') |>
                                      <| is_transmission := is_transmission (nstate d') |> |>.
Lemma td_worn t i d : R t -> nfts (s_nft t) !! i = Some d -> worn i d.
Proof.
  intros H Hd. destruct (nfts (s_nft s0) !! i) as [x|] eqn:E.
  - exists x. split; [done|]. by eapply (td_nfts_rest s0 t).
  - apply (td_nfts_dom s0 t H i) in E. congruence.
Qed.
Lemma worn_eq i d d' : worn i d ->
  d' = d <| owner := owner d' |>
           <| nstate ::= fun st => st <| is_listed := is_listed (nstate d') |> <| is_rented := is_rented (nstate d') |>
                                      <| is_transmission := is_transmission (nstate d') |> |> -> worn i d'.
Proof.
  intros (x&Hx&E) E'. exists x. split; [done|]. rewrite E in E'. destruct x as [? ? ? ? ? []], d' as [? ? ? ? ? []]. st_cbn_in E'. st_cbn.
  exact E'.
Qed.
Lemma td_set_nft i d : due_nft s0 i -> worn i d -> pres R (set_nft i d).
Proof.
  intros Hi (x&Hx&Hd) t H. unfold set_nft, mod_nft, modify. cbn [snd]. destruct H. split; st_cbn; try assumption.
  - rewrite td_nft at 1. st_cbn. done.
  - intros j Hj. rewrite lookup_insert_ne by (intros ->; done). by apply td_nfts.
  - intros j. destruct (decide (i = j)) as [->|]; [|rewrite lookup_insert_ne by done; apply td_nfts_dom].
    rewrite lookup_insert, Hx. done.
  - intros j e e' He. destruct (decide (i = j)) as [->|]; [|rewrite lookup_insert_ne by done; by apply td_nfts_rest].
    rewrite lookup_insert. intros [= <-]. congruence.
Qed.
Lemma td_change i w : due_nft s0 i -> pres R (change_nft_ownership i w).
Proof.
  intros Hi. unfold change_nft_ownership, get_nft. apply pres_gets_bind. intros t H.
  destruct (nfts (s_nft t) !! i) as [d|] eqn:Ed; [|done]. unfold unwrap, bind.
  apply td_set_nft; [done| |done]. eapply worn_eq; [by eapply td_worn|]. destruct d as [? ? ? ? ? []]. done.
Qed.

Lemma loses_delete {A} (P : N -> Prop) (m m' : gmap N A) i : P i -> loses P m m' -> loses P m (delete i m').
Proof.
  intros Hi H j. destruct (decide (i = j)) as [->|]; [rewrite lookup_delete; by right|].
  rewrite lookup_delete_ne by done. apply H.
Qed.
Lemma td_del_auction i : due_auction s0 i -> pres R (del_auction i).
Proof.
  intros Hi t H. unfold del_auction, mod_auc, modify. cbn [snd]. destruct H. split; st_cbn; try assumption.
  - rewrite td_auc at 1. st_cbn. done.
  - by apply loses_delete.
Qed.
Lemma td_del_contract i : due_contract s0 i -> pres R (del_contract i).
Proof.
  intros Hi t H. unfold del_contract, mod_rent, modify. cbn [snd]. destruct H. split; st_cbn; try assumption.
  - rewrite td_rent at 1. st_cbn. done.
  - by apply loses_delete.
Qed.
Lemma td_del_trans i : due_transmission s0 i -> pres R (del_trans i).
Proof.
  intros Hi t H. unfold del_trans, mod_trans, modify. cbn [snd]. destruct H. split; st_cbn; try assumption.
  - rewrite td_trans at 1. st_cbn. done.
  - by apply loses_delete.
Qed.
Lemma claims_add_out l m w : w ∉ l.*1 -> claims_add l m !! w = m !! w.
Proof.
  revert m. induction l as [|x l IH]; intros m; [done|]. rewrite claims_add_cons. cbn [fmap list_fmap].
  intros [H1 H2]%not_elem_of_cons. rewrite IH by done. by rewrite lookup_insert_ne.
Qed.
Lemma td_claim_all l : (forall x, x ∈ l -> due_bidder s0 (fst x)) -> pres R (claim_all l).
Proof.
  intros Hl t H. rewrite claim_all_run. cbn [snd]. destruct H. split; st_cbn; try assumption.
  - rewrite td_auc at 1. st_cbn. done.
  - intros w Hw. rewrite claims_add_out; [by apply td_claims|].
    intros ([w' x]&->&Hx)%elem_of_list_fmap. by apply Hw, (Hl _ Hx).
Qed.

(** ** Computations with a result *)
Definition gives {A} (m : M A) (Q : A -> Prop) : Prop :=
  forall t, R t -> R (snd (m t)) /\ forall a, fst (m t) = Ok a -> Q a.
Lemma gives_pres {A} (m : M A) : pres R m -> gives m (fun _ => True).
Proof. intros H t Ht. split; [by apply H|done]. Qed.
Lemma gives_run {A} (m : M A) Q : gives m Q -> pres R m.
Proof. intros H t Ht. by apply H. Qed.
Lemma gives_ret {A} (a : A) (Q : A -> Prop) : Q a -> gives (ret a) Q.
Proof. intros H t Ht. split; [done|]. by intros ? [= <-]. Qed.
Lemma gives_gets {A} (f : state -> A) (Q : A -> Prop) : (forall t, R t -> Q (f t)) -> gives (gets f) Q.
Proof. intros H t Ht. split; [done|]. intros ? [= <-]. by apply H. Qed.
Lemma gives_unwrap {A} (o : option A) e (Q : A -> Prop) : (forall a, o = Some a -> Q a) -> gives (unwrap o e) Q.
Proof. intros H t Ht. unfold unwrap. destruct o; split; try done. intros ? [= <-]. by apply H. Qed.
Lemma gives_bind {A B} (m : M A) (k : A -> M B) Q Q' : gives m Q -> (forall a, Q a -> gives (k a) Q') -> gives (bind m k) Q'.
Proof.
  intros Hm Hk t Ht. destruct (Hm t Ht) as [H1 H2]. unfold bind. destruct (m t) as [[a|e] t1]; [|done].
  apply Hk; [by apply H2|done].
Qed.
Lemma gives_pres_bind {A B} (m : M A) (k : A -> M B) Q : gives m Q -> (forall a, Q a -> pres R (k a)) -> pres R (bind m k).
Proof. intros Hm Hk. apply (gives_run _ (fun _ => True)). eapply gives_bind; [exact Hm|]. intros a Ha. by apply gives_pres, Hk. Qed.

Lemma loses_some {A} (P : N -> Prop) (m m' : gmap N A) i a : loses P m m' -> m' !! i = Some a -> m !! i = Some a.
Proof. intros H Ha. destruct (H i) as [E|[_ E]]; congruence. Qed.
Lemma gives_auction i : gives (get_auction i) (fun o => forall a, o = Some a -> auctions (s_auc s0) !! i = Some a).
Proof. apply gives_gets. intros t H a. apply loses_some with (P := due_auction s0). apply H. Qed.
Lemma gives_contract i : gives (get_contract i) (fun o => forall a, o = Some a -> contracts (s_rent s0) !! i = Some a).
Proof. apply gives_gets. intros t H a. apply loses_some with (P := due_contract s0). apply H. Qed.
Lemma gives_nft i : gives (get_nft i) (fun o => forall d, o = Some d -> worn i d).
Proof. apply gives_gets. intros t H d. by eapply td_worn. Qed.
Lemma gives_mkt i : gives (get_mkt i) (fun o => o = mkts (s_mkt s0) !! i).
Proof. apply gives_gets. intros t H. destruct (td_rest s0 t H) as (_&->&_). done. Qed.

(** ** Auctions *)
Lemma td_pay i from p d a : due_party s0 from ->
  (forall m, mkts (s_mkt s0) !! a_mkt a = Some m -> due_party s0 (m_owner m) /\ due_party s0 (creator d) /\ due_party s0 (a_creator a)) ->
  pres R (pay_for_nft i from p d a).
Proof.
  intros Hf Hp. unfold pay_for_nft. eapply gives_pres_bind; [apply gives_mkt|]. intros om ->.
  eapply gives_pres_bind; [apply gives_unwrap; intros m Hm; exact (Hp m Hm)|]. intros m (P1&P2&P3).
  apply pres_bind; [apply pres_gets|]. intros oc. apply pres_bind; [apply pres_unwrap|]. intros c. cbv zeta.
  apply pres_bind; [by apply td_transfer|]. intros _. apply pres_bind; [by apply td_transfer|]. intros _.
  apply pres_bind; [by apply td_transfer|]. intros _. apply pres_ret.
Qed.
Lemma td_finish_auction i d : due_auction s0 i -> worn i d -> pres R (finish_auction i d).
Proof.
  intros Hi Hd. unfold finish_auction. apply pres_bind; [|intros _; by apply td_del_auction].
  apply td_set_nft; [by left|]. eapply worn_eq; [exact Hd|]. destruct d as [? ? ? ? ? []]. done.
Qed.
Lemma td_settle_one i : due_auction s0 i -> pres R (settle_one i).
Proof.
  intros Hi. unfold settle_one. eapply gives_pres_bind; [apply gives_auction|]. intros [a|] Ha; [|apply pres_ret].
  specialize (Ha a eq_refl). eapply gives_pres_bind; [apply gives_nft|]. intros [d|] Hd; [|apply pres_ret].
  specialize (Hd d eq_refl). destruct (pop_highest (a_bidders a)) as [[[w p] rest]|] eqn:Ep.
  - assert (Hb : a_bidders a = rest ++ [(w, p)]).
    { unfold pop_highest in Ep. destruct (last (a_bidders a)) as [y|] eqn:El; [|done]. injection Ep as -> <-.
      apply last_Some in El as [l' ->]. f_equal. rewrite app_length. cbn [length]. symmetry. apply take_app_alt. lia. }
    assert (Hne : a_bidders a <> []) by (rewrite Hb; by destruct rest).
    destruct Hd as (x&Hx&Hd).
    assert (Hm : forall m v, mkts (s_mkt s0) !! a_mkt a = Some m ->
      (v = auction_pot \/ v = a_creator a \/ v = creator x \/ v = m_owner m) -> due_party s0 v).
    { intros m v Hm Hv. left. exists i, a, x, m. split_and!; done. }
    destruct (mkts (s_mkt s0) !! a_mkt a) as [m|] eqn:Em.
    2: { eapply gives_pres_bind with (Q := fun r => exists e, r = Err e).
         - intros t H. destruct (td_rest s0 t H) as (_&Emk&_).
           assert (exists e, catch (pay_for_nft i auction_pot p d (a <| a_bidders := rest |>)) t = (Ok (Err e), t)) as [e ->].
           { unfold catch, pay_for_nft, get_mkt, bind, gets, unwrap. st_cbn. rewrite Emk, Em. eauto. }
           split; [done|]. intros r [= <-]. eauto.
         - intros r [e ->]. apply pres_ret. }
    apply pres_bind.
    { apply pres_catch, td_pay; [apply (Hm m); [done|]; left; done|]. intros m' Hm'. cbn [a_mkt] in Hm'. st_cbn_in Hm'. rewrite Em in Hm'. injection Hm' as <-. st_cbn.
      assert (creator d = creator x) as -> by (rewrite Hd; done).
      split_and!; (apply (Hm m); [done|tauto]). }
    intros [cut|e]; [|apply pres_ret]. apply pres_bind.
    { apply td_claim_all. intros [v q] Hv. exists i, a, q. split_and!; [done..|]. rewrite Hb. apply elem_of_app. by left. }
    intros _. apply pres_bind; [destruct cut as [[? ?] ?]; apply td_emit|]. intros _.
    apply pres_bind; [|intros _; apply pres_ret]. apply td_finish_auction; [done|].
    eapply worn_eq; [exists x; split; [done|exact Hd]|]. destruct d as [? ? ? ? ? []]. done.
  - apply pres_bind; [unfold emit_completed; apply td_emit|]. intros _.
    apply pres_bind; [|intros _; apply pres_ret]. by apply td_finish_auction.
Qed.

Notation now := (s_now s0 + 1).
Lemma advanced_refl n q : advanced n q q.
Proof. exists []. split; [done|]. by intros ? ? ?%elem_of_nil. Qed.
Lemma advanced_trans n q1 q2 q3 : advanced n q1 q2 -> advanced n q2 q3 -> advanced n q1 q3.
Proof.
  intros (l1&->&H1) (l2&->&H2). exists (l1 ++ l2). split; [by rewrite app_assoc|].
  intros i b [H|H]%elem_of_app; eauto.
Qed.
Lemma advanced_pop n q i q' : q_pop n q = Some (i, q') -> advanced n q q' /\ exists b, (i, b) ∈ q /\ b <= n.
Proof.
  intros (b&->&Hb)%q_pop_some. split; [|exists b; split; [left|done]]. exists [(i, b)]. split; [done|].
  by intros j x [= -> ->]%elem_of_list_singleton.
Qed.
Lemma advanced_in n q q' x : advanced n q q' -> x ∈ q' -> x ∈ q.
Proof. intros (l&->&_) H. apply elem_of_app. by right. Qed.

Lemma td_auction_loop fuel dl acts : (forall i b, (i, b) ∈ dl -> b <= now -> due_auction s0 i) ->
  gives (auction_loop fuel now dl acts) (fun dl' => advanced now dl dl').
Proof.
  revert dl acts. induction fuel as [|f IH]; intros dl acts Hdl; [apply gives_ret, advanced_refl|].
  cbn [auction_loop]. destruct (q_pop now dl) as [[i dl']|] eqn:Eq; [|apply gives_ret, advanced_refl].
  destruct (advanced_pop _ _ _ _ Eq) as (Ha&b&Hb&Hle).
  eapply gives_bind; [apply gives_pres, td_settle_one; eauto|]. intros r _.
  destruct (_ && _); [by apply gives_ret|]. intros t Ht.
  destruct (IH dl' (if r : bool then acts + 1 else acts)) with (t := t) as [H1 H2]; [|done|].
  - intros j x Hj. eapply Hdl. by eapply advanced_in.
  - split; [done|]. intros q Hq. eapply advanced_trans; [exact Ha|]. by apply H2.
Qed.
Lemma td_auction_hook : pres R auction_on_initialize.
Proof.
  unfold auction_on_initialize. eapply (gives_pres_bind _ _ (fun n => n = now)); [apply gives_gets; intros t H; exact (td_now s0 t H)|].
  intros n ->. eapply (gives_pres_bind _ _ (advanced now (deadlines (s_auc s0)))); [apply gives_gets; intros t H|].
  { pose proof (td_deadlines s0 t H) as Hd. rewrite (td_now s0 t H) in Hd. exact Hd. }
  intros dl Hdl. cbv beta in Hdl. eapply gives_pres_bind; [apply td_auction_loop|].
  { intros i b Hi Hb. exists b. split; [|done]. by eapply advanced_in. }
  intros dl' Hdl'. apply pres_modify. intros t H. assert (Ha := advanced_trans _ _ _ _ Hdl Hdl'). clear Hdl Hdl'.
  destruct H. split; st_cbn; try assumption.
  - rewrite td_auc at 1. st_cbn. done.
  - by rewrite td_now.
Qed.

(** ** Rent contracts *)
Lemma td_handle_finished i : due_contract s0 i -> pres R (handle_finished i).
Proof.
  intros Hi. unfold handle_finished. eapply gives_pres_bind; [apply gives_contract|]. intros oc Hc.
  eapply gives_pres_bind; [apply gives_unwrap; exact Hc|]. clear oc Hc. intros c Hc.
  eapply gives_pres_bind; [apply gives_nft|]. intros od Hd.
  eapply gives_pres_bind; [apply gives_unwrap; exact Hd|]. clear od Hd. intros d Hd.
  assert (Hp : forall w, w = rent_pot \/ w = r_renter c \/ r_rentee c = Some w -> due_party s0 w).
  { intros w Hw. right. exists i, c. done. }
  assert (Hs : forall j, secures c j -> due_nft s0 j). { intros j Hj. right; right; right. exists i, c. done. }
  apply pres_bind; [apply td_transfer; apply Hp; tauto|]. intros _.
  apply pres_bind.
  { destruct (r_rentee c) as [r|] eqn:Er; [|apply pres_ret]. cbn [on_some]. apply td_transfer; apply Hp; tauto. }
  intros _. apply pres_bind.
  { destruct (r_renter_cf c) as [j| | |] eqn:Ef; cbn [on_some cf_nft]; try apply pres_ret. apply td_change, Hs. left. done. }
  intros _. apply pres_bind.
  { destruct (r_rentee c) as [r|] eqn:Er; [|apply pres_ret]. cbn [on_some].
    destruct (r_rentee_cf c) as [j| | |] eqn:Ef; cbn [on_some cf_nft]; try apply pres_ret. apply td_change, Hs. right.
    rewrite Er. done. }
  intros _. apply pres_bind; [|intros _; by apply td_del_contract].
  apply td_set_nft; [by right; right; left|]. eapply worn_eq; [exact Hd|]. destruct d as [? ? ? ? ? []]. done.
Qed.
Lemma gives_subscription i n : due_contract s0 i -> gives (handle_subscription i n)
  (fun r => forall b, r = Some b -> exists c, contracts (s_rent s0) !! i = Some c /\ b = n + period_of (r_duration c)).
Proof.
  intros Hi. unfold handle_subscription. eapply gives_bind; [apply gives_contract|].
  intros [c|] Hc; [|by apply gives_ret]. specialize (Hc c eq_refl).
  destruct (r_rentee c) as [r|] eqn:Er; [|by apply gives_ret].
  destruct (rf_tokens (r_rent_fee c)) as [fee|]; [|by apply gives_ret].
  destruct (_ || _); [by apply gives_ret|]. eapply gives_bind; [apply gives_pres, pres_catch, td_transfer|].
  - right. exists i, c. tauto.
  - right. exists i, c. tauto.
  - intros [v|e] _; [|by apply gives_ret]. apply gives_ret. intros b [= <-]. exists c. split; [done|].
    by destruct (r_duration c).
Qed.
Lemma td_finish_loop ev fuel q acts : (forall i b, (i, b) ∈ q -> b <= now -> due_contract s0 i) ->
  gives (finish_loop ev fuel now q acts) (fun r => advanced now q (fst r)).
Proof.
  revert q acts. induction fuel as [|f IH]; intros q acts Hq; [apply gives_ret, advanced_refl|].
  cbn [finish_loop]. destruct (q_pop now q) as [[i q']|] eqn:Eq; [|apply gives_ret, advanced_refl].
  destruct (advanced_pop _ _ _ _ Eq) as (Ha&b&Hb&Hle).
  eapply gives_bind; [apply gives_pres, pres_attempt, td_handle_finished; eauto|]. intros _ _.
  eapply gives_bind; [apply gives_pres, td_emit|]. intros _ _.
  destruct (_ <=? _); [by apply gives_ret|]. intros t Ht.
  destruct (IH q' (acts + 1)) with (t := t) as [H1 H2]; [|done|].
  - intros j x Hj. eapply Hq. by eapply advanced_in.
  - split; [done|]. intros r Hr. eapply advanced_trans; [exact Ha|]. by apply H2.
Qed.
(** What the subscription queue may become. *)
Definition sub_ok (q : list (N * N)) : Prop :=
  (forall i b, (i, b) ∈ q_sub (queues (s_rent s0)) -> now < b -> (i, b) ∈ q) /\
  (forall i b, (i, b) ∈ q -> (i, b) ∈ q_sub (queues (s_rent s0)) \/
     exists c, due_contract s0 i /\ contracts (s_rent s0) !! i = Some c /\ b = now + period_of (r_duration c)).
Lemma td_sub_loop fuel q acts : sub_ok q ->
  gives (subscription_loop fuel now q acts) (fun r => sub_ok (fst r)).
Proof.
  revert q acts. induction fuel as [|f IH]; intros q acts Hq; [by apply gives_ret|].
  cbn [subscription_loop]. destruct (q_pop now q) as [[i q']|] eqn:Eq; [|by apply gives_ret].
  apply q_pop_some in Eq as (b&->&Hle).
  assert (Hi : due_contract s0 i).
  { destruct Hq as [_ Hq]. destruct (Hq i b ltac:(left)) as [H|(c&H&_)]; [|done]. exists b. split; [by right; left|done]. }
  assert (Hq' : sub_ok q').
  { destruct Hq as [H1 H2]. split.
    - intros j x Hj Hx. specialize (H1 j x Hj Hx). apply elem_of_cons in H1 as [[= -> ->]|H1]; [lia|done].
    - intros j x Hj. apply H2. by right. }
  eapply gives_bind; [by apply gives_subscription|]. intros r Hr.
  eapply (gives_bind _ _ sub_ok).
  { destruct r as [x|].
    - eapply gives_bind; [apply gives_pres, td_emit|]. intros _ _. apply gives_ret.
      destruct (q_insert rent_limit i x q') as [q2|] eqn:Ei; [|done]. apply q_insert_some in Ei as [_ ->]. cbn [from_option id default].
      destruct (Hr x eq_refl) as (c&Hc&->). destruct Hq' as [H1 H2]. split.
      + intros j y Hj Hy. apply q_ins_elem. right. by apply H1.
      + intros j y [[= -> ->]|Hj]%q_ins_elem; [|by apply H2]. right. exists c. done.
    - eapply gives_bind; [by apply gives_pres, pres_attempt, td_handle_finished|]. intros _ _.
      eapply gives_bind; [apply gives_pres, td_emit|]. intros _ _. by apply gives_ret. }
  intros q2 Hq2. destruct (_ <=? _); [by apply gives_ret|]. by apply IH.
Qed.
Lemma td_rent_hook : pres R rent_on_initialize.
Proof.
  unfold rent_on_initialize. eapply (gives_pres_bind _ _ (fun n => n = now)); [apply gives_gets; intros t H; exact (td_now s0 t H)|].
  intros n ->. eapply gives_pres_bind.
  { apply (gives_gets _ (fun q => advanced now (q_fixed (queues (s_rent s0))) (q_fixed q) /\
      advanced now (q_avail (queues (s_rent s0))) (q_avail q) /\ sub_ok (q_sub q))).
    intros t H. destruct H. rewrite td_now in *. split_and!; try done. }
  intros q (Q1&Q3&Q2).
  eapply gives_pres_bind; [apply td_finish_loop|].
  { intros i b Hi Hb. exists b. split; [|done]. left. by eapply advanced_in. }
  intros r1 H1. eapply gives_pres_bind; [by apply td_sub_loop|].
  intros r2 H2. eapply gives_pres_bind; [apply td_finish_loop|].
  { intros i b Hi Hb. exists b. split; [|done]. right; right. by eapply advanced_in. }
  intros r3 H3. apply pres_when, pres_modify. intros t H.
  assert (A1 := advanced_trans _ _ _ _ Q1 H1). assert (A3 := advanced_trans _ _ _ _ Q3 H3). clear Q1 Q3 H1 H3 Q2.
  destruct H, H2. split; st_cbn; try assumption; rewrite ?td_now; try done.
  rewrite td_rent at 1. st_cbn. done.
Qed.

(** ** Transmissions *)
Lemma td_transmit i : due_transmission s0 i -> pres R (transmit_nft i).
Proof.
  intros Hi. unfold transmit_nft, get_trans. apply pres_bind; [apply pres_gets|]. intros ot.
  apply pres_bind; [apply pres_unwrap|]. intros tr.
  eapply gives_pres_bind; [apply gives_nft|]. intros od Hd.
  eapply gives_pres_bind; [apply gives_unwrap; exact Hd|]. clear od Hd. intros d Hd.
  apply pres_bind; [|intros _; by apply td_del_trans].
  apply td_set_nft; [by right; left|]. eapply worn_eq; [exact Hd|]. destruct d as [? ? ? ? ? []]. done.
Qed.
Lemma td_trans_loop fuel q acts : (forall i b, (i, b) ∈ q -> b <= now -> due_transmission s0 i) ->
  gives (trans_loop fuel now q acts) (fun r => advanced now q (fst r)).
Proof.
  revert q acts. induction fuel as [|f IH]; intros q acts Hq; [apply gives_ret, advanced_refl|].
  cbn [trans_loop]. destruct (q_pop now q) as [[i q']|] eqn:Eq; [|apply gives_ret, advanced_refl].
  destruct (advanced_pop _ _ _ _ Eq) as (Ha&b&Hb&Hle).
  eapply gives_bind; [apply gives_pres, pres_catch, td_transmit; eauto|]. intros r _.
  eapply (gives_bind _ _ (fun _ => True)).
  { apply gives_pres. destruct r; (apply pres_bind; [apply td_emit|intros _; apply pres_ret]). }
  intros acts' _. destruct (_ <=? _); [by apply gives_ret|]. intros t Ht.
  destruct (IH q' acts') with (t := t) as [H1 H2]; [|done|].
  - intros j x Hj. eapply Hq. by eapply advanced_in.
  - split; [done|]. intros r' Hr. eapply advanced_trans; [exact Ha|]. by apply H2.
Qed.
Lemma td_trans_hook : pres R trans_on_initialize.
Proof.
  unfold trans_on_initialize. eapply (gives_pres_bind _ _ (fun n => n = now)); [apply gives_gets; intros t H; exact (td_now s0 t H)|].
  intros n ->. eapply (gives_pres_bind _ _ (advanced now (t_queue (s_trans s0)))); [apply gives_gets; intros t H|].
  { pose proof (td_t_queue s0 t H) as Hd. rewrite (td_now s0 t H) in Hd. exact Hd. }
  intros q Hq. cbv beta in Hq. eapply gives_pres_bind; [apply td_trans_loop|].
  { intros i b Hi Hb. exists b. split; [|done]. by eapply advanced_in. }
  intros r Hr. apply pres_when, pres_modify. intros t H. assert (Ha := advanced_trans _ _ _ _ Hq Hr). clear Hq Hr.
  destruct H. split; st_cbn; try assumption.
  - rewrite td_trans at 1. st_cbn. done.
  - by rewrite td_now.
Qed.

(** ** Old eras *)
Lemma filter_keeps {A} (era : N) (m : gmap (N * N) A) e w : e <> era ->
  filter (fun kv => fst (fst kv) <> era) m !! (e, w) = m !! (e, w).
Proof.
  intros H. apply option_eq. intros v. rewrite map_filter_lookup_Some. split; [by intros []|]. intros Hv. by split.
Qed.
Lemma td_tee_hook : pres R tee_on_initialize.
Proof.
  unfold tee_on_initialize. apply pres_bind; [apply pres_gets|]. intros n.
  eapply (gives_pres_bind _ _ (fun e => e = s_era s0)); [apply gives_gets; intros t H; apply H|]. intros oe He.
  destruct oe as [e|]; [|apply td_emit]. destruct (history_depth <=? e) eqn:El; [|apply pres_ret]. cbn [when].
  apply N.leb_le in El. apply pres_modify. intros t H. destruct H. split; st_cbn; try assumption.
  - rewrite td_tee at 1. st_cbn. done.
  - intros x w Hx. rewrite filter_keeps; [by apply td_claimed|]. intros ->. apply Hx.
    unfold expired_era. rewrite <- He. f_equal. lia.
  - intros x w Hx. rewrite filter_keeps; [by apply td_reports|]. intros ->. apply Hx.
    unfold expired_era. rewrite <- He. f_equal. lia.
Qed.
End writes.

Lemma td_start s : touches_only_due s (s <| s_now ::= fun n => n + 1 |>).
Proof.
  split; st_cbn; try done; try (by destruct s as [????? [] [] [] [] ???]); try (intros i; by left); try apply advanced_refl.
  - by destruct s as [??? [] ????????].
  - intros i d d' -> [= <-]. destruct d as [? ? ? ? ? []]. done.
  - by exists [].
Qed.
Lemma block_only_due s : touches_only_due s (next_block s).
Proof.
  unfold next_block, run_hooks.
  assert (H : forall l t, touches_only_due s t -> touches_only_due s (fold_left (fun s h => snd (run_hook h s)) l t)).
  { induction l as [|h l IH]; intros t H; [done|]. cbn [fold_left]. apply IH.
    destruct h; cbn [run_hook]; [by apply td_auction_hook|by apply td_rent_hook|by apply td_trans_hook|by apply td_tee_hook]. }
  apply H, td_start.
Qed.

(** A block in which nothing is due. *)
Lemma q_pop_quiet now q : (forall i b, (i, b) ∈ q -> now < b) -> q_pop now q = None.
Proof.
  destruct q as [|[i b] q]; [done|]. intros H. cbn. destruct (_ <=? _) eqn:E; [|done]. apply N.leb_le in E.
  specialize (H i b ltac:(left)). lia.
Qed.
Lemma filter_quiet {A} (era : N) (m : gmap (N * N) A) : (forall w, m !! (era, w) = None) ->
  filter (fun kv => fst (fst kv) <> era) m = m.
Proof.
  intros H. apply map_eq. intros [e w]. destruct (decide (e = era)) as [->|]; [|by apply filter_keeps].
  rewrite H. apply map_filter_lookup_None. by left.
Qed.
Lemma quiet_block s : nothing_due s -> next_block s = s <| s_now ::= fun n => n + 1 |>.
Proof.
  intros (Ha&Ht&Hr&He&Hc). unfold next_block, run_hooks.
  assert (Hh : forall h, snd (run_hook h (s <| s_now ::= fun n => n + 1 |>)) = s <| s_now ::= fun n => n + 1 |>).
  { assert (Qa : q_pop (s_now s + 1) (deadlines (s_auc s)) = None).
    { apply q_pop_quiet. intros i b H. destruct (N.lt_ge_cases (s_now s + 1) b) as [?|H']; [done|]. exfalso. apply (Ha i). by exists b. }
    assert (Qt : q_pop (s_now s + 1) (t_queue (s_trans s)) = None).
    { apply q_pop_quiet. intros i b H. destruct (N.lt_ge_cases (s_now s + 1) b) as [?|H']; [done|]. exfalso. apply (Ht i). by exists b. }
    assert (Qr : forall f, f = q_fixed \/ f = q_sub \/ f = q_avail -> q_pop (s_now s + 1) (f (queues (s_rent s))) = None).
    { intros f Hf. apply q_pop_quiet. intros i b H. destruct (N.lt_ge_cases (s_now s + 1) b) as [?|H']; [done|]. exfalso. apply (Hr i).
      exists b. split; [|done]. unfold scheduled. destruct Hf as [->|[->| ->]]; tauto. }
    pose proof (Qr q_fixed ltac:(tauto)) as Q1. pose proof (Qr q_sub ltac:(tauto)) as Q2. pose proof (Qr q_avail ltac:(tauto)) as Q3. clear Qr.
    intros [| | |]; cbn [run_hook].
    - unfold auction_on_initialize, bind, gets. st_cbn.
      assert (forall f k t, auction_loop f (s_now s + 1) (deadlines (s_auc s)) k t = (Ok (deadlines (s_auc s)), t)) as ->.
      { intros [|f] k t; [done|]. cbn [auction_loop]. by rewrite Qa. }
      unfold mod_auc, modify. cbn [snd]. destruct s as [????? [] ??????]. done.
    - unfold rent_on_initialize, bind, gets. st_cbn.
      assert (F : forall ev f q k t, q_pop (s_now s + 1) q = None -> finish_loop ev f (s_now s + 1) q k t = (Ok (q, k), t)).
      { intros ev [|f] q k t H; [done|]. cbn [finish_loop]. by rewrite H. }
      rewrite F by done. cbn [subscription_loop]. rewrite Q2. unfold ret at 1. cbn [fst snd]. rewrite F by done. done.
    - unfold trans_on_initialize, bind, gets. st_cbn.
      assert (forall f k t, trans_loop f (s_now s + 1) (t_queue (s_trans s)) k t = (Ok (t_queue (s_trans s), k), t)) as ->.
      { intros [|f] k t; [done|]. cbn [trans_loop]. by rewrite Qt. }
      done.
    - unfold tee_on_initialize, bind, gets. st_cbn. destruct (s_era s) as [e|] eqn:Ee; [|done].
      destruct (history_depth <=? e) eqn:El; [|done]. apply N.leb_le in El. cbn [when].
      unfold clear_old_era, mod_tee, modify. cbn [snd].
      assert (X : expired_era s (e - history_depth)) by (unfold expired_era; rewrite Ee; f_equal; lia).
      pose proof (filter_quiet (e - history_depth) (claimed (s_tee s)) (fun w => proj1 (Hc _ w X))) as F1.
      pose proof (filter_quiet (e - history_depth) (reports (s_tee s)) (fun w => proj2 (Hc _ w X))) as F2.
      destruct s as [???????? [] ???]. st_cbn. st_cbn_in F1. st_cbn_in F2. unfold set. cbn -[filter]. cbn -[filter] in F1, F2. by rewrite F1, F2. }
  induction hook_order as [|h l IH]; [done|]. cbn [fold_left]. by rewrite Hh.
Qed.
End block.
