(** Fees, transfers, listing and buying, in the form of the property theorems. *)
From Verif Require Export NftFacts Bal.
Local Open Scope N_scope.

Section facts2.
Context {C : Config}.

(** Two-state facts about root calls, mandates included. *)
Lemma root_rel (R : state -> state -> Prop) :
  (forall s, R s s) -> (forall s s' ev, R s s' -> R s (s' <| s_events ::= cons ev |>)) ->
  (forall c s s', is_mandate c = false -> exec_call Root c s = (Ok tt, s') -> R s s') ->
  forall c s s', exec_call Root c s = (Ok tt, s') -> R s s'.
Proof.
  intros Hr He Hc c. induction c; intros s s' H; try (by eapply Hc in H).
  cbn [exec_call] in H. unfold external in H. destruct (external_ok Root); [|done].
  apply bind_catch in H as (r & s1 & He1 & He2).
  destruct (transactional_cases (exec_call Root c) s) as [(s2&Hok&Ht)|(e&s2&_&Ht)];
    rewrite Ht in He1; injection He1 as <- <-; apply modify_ok in He2; subst s'; [|auto]. apply He. auto.
Qed.
Lemma mandate_rel (R : state -> state -> Prop) :
  (forall s, R s s) -> (forall s s' ev, R s s' -> R s (s' <| s_events ::= cons ev |>)) ->
  (forall c s s', is_mandate c = false -> exec_call Root c s = (Ok tt, s') -> R s s') ->
  forall o c s s', exec_call o (C_mandate c) s = (Ok tt, s') -> R s s'.
Proof.
  intros Hr He Hc o c s s' H. cbn [exec_call] in H. unfold external in H. destruct (external_ok o); [|done].
  apply bind_catch in H as (r & s1 & He1 & He2).
  destruct (transactional_cases (exec_call Root c) s) as [(s2&Hok&Ht)|(e&s2&_&Ht)];
    rewrite Ht in He1; injection He1 as <- <-; apply modify_ok in He2; subst s'; [|auto]. apply He. by eapply root_rel.
Qed.

(** Cases of one step. *)
Lemma step_cases (R : state -> Prop) s a :
  R s -> (forall ev t, R t -> R (t <| s_events ::= cons ev |>)) ->
  (forall c s', is_mandate c = false -> exec_call Root c s = (Ok tt, s') -> R s') ->
  (forall o c s', a = Extrinsic o c -> is_mandate c = false -> dispatch o c s = (Ok tt, s') -> exec_call o c s = (Ok tt, s') -> R s') ->
  (a = NextBlock -> R (next_block s)) ->
  (forall e s', a = Env e -> run_env e s = (Ok tt, s') -> R s') ->
  R (step s a).
Proof.
  intros Hr Hev Hroot Hcall Hblock Henv. destruct a as [o c| |e]; cbn [step].
  - destruct (dispatch_cases o c s) as [(s'&Hw&He&Hd)|[e Hd]]; rewrite Hd; cbn [snd]; [|done].
    destruct (is_mandate c) eqn:Hm; [|by eapply Hcall].
    destruct c; try discriminate Hm.
    assert (H : forall s s0, R s -> s = s0 -> R s0) by (by intros ?? ? ->).
    eapply (mandate_rel (fun x y => x = s -> R y)); [| | |exact He|done].
    + by intros ? ->.
    + intros x y ev H1 H2. auto.
    + intros c' x y Hm' Hc' ->. eauto.
  - by apply Hblock.
  - destruct (transactional_cases (run_env e) s) as [(s2&Hok&->)|(x&s2&_&->)]; [|done]. by eapply Henv.
Qed.

Lemma next_block_keeps {A} (f : state -> A) s :
  (forall x, f (x <| s_now ::= fun n => n + 1 |>) = f x) -> (forall x h, f (snd (run_hook h x)) = f x) ->
  f (next_block s) = f s.
Proof.
  intros H1 H2. unfold next_block. rewrite <- (H1 s). generalize (s <| s_now ::= fun n => n + 1 |>) as t.
  assert (H : forall l t, f (fold_left (fun x h => snd (run_hook h x)) l t) = f t).
  { induction l as [|h l IH]; intros t; [done|]. cbn [fold_left]. rewrite IH. apply H2. }
  intros t. apply H.
Qed.

(** ** Fees *)

Lemma pay_fee_effect who amt b b' : bsum b 0 -> pay_fee_b who amt b = Ok b' ->
  bsum b' 0 /\
  (forall a, fees_collector <> Some a -> free b' a + at_acc who a amt = free b a) /\
  (forall k, fees_collector = Some k -> free b k <> 0 \/ ed <= amt ->
     free b' k + at_acc who k amt = free b k + amt) /\
  (free b who <> 0 -> ed <= free b' who) /\
  (fees_collector = None -> issuance b' + amt = issuance b).
Proof.
  intros Hb H. split; [by eapply pay_fee_bsum|]. unfold pay_fee_b in H.
  destruct (withdraw_b who amt true b) as [b1|] eqn:Ew; [|done]. injection H as <-.
  pose proof (withdraw_bsum _ _ _ _ _ _ Hb Ew) as Hb1. cbn in Hb1.
  pose proof (fun a => withdraw_free _ _ _ _ _ _ a Hb Ew (or_introl eq_refl)) as Hf.
  assert (Hal : free b who <> 0 -> ed <= free b1 who).
  { intros Hne. destruct (N.eq_dec amt 0) as [->|Hz]; [|by apply (withdraw_alive who amt b b1 0)].
    specialize (Hf who). unfold at_acc in Hf. rewrite decide_True in Hf by done.
    destruct (bsum_ed b 0 who Hb); [done|lia]. }
  assert (Hmono : forall a, free b1 a <= free (collect_b amt b1) a).
  { intros a. unfold collect_b. destruct fees_collector as [k|]; [|done]. unfold resolve_creating_b, deposit_creating_b.
    destruct (_ =? _); [done|]. destruct (_ && _); [done|]. destruct (_ <? _); [done|].
    change (free b1 a <= free (set_free k (free b1 k + amt) b1) a). rewrite free_set_free.
    destruct (decide (a = k)) as [->|]; [|lia]. destruct (free b1 k + amt <? ed) eqn:E; [|lia]. apply N.ltb_lt in E.
    destruct (bsum_ed b1 _ k Hb1); lia. }
  split_and!.
  - intros a Ha. rewrite <- (Hf a). f_equal. unfold collect_b. destruct fees_collector as [k|]; [|done].
    assert (a <> k) by congruence. unfold resolve_creating_b, deposit_creating_b.
    destruct (_ =? _); [done|]. destruct (_ && _); [done|]. destruct (_ <? _); [done|].
    change (free (set_free k (free b1 k + amt) b1) a = free b1 a). by rewrite free_set_free, decide_False.
  - intros k Hk Hor. unfold collect_b. rewrite Hk. unfold resolve_creating_b.
    destruct (deposit_free k amt b1 k) as [Hd1 Hd2].
    + intros Hno. destruct Hor as [Hor|]; [|done]. exfalso.
      assert (free b1 k = 0) as Hz by (unfold free; by rewrite Hno).
      specialize (Hf k). unfold at_acc in Hf. destruct (decide (k = who)) as [->|]; [|lia].
      destruct (bsum_ed b 0 who Hb); [done|]. pose proof (Hal Hor).
      destruct (N.eq_dec ed 0) as [E|]; [|lia]. rewrite Hz in *.
      (* existential deposit zero: the withdrawal never removes the entry *)
      destruct (N.eq_dec amt 0) as [->|Hza]; [lia|]. clear - Hno Ew E Hza Hor.
      unfold withdraw_b in Ew. rewrite (proj2 (N.eqb_neq _ _) Hza) in Ew. destruct (free b who <? amt); [done|]. cbv zeta in Ew.
      destruct (_ && _ && _); [done|]. destruct (_ <? frozen _ _); [done|]. destruct (has_lock _ _ && _); [done|]. injection Ew as <-.
      unfold set_free in Hno. rewrite E in Hno. destruct (_ <? 0) eqn:El; [by apply N.ltb_lt in El; lia|]. st_cbn_in Hno.
      by rewrite lookup_insert in Hno.
    + by eapply bsum_max.
    + intros v Hv. destruct Hb1 as [Hb1 _]. by apply (Hb1 k).
    + destruct (deposit_creating_b k amt b1) as [d b2]. cbn [fst snd] in *. subst d.
      change (free (burn_b (amt - amt) b2) k) with (free b2 k). rewrite Hd1. unfold at_acc at 1. rewrite decide_True by done.
      rewrite <- (Hf k). lia.
  - intros Hne. etrans; [by apply Hal|]. apply Hmono.
  - intros Hn. unfold collect_b. rewrite Hn. unfold burn_b. st_cbn.
    destruct Hb1 as (_&E1&_), Hb as (_&E2&_). 
    assert (issuance b1 = issuance b).
    { clear - Ew Hf E2. unfold withdraw_b in Ew. destruct (amt =? 0); [by injection Ew as <-|]. 
      destruct (free b who <? amt) eqn:El; [done|]. cbv zeta in Ew.
      destruct (true && _ && _) eqn:E3; [done|]. destruct (_ <? frozen _ _); [done|]. destruct (has_lock _ _ && _); [done|]. injection Ew as <-.
      specialize (Hf who). rewrite free_set_free, decide_True in Hf by done. unfold at_acc in Hf. rewrite decide_True in Hf by done.
      unfold set_free. apply N.ltb_ge in El. destruct (free b who - amt <? ed); [|done]. st_cbn. lia. }
    lia.
Qed.

(** The balances after a minting call: the fees paid one after the other. *)
Lemma mint_paid who c l s s' : published_fees s c = Some l -> exec_call (Signed who) c s = (Ok tt, s') ->
  match l with
  | [f] => pay_fee_b who f (s_bal s) = Ok (s_bal s')
  | [f; g] => exists b, pay_fee_b who f (s_bal s) = Ok b /\ pay_fee_b who g b = Ok (s_bal s')
  | _ => False
  end.
Proof.
  intros Hl H. destruct c; try discriminate Hl; injection Hl as <-; cbn [exec_call] in H; unfold signed in H.
  - unfold create_nft in H. minv H; subst s'; st_cbn; assumption.
  - unfold create_secret_nft, create_nft, add_secret in H. minv H; subst s'; st_cbn; eauto.
  - unfold add_secret in H. minv H; subst s'; st_cbn; eauto.
  - unfold create_capsule, create_nft, convert_to_capsule in H. minv H; subst s'; st_cbn; eauto.
  - unfold convert_to_capsule in H. minv H; subst s'; st_cbn; eauto.
Qed.

Lemma fact_mint_fee s who c l s' : reachable s -> published_fees s c = Some l ->
  dispatch (Signed who) c s = (Ok tt, s') ->
  let f := sum_of l in
  (forall a, fees_collector <> Some a -> free (s_bal s') a + at_acc who a f = free (s_bal s) a) /\
  (forall k, fees_collector = Some k ->
     free (s_bal s) k <> 0 \/ Forall (fun x => x = 0 \/ ed <= x) l ->
     free (s_bal s') k + at_acc who k f = free (s_bal s) k + f) /\
  (fees_collector = None -> issuance (s_bal s') + f = issuance (s_bal s)) /\
  (free (s_bal s) who <> 0 -> ed <= free (s_bal s') who).
Proof.
  intros Hs Hl Hd f. subst f. apply dispatch_ok in Hd as [_ He]. pose proof (reachable_binv s Hs) as Hb. unfold binv in Hb.
  pose proof (mint_paid who c l s s' Hl He) as Hp.
  assert (Hz : forall k b b', bsum b 0 -> pay_fee_b who 0 b = Ok b' -> free b' k = free b k).
  { intros k b b' Hbb Hx. unfold pay_fee_b in Hx. change (withdraw_b who 0 true b) with (Ok (A:=balances) b) in Hx.
    injection Hx as <-. unfold collect_b. destruct fees_collector; [|done]. done. }
  assert (Hcol : forall b b' x k, bsum b 0 -> pay_fee_b who x b = Ok b' -> fees_collector = Some k ->
     free b k <> 0 \/ (x = 0 \/ ed <= x) -> free b' k + at_acc who k x = free b k + x).
  { intros b b' x k Hbb Hx Hk Hor. destruct (N.eq_dec x 0) as [->|Hne].
    - rewrite (Hz k b b' Hbb Hx). unfold at_acc. destruct (decide _); lia.
    - destruct (pay_fee_effect who x b b' Hbb Hx) as (_&_&H2&_). apply H2; [done|]. destruct Hor as [?|[?|?]]; auto; done. }
  destruct l as [|f [|g [|]]]; try done; cbn [sum_of fold_right].
  - rewrite N.add_0_r. destruct (pay_fee_effect who f _ _ Hb Hp) as (_&H1&H2&H3&H4). split_and!; auto.
    intros k Hk Hor. apply Hcol; auto. destruct Hor as [?|Hor]; [by left|right]. by inversion Hor.
  - rewrite N.add_0_r. destruct Hp as (b&Hp1&Hp2).
    destruct (pay_fee_effect who f _ _ Hb Hp1) as (Hb1&H1&H2&H3&H4).
    destruct (pay_fee_effect who g _ _ Hb1 Hp2) as (Hb2&G1&G2&G3&G4). split_and!.
    + intros a Ha. specialize (H1 a Ha). specialize (G1 a Ha). unfold at_acc in *. destruct (decide _); lia.
    + intros k Hk Hor.
      assert (E1 : free b k + at_acc who k f = free (s_bal s) k + f).
      { apply Hcol; auto. destruct Hor as [?|Hor]; [by left|right]. by inversion Hor. }
      assert (E2 : free (s_bal s') k + at_acc who k g = free b k + g).
      { apply Hcol; auto. destruct Hor as [Hor|Hor]; [|right; inversion Hor as [|?? _ Hor']; by inversion Hor'].
        destruct (N.eq_dec (free b k) 0) as [Ez|]; [|by left]. right. left.
        rewrite Ez in E1. unfold at_acc in E1. destruct (decide (k = who)) as [->|]; [|lia]. lia. }
      unfold at_acc in *. destruct (decide _); lia.
    + intros Hn. specialize (H4 Hn). specialize (G4 Hn). lia.
    + intros Hne. specialize (H3 Hne). destruct (N.eq_dec (free b who) 0) as [E|E]; [|by apply G3]. rewrite E in H3. lia.
Qed.

(** ** Transfer *)
Lemma soulbound_locked_iff d : soulbound_locked d = true <-> bound_to_owner d.
Proof.
  unfold soulbound_locked, bound_to_owner. rewrite andb_true_iff, negb_true_iff, N.eqb_neq. done.
Qed.
Lemma not_locked d : soulbound_locked d = false -> ~ bound_to_owner d.
Proof. intros E H%soulbound_locked_iff. congruence. Qed.

Lemma fact_transfer s who i r : i <= u32_max ->
  (exists s', dispatch (Signed who) (C_transfer_nft i r) s = (Ok tt, s')) <->
  (exists d, nfts (s_nft s) !! i = Some d /\ owner d = who /\ r <> who /\ unengaged d /\ ~ bound_to_owner d).
Proof.
  intros Hi. split.
  - intros [s' H]. apply dispatch_ok in H as [_ H]. cbn [exec_call signed] in H. unfold transfer_nft in H. minv H.
    exists x. unfold unengaged. split_and!; auto; [congruence|by apply not_locked].
  - intros (d&Hd&<-&Hr&(U1&U2&U3&U4&U5&U6)&Hb). eexists. unfold dispatch. cbn [wf_call]. unfold fits. rewrite (proj2 (N.leb_le _ _) Hi).
    unfold transactional. cbn [exec_call signed]. unfold transfer_nft, get_nft, gets, unwrap, bind, ensure.
    rewrite Hd, N.eqb_refl, U1, U2, U3, U4, U5, U6. rewrite (proj2 (N.eqb_neq _ _) (not_eq_sym Hr)).
    destruct (soulbound_locked d) eqn:E; [by apply soulbound_locked_iff in E|]. reflexivity.
Qed.
Lemma fact_transfer_effect s who i r s' : dispatch (Signed who) (C_transfer_nft i r) s = (Ok tt, s') ->
  exists d, nfts (s_nft s) !! i = Some d /\ nfts (s_nft s') = <[i := d <| owner := r |>]> (nfts (s_nft s)) /\
    only_nfts_differ s s'.
Proof.
  intros H. apply dispatch_ok in H as [_ H]. cbn [exec_call signed] in H. unfold transfer_nft in H. minv H. subst s'.
  eexists. split; [done|]. split; [done|]. eexists _, _. by destruct s as [? ? [] ? ? ? ? ? ? ? ? ?].
Qed.
End facts2.
