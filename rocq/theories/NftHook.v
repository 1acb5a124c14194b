(** What the block hooks can do to an NFT record, and what a whole step can do. *)
From Verif Require Export NftStep2.
Local Open Scope N_scope.

Section hooks.
Context {C : Config}.

Lemma secures_role k i : secures k i -> exists role, deposit_nft k role = Some i.
Proof.
  intros [H|[Hr H]]; [exists true|exists false]; unfold deposit_nft; rewrite H; [done|]. by destruct (r_rentee k).
Qed.

(** A listed or transmitted NFT is no deposit. *)
Lemma engaged_unsecured s i d id k : inv1 s -> nfts (s_nft s) !! i = Some d ->
  is_listed (nstate d) = true \/ is_transmission (nstate d) = true ->
  contracts (s_rent s) !! id = Some k -> secures k i -> False.
Proof.
  intros HI Hd Hf Hk Hs. apply secures_role in Hs as [role Hr].
  destruct (deposit_place s id k role i d HI Hk Hr Hd) as [Ho|(->&_&_)].
  - assert (He : engagements d = 0) by (eapply pot_unengaged; eauto; rewrite Ho; apply rent_pot_in).
    apply unengaged_flags in He as (?&?&?&?&?&?). destruct Hf; congruence.
  - destruct (contract_nft s id k HI Hk) as (y&Hy&Hy'&_). simplify_eq.
    pose proof (i_view s HI id) as Hv. unfold view_ok in Hv. rewrite Hd in Hv. destruct Hv.
    unfold engagements in v_one. destruct Hf as [Hf|Hf]; rewrite Hf, Hy' in v_one; clear - v_one; cbn in v_one; lia.
Qed.

Definition same_traits (d d' : nft_data) : Prop :=
  creator d' = creator d /\ offchain_data d' = offchain_data d /\ royalty d' = royalty d /\
  collection_id d' = collection_id d /\ is_soulbound (nstate d') = is_soulbound (nstate d) /\
  is_delegated (nstate d') = is_delegated (nstate d) /\ is_secret (nstate d') = is_secret (nstate d) /\
  is_capsule (nstate d') = is_capsule (nstate d) /\
  is_syncing_secret (nstate d') = is_syncing_secret (nstate d) /\
  is_syncing_capsule (nstate d') = is_syncing_capsule (nstate d).

(** Nothing at the start of a block can move NFT [i] any more. *)
Definition settled (t : state) (i : N) : Prop :=
  auctions (s_auc t) !! i = None /\ transs (s_trans t) !! i = None /\
  forall id k, contracts (s_rent t) !! id = Some k -> ~ secures k i.

Record hrel (s t : state) : Prop := {
  h_auc : auctions (s_auc t) ⊆ auctions (s_auc s);
  h_con : contracts (s_rent t) ⊆ contracts (s_rent s);
  h_trans : transs (s_trans t) ⊆ transs (s_trans s);
  h_next : next_nft (s_nft t) = next_nft (s_nft s);
  h_nft : forall i, match nfts (s_nft s) !! i with
    | None => nfts (s_nft t) !! i = None
    | Some d => exists d', nfts (s_nft t) !! i = Some d' /\ same_traits d d' /\
        (owner d' = owner d \/ (moved_by_hook s i (owner d) (owner d') /\ settled t i))
    end
}.

Lemma same_traits_refl d : same_traits d d.
Proof. unfold same_traits. split_and!; reflexivity. Qed.
Lemma same_traits_trans d1 d2 d3 : same_traits d1 d2 -> same_traits d2 d3 -> same_traits d1 d3.
Proof. unfold same_traits. intros. destruct_and!. split_and!; congruence. Qed.

Lemma hrel_same s t :
  s_nft t = s_nft s -> auctions (s_auc t) = auctions (s_auc s) -> contracts (s_rent t) = contracts (s_rent s) ->
  transs (s_trans t) = transs (s_trans s) -> hrel s t.
Proof.
  intros E1 E2 E3 E4. split; rewrite ?E1, ?E2, ?E3, ?E4; try done.
  intros i. destruct (nfts (s_nft s) !! i) as [d|] eqn:Hd; [|done].
  exists d. split; [done|]. split; [apply same_traits_refl|by left].
Qed.

Lemma sub_None {V} (m m' : gmap N V) i : m ⊆ m' -> m' !! i = None -> m !! i = None.
Proof. intros H1 H2. by eapply lookup_weaken_None. Qed.

Lemma settled_sub s t i : settled s i -> auctions (s_auc t) ⊆ auctions (s_auc s) ->
  contracts (s_rent t) ⊆ contracts (s_rent s) -> transs (s_trans t) ⊆ transs (s_trans s) -> settled t i.
Proof.
  intros (H1&H2&H3) E1 E2 E3. split; [|split].
  - by eapply sub_None.
  - by eapply sub_None.
  - intros id k Hk. eapply H3. by eapply lookup_weaken.
Qed.

Lemma hrel_trans s t u : hrel s t -> hrel t u -> hrel s u.
Proof.
  intros [A1 A2 A3 A4 A5] [B1 B2 B3 B4 B5]. split; [by etrans|by etrans|by etrans|congruence|].
  intros i. specialize (A5 i). specialize (B5 i). destruct (nfts (s_nft s) !! i) as [d|].
  - destruct A5 as (d'&Hd'&T1&O1). rewrite Hd' in B5. destruct B5 as (d2&Hd2&T2&O2).
    exists d2. split; [done|]. split; [by eapply same_traits_trans|].
    destruct O1 as [O1|[O1 S1]].
    + rewrite <- O1. destruct O2 as [O2|[O2 S2]]; [by left|]. right. split; [|done].
      destruct O2 as [(a&amt&Ha&Hl)|[(x&Hx&Hr)|(id&k&Hk&Hr)]].
      * left. exists a, amt. split; [by eapply lookup_weaken|done].
      * right; left. exists x. split; [by eapply lookup_weaken|done].
      * right; right. exists id, k. split; [by eapply lookup_weaken|done].
    + assert (owner d2 = owner d') as E.
      { destruct O2 as [O2|[O2 S2]]; [done|]. exfalso. destruct S1 as (F1&F2&F3).
        destruct O2 as [(a&amt&Ha&Hl)|[(x&Hx&Hr)|(id&k&Hk&Hr&_)]]; [congruence..|]. by eapply F3. }
      rewrite E. right. split; [done|]. by eapply settled_sub.
  - rewrite A5 in B5. done.
Qed.

(** The auction hook. *)
Lemma hrel_finish_auction s id a d w s' :
  inv1 s -> auctions (s_auc s) !! id = Some a -> nfts (s_nft s) !! id = Some d ->
  (w = owner d \/ exists amt, last (a_bidders a) = Some (w, amt)) ->
  s_nft s' = s_nft s <| nfts ::= <[id := put_listed false (d <| owner := w |>)]> |> ->
  auctions (s_auc s') = delete id (auctions (s_auc s)) -> s_rent s' = s_rent s -> s_trans s' = s_trans s -> hrel s s'.
Proof.
  intros HI Ha Hd Hw E1 E2 E3 E4.
  assert (Hset : settled s' id).
  { destruct (auction_nft s id a HI Ha) as (x&Hx&Hl&Ho). simplify_eq.
    split; [by rewrite E2, lookup_delete|]. rewrite E3, E4. split.
    - destruct (transs (s_trans s) !! id) eqn:Et; [|done]. exfalso.
      destruct (trans_nft s id _ HI Et) as (y&Hy&Ht). simplify_eq.
      pose proof (i_view s HI id) as Hv. unfold view_ok in Hv. rewrite Hd in Hv. destruct Hv.
      unfold engagements in v_one. rewrite Hl, Ht in v_one; clear - v_one; cbn in v_one; lia.
    - intros j k Hk Hs. eapply (engaged_unsecured s id d j k); eauto. }
  split; rewrite ?E1, ?E2, ?E3, ?E4; st_cbn; try done.
  - apply delete_subseteq.
  - intros i. destruct (decide (i = id)) as [->|].
    + rewrite Hd, lookup_insert. eexists. split; [done|]. split; [unfold same_traits; by destruct d|].
      destruct Hw as [->|[amt Hl]]; [by left|]. right. split; [|done]. left. exists a, amt. done.
    + rewrite lookup_insert_ne by done. destruct (nfts (s_nft s) !! i) as [x|]; [|done].
      exists x. split; [done|]. split; [apply same_traits_refl|by left].
Qed.

Lemma pop_highest_last l x r : pop_highest l = Some (x, r) -> last l = Some x.
Proof.
  unfold pop_highest. destruct (last l); [|done]. intros [= <- _]. done.
Qed.

Definition hq (s0 t : state) : Prop := inv1 t /\ hrel s0 t.

Lemma hq_settle_one s0 id : pres (hq s0) (settle_one id).
Proof.
  intros s [HI HR]. split; [by apply inv1_pres_settle_one|]. eapply hrel_trans; [exact HR|].
  unfold settle_one, bind at 1, get_auction, gets.
  destruct (auctions (s_auc s) !! id) as [a|] eqn:Ea; [|by apply hrel_same].
  unfold bind at 1, get_nft, gets.
  destruct (nfts (s_nft s) !! id) as [d|] eqn:Ed; [|by apply hrel_same].
  destruct (pop_highest (a_bidders a)) as [[[w paid] rest]|] eqn:Ep.
  - apply pop_highest_last in Ep. unfold bind at 1, catch.
    destruct (pay_for_nft_bal id auction_pot paid d (a <| a_bidders := rest |>) s) as (r&b&->).
    destruct r as [cut|e]; [|by apply hrel_same].
    unfold bind at 1. rewrite claim_all_run. destruct cut as [[m c] t].
    eapply (hrel_finish_auction s id a d w); eauto.
  - eapply (hrel_finish_auction s id a d (owner d)); eauto; by destruct d.
Qed.

Lemma hq_handle_finished s0 id : pres (hq s0) (handle_finished id).
Proof.
  intros s [HI HR]. split; [by apply inv1_pres_handle_finished|]. eapply hrel_trans; [exact HR|].
  destruct (handle_finished id s) as [[[]|e] s'] eqn:E.
  - cbn [snd]. destruct (handle_finished_nfts s id s' HI E) as (k&Hk&He&Hc&Hn&E1&E2&E3).
    split; rewrite ?Hc, ?E1, ?E2; try done; [apply delete_subseteq|].
    intros i. specialize (He i). destruct (nfts (s_nft s) !! i) as [d|] eqn:Hd; [|done].
    destruct He as (b&d'&Hd'&Hor&Hb). exists d'. split; [done|].
    assert (owner d' = b) as -> by (destruct Hor as [[_ ->]|[_ ->]]; done).
    split; [unfold same_traits; destruct Hor as [[_ ->]|[_ ->]]; by destruct d|].
    destruct Hb as [->|(Hne&Hs&Ho&Hb)]; [by left|]. right. split.
    + right; right. exists id, k. done.
    + assert (engagements d = 0) as He0 by (eapply pot_unengaged; eauto; rewrite Ho; apply rent_pot_in).
      apply unengaged_flags in He0 as (F1&_&_&F4&_).
      split; [|split].
      * rewrite E1. destruct (auctions (s_auc s) !! i) eqn:Ha; [|done].
        destruct (auction_nft s i _ HI Ha) as (y&Hy&Hy'&_). congruence.
      * rewrite E2. destruct (transs (s_trans s) !! i) eqn:Ha; [|done].
        destruct (trans_nft s i _ HI Ha) as (y&Hy&Hy'). congruence.
      * rewrite Hc. intros id2 k2 Hk2 Hs2. apply lookup_delete_Some in Hk2 as [Hne2 Hk2].
        apply secures_role in Hs as [role Hr]. apply secures_role in Hs2 as [role2 Hr2].
        destruct (i_cust s HI id k role i Hk Hr) as [[_ ?]|[_ Hu]]; [done|].
        destruct (Hu id2 k2 role2 Hk2 Hr2). done.
  - destruct (handle_finished_cases s id HI) as [(x&b&Hh)|(c&d&b&s1&Hc&Hd&Hh&_)]; rewrite Hh in E; [|done].
    injection E as <- <-. by apply hrel_same.
Qed.

Lemma hq_transmit_nft s0 id : pres (hq s0) (transmit_nft id).
Proof.
  intros s [HI HR]. destruct (transmit_nft_cases id s) as [[e ->]|[s' E]]; [done|]. rewrite E.
  split; [by eapply inv1_transmit_nft|]. eapply hrel_trans; [exact HR|]. cbn [snd].
  minv E. subst s'. split; st_cbn; try done; [apply delete_subseteq|].
  intros i. destruct (decide (i = id)) as [->|].
  - rewrite U0, lookup_insert. eexists. split; [done|]. split; [unfold same_traits; by destruct x0|].
    right. split; [right; left; exists x; done|].
    destruct (trans_nft s id _ HI U) as (y&Hy&Ht). simplify_eq. split; [|split]; st_cbn.
    + destruct (auctions (s_auc s) !! id) eqn:Ea; [|done]. exfalso.
      destruct (auction_nft s id _ HI Ea) as (z&Hz&Hl&Ho). simplify_eq.
      pose proof (i_view s HI id) as Hv. unfold view_ok in Hv. rewrite U0 in Hv. destruct Hv.
      unfold engagements in v_one. rewrite Hl, Ht in v_one; clear - v_one; cbn in v_one; lia.
    + by rewrite lookup_delete.
    + intros j k Hk Hs. eapply (engaged_unsecured s id x0 j k); eauto.
  - rewrite lookup_insert_ne by done. destruct (nfts (s_nft s) !! i) as [y|]; [|done].
    exists y. split; [done|]. split; [apply same_traits_refl|by left].
Qed.

Lemma hq_frame s0 s s' : hq s0 s -> s_nft s' = s_nft s -> s_mkt s' = s_mkt s ->
  auctions (s_auc s') = auctions (s_auc s) -> commissions (s_auc s') = commissions (s_auc s) ->
  contracts (s_rent s') = contracts (s_rent s) -> offers (s_rent s') = offers (s_rent s) ->
  transs (s_trans s') = transs (s_trans s) -> hq s0 s'.
Proof.
  intros [HI HR] E1 E2 E3 E4 E5 E6 E7. split.
  - eapply inv1_frame; [exact HI|..]; rewrite ?E1, ?E2, ?E3, ?E4, ?E5, ?E6, ?E7; done.
  - eapply hrel_trans; [exact HR|]. by apply hrel_same.
Qed.

Lemma hq_emit s0 e : pres (hq s0) (emit e).
Proof. intros s H. by eapply hq_frame. Qed.

Lemma hook_hrel s h : inv1 s -> hrel s (snd (run_hook h s)).
Proof.
  intros HI. assert (Hq : hq s s) by (split; [done|by apply hrel_same]).
  cut (pres (hq s) (run_hook h)). { intros H. by destruct (H s Hq). }
  clear Hq HI. destruct h; cbn [run_hook].
  - apply pres_auction_hook; [apply hq_settle_one|]. intros t dl H. by eapply hq_frame.
  - apply pres_rent_hook; [apply hq_handle_finished|apply hq_emit| |].
    + intros id now. pres_go. by eapply hq_frame.
    + intros t q H. by eapply hq_frame.
  - apply pres_trans_hook; [apply hq_transmit_nft|apply hq_emit|]. intros t q H. by eapply hq_frame.
  - intros t H. pose proof (hook_kept HookTee t) as Hk. cbn [run_hook hook_pallet kept] in Hk. destruct_and! Hk.
    eapply hq_frame; [exact H|..]; congruence.
Qed.

Lemma block_hrel s : inv1 s -> hrel s (next_block s).
Proof.
  intros HI. unfold next_block, run_hooks.
  assert (Hg : forall l t, inv1 t -> hrel t (fold_left (fun s h => snd (run_hook h s)) l t)).
  { induction l as [|h l IH]; intros t Ht; [by apply hrel_same|]. cbn [fold_left].
    eapply hrel_trans; [by apply hook_hrel|]. apply IH. by apply inv1_hook. }
  eapply hrel_trans; [|apply Hg; by eapply inv1_same]. by apply hrel_same.
Qed.

(** Root calls leave the NFTs alone. *)
Lemma root_nfts c : forall s s', exec_call Root c s = (Ok tt, s') ->
  nfts (s_nft s') = nfts (s_nft s) /\ next_nft (s_nft s') = next_nft (s_nft s).
Proof.
  induction c; intros s s' He; try discriminate He.
  all: try (let Hk := fresh in pose proof (call_kept Root _ _ _ eq_refl He) as Hk; cbn [pallet_of kept] in Hk;
     destruct Hk as (_&_&Hk&_); by rewrite Hk).
  all: cbn [exec_call root] in He.
  all: try (minv He; by subst).
  unfold external in He. destruct (external_ok Root); [|done].
  apply bind_catch in He as (r & s1 & He1 & He2).
  destruct (transactional_cases (exec_call Root c) s) as [(s2&Hok&Ht)|(e&s2&_&Ht)];
    rewrite Ht in He1; injection He1 as <- <-; apply modify_ok in He2; subst s'; [|done].
  exact (IHc _ _ Hok).
Qed.

(** Every extrinsic. *)
Lemma nft_exec s o c s' : inv1 s -> exec_call o c s = (Ok tt, s') -> nft_effect s o c s'.
Proof.
  intros HI He. destruct (is_mandate c) eqn:Hm; [|by apply nft_call]. destruct c; try discriminate Hm.
  cbn [exec_call] in He. unfold external in He. destruct (external_ok o); [|done].
  apply bind_catch in He as (r & s1 & He1 & He2).
  destruct (transactional_cases (exec_call Root c) s) as [(s2&Hok&Ht)|(e&s2&_&Ht)];
    rewrite Ht in He1; injection He1 as <- <-; apply modify_ok in He2; subst s'; [|by apply effect_same].
  apply root_nfts in Hok as [E1 E2]. by apply effect_same.
Qed.

(** What a whole step of the chain does to the NFT records. *)
Definition nft_step (s : state) (a : action) (s' : state) : Prop :=
  match a with
  | Extrinsic o c => (s' = s /\ fst (dispatch o c s) <> Ok tt) \/
                     (dispatch o c s = (Ok tt, s') /\ nft_effect s o c s')
  | NextBlock => hrel s s'
  | Env _ => s_nft s' = s_nft s
  end.

Lemma step_nft s a : inv1 s -> nft_step s a (step s a).
Proof.
  intros HI. destruct a as [o c| |e]; cbn [step nft_step].
  - destruct (dispatch_cases o c s) as [(s'&Hw&He&Hd)|[e Hd]]; rewrite Hd; cbn [fst snd].
    + right. split; [done|]. by apply nft_exec.
    + left. split; [done|]. done.
  - by apply block_hrel.
  - destruct (transactional_cases (run_env e) s) as [(s2&Hok&->)|(x&s2&_&->)]; [|done].
    apply env_kept in Hok. unfold env_kept_from in Hok. by destruct_and! Hok.
Qed.

Lemma reachable_nft_step s a : reachable s -> nft_step s a (step s a).
Proof. intros H. by apply step_nft, reachable_inv1. Qed.
End hooks.
