(** The calls of pallet transmission-protocols in closed form, and the invariant of its
    storages. *)
From Verif Require Export RentFacts MktFacts.
Local Open Scope N_scope.

Section transcalls.
Context {C : Config}.

Lemma no_dup_NoDup l : no_dup l = true <-> NoDup l.
Proof.
  induction l as [|x l IH]; cbn [no_dup]; [by split; [constructor|]|].
  rewrite andb_true_iff, negb_true_iff, IH, NoDup_cons. split; intros [H1 H2]; (split; [|done]).
  - intros Hx%memN_iff. congruence.
  - destruct (memN x l) eqn:E; [|done]. by apply memN_iff in E.
Qed.

Lemma tset_ok who id rc p c s r s' : set_transmission_protocol who id rc p c s = (Ok r, s') ->
  exists d b q', nfts (s_nft s) !! id = Some d /\ owner d = who /\ who <> rc /\ unengaged d /\ soulbound_locked d = false /\
    (forall x, c = UntilBlock x -> s_now s < x) /\
    (forall x, end_block p = Some x -> s_now s < x /\ N.min (x - s_now s) u32_max <= max_block_duration) /\
    (forall l t, consent_data p = Some (l, t) -> NoDup l /\ 0 < t /\ t <= consent_limit /\ t <= nlen l) /\
    (match block_to_queue p with
     | Some x => nlen (t_queue (s_trans s)) + 1 <= trans_limit /\ q' = q_ins (id, x) (t_queue (s_trans s))
     | None => q' = t_queue (s_trans s) end) /\
    pay_fee_b who (protocol_fee (s_trans s) (kind_of_protocol p)) (s_bal s) = Ok b /\
    s' = s <| s_bal := b |> <| s_trans ::= fun t => t <| transs ::= <[id := mkTrans rc p c]> |> <| t_queue := q' |> |>
           <| s_nft ::= fun n => n <| nfts ::= <[id := put_transmission true d]> |> |> <| s_events ::= cons (Ev_ProtocolSet id rc p c) |>.
Proof.
  intros H. unfold set_transmission_protocol in H. mstep H.
  apply bind_ok in H as ([]&s0&HW&H).
  assert (s0 = s /\ forall x, c = UntilBlock x -> s_now s < x) as [-> Hc].
  { destruct c; minv HW; subst; split; try done. intros ? [= ->]. done. }
  clear HW. do 11 mstep H.
  apply bind_ok in H as ([]&s0&HW&H).
  assert (s0 = s /\ forall x, end_block p = Some x -> s_now s < x /\ N.min (x - s_now s) u32_max <= max_block_duration) as [-> He].
  { apply on_some_ok in HW as [(b0&Eb&HW)|[Eb <-]]; [|split; [done|congruence]]. minv HW. subst. split; [done|].
    intros z Ez. assert (z = b0) as -> by congruence. done. }
  clear HW. apply bind_ok in H as ([]&s0&HW&H).
  assert (s0 = s /\ forall l t, consent_data p = Some (l, t) -> NoDup l /\ 0 < t /\ t <= consent_limit /\ t <= nlen l) as [-> Hl].
  { apply on_some_ok in HW as [(lt&Eb&HW)|[Eb <-]]; [|split; [done|congruence]]. minv HW. subst. split; [done|].
    intros l t Ez. assert (lt = (l, t)) as -> by congruence. cbn [fst snd] in *. split; [by apply no_dup_NoDup|done]. }
  clear HW. mstep H. apply bind_ok in H as (q'&s0&HW&H).
  assert (s0 = s /\ match block_to_queue p with
     | Some x => nlen (t_queue (s_trans s)) + 1 <= trans_limit /\ q' = q_ins (id, x) (t_queue (s_trans s))
     | None => q' = t_queue (s_trans s) end) as [-> Hq].
  { destruct (block_to_queue p); minv HW; subst; split; try done.
    apply q_insert_some in U0 as [_ ->]. split; done. }
  clear HW. minv H. subst s'. exists x, b, q'. unfold unengaged. split_and!; done.
Qed.

Lemma tremove_ok who id s r s' : remove_transmission_protocol who id s = (Ok r, s') ->
  exists d t, nfts (s_nft s) !! id = Some d /\ owner d = who /\ is_transmission (nstate d) = true /\ transs (s_trans s) !! id = Some t /\
    is_cancellable (t_cancellation t) (s_now s) = true /\
    s_nft s' = s_nft s <| nfts ::= <[id := put_transmission false d]> |> /\ s_bal s' = s_bal s /\
    transs (s_trans s') = delete id (transs (s_trans s)) /\
    t_queue (s_trans s') = (match t_protocol t with OnConsent _ _ => t_queue (s_trans s) | _ => q_del id (t_queue (s_trans s)) end) /\
    consents (s_trans s') = (match consent_data (t_protocol t) with Some _ => delete id (consents (s_trans s)) | None => consents (s_trans s) end).
Proof.
  intros H. unfold remove_transmission_protocol in H. do 8 mstep H.
  exists x, x0. destruct (t_protocol x0) eqn:Ep; cbn [kind_of_protocol] in H; minv H; subst s'; split_and!; done.
Qed.

Lemma treset_ok who id b s r s' : reset_timer who id b s = (Ok r, s') ->
  exists d t b0, nfts (s_nft s) !! id = Some d /\ owner d = who /\ is_transmission (nstate d) = true /\ transs (s_trans s) !! id = Some t /\
    t_protocol t = AtBlockWithReset b0 /\ s_now s < b /\ N.min (b - s_now s) u32_max <= max_block_duration /\
    s' = s <| s_trans ::= fun x => x <| t_queue ::= q_update id b |> <| transs ::= <[id := t <| t_protocol := AtBlockWithReset b |>]> |> |>
           <| s_events ::= cons (Ev_TimerReset id b) |>.
Proof.
  intros H. unfold reset_timer in H. minv H. subst s'. destruct (t_protocol x0) eqn:Ep; try discriminate E1.
  exists x, x0, b0. split_and!; done.
Qed.

(** The last consent transmits at once or puts the NFT into the queue. *)
Lemma tconsent_ok who id s r s' : add_consent who id s = (Ok r, s') ->
  exists d t cl th, nfts (s_nft s) !! id = Some d /\ is_transmission (nstate d) = true /\ transs (s_trans s) !! id = Some t /\
    consent_data (t_protocol t) = Some (cl, th) /\ who ∈ cl /\
    (end_block (t_protocol t) <> None -> id ∉ (t_queue (s_trans s)).*1) /\
    who ∉ default [] (consents (s_trans s) !! id) /\ s_bal s' = s_bal s /\
    let l := default [] (consents (s_trans s) !! id) in
    ((nlen l + 1 < th /\ s_nft s' = s_nft s /\ s_trans s' = s_trans s <| consents ::= <[id := l ++ [who]]> |>) \/
     (th <= nlen l + 1 /\ exists b, end_block (t_protocol t) = Some b /\ s_now s < b /\ nlen (t_queue (s_trans s)) + 1 <= trans_limit /\
        s_nft s' = s_nft s /\ s_trans s' = s_trans s <| t_queue ::= q_ins (id, b) |> <| consents ::= delete id |>) \/
     (th <= nlen l + 1 /\ (forall b, end_block (t_protocol t) = Some b -> b <= s_now s) /\
        s_nft s' = s_nft s <| nfts ::= <[id := put_transmission false (d <| owner := t_recipient t |>)]> |> /\
        s_trans s' = s_trans s <| consents ::= delete id |> <| transs ::= delete id |>)).
Proof.
  intros H. unfold add_consent in H. do 8 mstep H. destruct x1 as [cl th].
  exists x, x0, cl, th. apply bind_ok in H as ([]&s0&HW&H).
  assert (s0 = s /\ (end_block (t_protocol x0) <> None -> id ∉ (t_queue (s_trans s)).*1)) as [-> Hq].
  { destruct (t_protocol x0); cbn in HW, U1 |- *; try discriminate U1; minv HW; subst; split; try done. intros _. by apply q_get_none. }
  clear HW. do 4 mstep H. 
  assert (Hw : who ∉ default [] (consents (s_trans s) !! id)). { intros Hx%memN_iff. congruence. }
  apply memN_iff in E0. cbn [fst snd] in *. cbv zeta.
  assert (En : nlen (default [] (consents (s_trans s) !! id) ++ [who]) = nlen (default [] (consents (s_trans s) !! id)) + 1).
  { unfold nlen. rewrite app_length. cbn. lia. }
  rewrite En in H. destruct (_ <? th) eqn:Et.
  - apply N.ltb_lt in Et. minv H. subst s'. split_and!; try done. left. split_and!; done.
  - apply N.ltb_ge in Et. destruct (end_block (t_protocol x0)) as [b|] eqn:Eb; [destruct (b <=? s_now s) eqn:Ebn|].
    + apply N.leb_le in Ebn. minv H; try discriminate. subst s'. st_cbn_in U2. st_cbn_in U3. simplify_eq. split_and!; try done. right; right. split; [done|]. split; [by intros ? [= <-]|]. done.
    + apply N.leb_gt in Ebn. minv H; try discriminate. subst s'. apply q_insert_some in U2 as [_ ->]. split_and!; try done. right; left. split; [done|]. exists b. split_and!; done.
    + minv H; try discriminate. subst s'. st_cbn_in U2. st_cbn_in U3. simplify_eq. split_and!; try done. right; right. done.
Qed.

(** * The invariant *)
Record tok (x : trans_st) (q : list (N * N)) : Prop := {
  to_q : qok q;
  to_len : nlen q <= trans_limit;
  to_entry : forall i b, (i, b) ∈ q -> exists t, transs x !! i = Some t /\ end_block (t_protocol t) = Some b;
  to_timed : forall i t b, transs x !! i = Some t -> block_to_queue (t_protocol t) = Some b -> (i, b) ∈ q;
  to_cons : forall i l, consents x !! i = Some l -> exists t cl th, transs x !! i = Some t /\ consent_data (t_protocol t) = Some (cl, th) /\
    NoDup l /\ (forall w, w ∈ l -> w ∈ cl) /\ nlen l < th /\ i ∉ q.*1;
  to_list : forall i t cl th, transs x !! i = Some t -> consent_data (t_protocol t) = Some (cl, th) -> NoDup cl /\ 0 < th /\ th <= nlen cl
}.
Definition tinv (s : state) : Prop := tok (s_trans s) (t_queue (s_trans s)).

Lemma no_trans s i d : inv1 s -> nfts (s_nft s) !! i = Some d -> is_transmission (nstate d) = false -> transs (s_trans s) !! i = None.
Proof.
  intros HI Hd Hf. destruct (transs (s_trans s) !! i) as [t|] eqn:Ht; [|done].
  destruct (trans_nft s i t HI Ht) as (d'&Hd'&?). congruence.
Qed.

(** Removing a transmission. *)
Lemma tok_remove x q q' i co : tok x q -> sublist q' q -> i ∉ q'.*1 -> (forall j b, (j, b) ∈ q -> j <> i -> (j, b) ∈ q') ->
  (forall j l, co !! j = Some l -> consents x !! j = Some l /\ j <> i) ->
  forall y, transs y = delete i (transs x) -> consents y = co -> tok y q'.
Proof.
  intros [H1 H2 H3 H4 H5 H6] Hs Hi Hq Hco y E1 E2. split; rewrite ?E1, ?E2.
  - by eapply qok_sub.
  - apply sublist_length in Hs. unfold nlen in *. lia.
  - intros j b Hb. destruct (H3 j b) as (t&Ht&Et); [by eapply elem_sub|]. exists t. split; [|done].
    rewrite lookup_delete_ne; [done|]. intros <-. apply Hi, q_fst_elem. eauto.
  - intros j t b [Hne Ht]%lookup_delete_Some Hb. apply Hq; [|done]. by eapply H4.
  - intros j l Hl. apply Hco in Hl as [Hl Hne]. destruct (H5 j l Hl) as (t&cl&th&Ht&Hd&Hn&Hsub&Hlt&Hnq). exists t, cl, th.
    rewrite lookup_delete_ne by done. split_and!; try done. intros [b Hb]%q_fst_elem. apply Hnq, q_fst_elem. exists b. by eapply elem_sub.
  - intros j t cl th [Hne Ht]%lookup_delete_Some Hd. by eapply H6.
Qed.

Lemma tinv_call s o c s' : inv1 s -> tinv s -> is_mandate c = false -> exec_call o c s = (Ok tt, s') -> tinv s'.
Proof.
  intros HI HT Hm He. pose proof (call_kept _ _ _ _ Hm He) as Hk. unfold kept in Hk. unfold tinv in *.
  destruct c; cbn [pallet_of] in Hk; try (destruct_and! Hk; match goal with E : s_trans s' = _ |- _ => rewrite E; exact HT end); try discriminate Hm.
  all: clear Hk Hm; cbn [exec_call] in He; try (unfold signed in He; destruct o as [who| |]; try done).
  - apply tset_ok in He as (d&b&q'&Hd&_&_&Hu&_&_&He&Hl&Hq&_&->). st_cbn.
    assert (Hn : transs (s_trans s) !! id = None). { eapply no_trans; eauto. by destruct Hu as (_&_&_&?&_). }
    destruct HT as [H1 H2 H3 H4 H5 H6].
    assert (Hni : id ∉ (t_queue (s_trans s)).*1). { intros [x Hx]%q_fst_elem. destruct (H3 _ _ Hx) as (t&Ht&_). congruence. }
    assert (Hsub : forall y, y ∈ t_queue (s_trans s) -> y ∈ q').
    { intros y Hy. destruct (block_to_queue p); [destruct Hq as [_ ->]; apply q_ins_elem; by right|by subst]. }
    assert (Hinv : forall y, y ∈ q' -> (exists x, block_to_queue p = Some x /\ y = (id, x)) \/ y ∈ t_queue (s_trans s)).
    { intros y Hy. destruct (block_to_queue p); [destruct Hq as [_ ->]; apply q_ins_elem in Hy as [->|?]; eauto|subst; by right]. }
    split; st_cbn.
    + destruct (block_to_queue p); [destruct Hq as [_ ->]; by apply q_ins_ok|by subst].
    + destruct (block_to_queue p); [destruct Hq as [? ->]; unfold nlen in *; rewrite q_ins_length; lia|by subst].
    + intros i x [(y&Ey&[= -> ->])|Hx]%Hinv.
      * rewrite lookup_insert. eexists. split; [done|]. cbn. destruct p; cbn in *; congruence.
      * destruct (H3 _ _ Hx) as (t&Ht&Et). exists t. rewrite lookup_insert_ne; [done|]. congruence.
    + intros i t x [[<- <-]|[Hne Ht]]%lookup_insert_Some Hx.
      * cbn in Hx. rewrite Hx in Hq. destruct Hq as [_ ->]. apply q_ins_elem. by left.
      * apply Hsub. by eapply H4.
    + intros i l Hi. destruct (H5 i l Hi) as (t&cl&th&Ht&Hd'&Hn'&Hs'&Hlt&Hnq). exists t, cl, th.
      assert (id <> i) by congruence. rewrite lookup_insert_ne by done. split_and!; try done.
      intros [x [(y&_&[= -> ->])|Hx]%Hinv]%q_fst_elem; [done|]. apply Hnq, q_fst_elem. eauto.
    + intros i t cl th [[<- <-]|[Hne Ht]]%lookup_insert_Some Hx.
      * cbn in Hx. destruct (Hl _ _ Hx) as (?&?&_&?). done.
      * by eapply H6.
  - apply tremove_ok in He as (d&t&Hd&_&_&Ht&_&_&_&E1&E2&E3). rewrite E2.
    destruct (t_protocol t) eqn:Ep; cbn [consent_data] in E3.
    all: eapply (tok_remove _ _ _ id _ HT); [| | | |exact E1|exact E3]; try apply q_del_sub; try (apply q_del_fst, HT).
    all: try (intros j x Hb Hne; apply q_del_elem; [apply HT|]; done).
    all: try (intros j l [? ?]%lookup_delete_Some; done).
    all: try (intros j l Hl; split; [done|]; intros ->; destruct (to_cons _ _ HT _ _ Hl) as (t'&cl&th&Ht'&Hd'&_); assert (t' = t) as -> by congruence; rewrite Ep in Hd'; done).
    + done.
    + intros [x Hb]%q_fst_elem. destruct (to_entry _ _ HT _ _ Hb) as (t'&Ht'&Eb). assert (t' = t) as -> by congruence. rewrite Ep in Eb. done.
    + done.
  - apply treset_ok in He as (d&t&b0&Hd&_&_&Ht&Ep&_&_&->). st_cbn. destruct HT as [H1 H2 H3 H4 H5 H6].
    assert (Hin : id ∈ (t_queue (s_trans s)).*1). { apply q_fst_elem. exists b0. eapply H4; [done|]. by rewrite Ep. }
    assert (Hnd : NoDup ((t_queue (s_trans s)).*1)) by apply H1. 
    split; st_cbn.
    + by apply q_update_ok.
    + unfold nlen in *. by rewrite q_update_length.
    + intros i x Hx. apply q_update_elem in Hx as [[= -> ->]|[Hx Hne]]; [|..]; try done.
      * rewrite lookup_insert. eexists. done.
      * cbn in Hne. rewrite lookup_insert_ne by done. by apply H3.
    + intros i t' x Ht' Hx. apply q_update_elem; try done. apply lookup_insert_Some in Ht' as [[<- <-]|[Hne Ht']].
      * cbn in Hx. left. congruence.
      * right. split; [by eapply H4|]. done.
    + intros i l Hi. destruct (H5 i l Hi) as (t'&cl&th&Ht'&Hd'&Hn'&Hs'&Hlt&Hnq). exists t', cl, th.
      assert (id <> i). { intros <-. assert (t' = t) as -> by congruence. rewrite Ep in Hd'. done. }
      rewrite lookup_insert_ne by done. split_and!; try done. by rewrite q_update_fst.
    + intros i t' cl th [[<- <-]|[Hne Ht']]%lookup_insert_Some Hx; [done|]. by eapply H6.
  - apply tconsent_ok in He as (d&t&cl&th&Hd&_&Ht&Hcd&Hw&Hq&Hnw&_&He). cbv zeta in He. set (l := default [] (consents (s_trans s) !! id)) in *.
    destruct He as [(Hlt&_&->)|[(Hle&b&Eb&Hb&Hcap&_&->)|(Hle&Eb&_&->)]]; st_cbn.
    + destruct HT as [H1 H2 H3 H4 H5 H6]. split; st_cbn; try done.
      intros i l' [[<- <-]|[Hne Hl']]%lookup_insert_Some; [|by apply H5]. exists t, cl, th. split_and!; try done.
      * apply NoDup_app. split_and!; [|intros x Hx ->%elem_of_list_singleton; done|apply NoDup_singleton].
        subst l. destruct (consents (s_trans s) !! id) as [l0|] eqn:El; [|constructor]. by destruct (H5 _ _ El) as (?&?&?&?&?&?&_).
      * intros w [Hx|Hx%elem_of_list_singleton]%elem_of_app; [|by subst]. subst l.
        destruct (consents (s_trans s) !! id) as [l0|] eqn:El; [|by apply elem_of_nil in Hx].
        destruct (H5 _ _ El) as (t'&cl'&th'&Ht'&Hd'&_&Hs&_). assert (t' = t) as -> by congruence. assert (cl' = cl) as -> by congruence. by apply Hs.
      * unfold nlen in *. rewrite app_length. cbn. lia.
      * intros [x Hx]%q_fst_elem. destruct (H3 _ _ Hx) as (t'&Ht'&Ex). assert (t' = t) as -> by congruence. apply Hq; [congruence|]. apply q_fst_elem. eauto.
    + destruct HT as [H1 H2 H3 H4 H5 H6]. assert (Hni : id ∉ (t_queue (s_trans s)).*1) by (apply Hq; congruence).
      split; st_cbn.
      * by apply q_ins_ok.
      * unfold nlen in *. rewrite q_ins_length. lia.
      * intros i x [[= -> ->]|Hx]%q_ins_elem; [by exists t|]. by apply H3.
      * intros i t' x Ht' Hx. apply q_ins_elem. right. by eapply H4.
      * intros i l' [Hne Hl']%lookup_delete_Some. destruct (H5 _ _ Hl') as (t'&cl'&th'&?&?&?&?&?&Hnq). exists t', cl', th'. split_and!; try done.
        intros [x [[= -> ->]|Hx]%q_ins_elem]%q_fst_elem; [done|]. apply Hnq, q_fst_elem. eauto.
      * done.
    + eapply (tok_remove _ _ _ id (delete id (consents (s_trans s))) HT); [done| |done| |done|done].
      * intros [x Hx]%q_fst_elem. destruct (to_entry _ _ HT _ _ Hx) as (t'&Ht'&Ex). assert (t' = t) as -> by congruence.
        apply Hq; [congruence|]. apply q_fst_elem. eauto.
      * by intros j l' [? ?]%lookup_delete_Some.
  - minv He. subst s'. st_cbn. destruct k; destruct HT; split; done.
Qed.

(** ** The hook *)
(** The NFTs [l] are transmitted, in this order, and nothing else happens. *)
Record tdone (s s' : state) (l : list N) : Prop := {
  td_in : forall i, i ∈ l -> exists t d, transs (s_trans s) !! i = Some t /\ nfts (s_nft s) !! i = Some d /\ transs (s_trans s') !! i = None /\ nfts (s_nft s') !! i = Some (put_transmission false (d <| owner := t_recipient t |>));
  td_out : forall i, i ∉ l -> transs (s_trans s') !! i = transs (s_trans s) !! i /\ nfts (s_nft s') !! i = nfts (s_nft s) !! i;
  td_rest : exists m1 m2 q, s' = s <| s_nft ::= fun n => n <| nfts := m1 |> |> <| s_trans ::= fun x => x <| transs := m2 |> <| t_queue := q |> |>
    <| s_events := map Ev_Transmitted (rev l) ++ s_events s |>
}.
Definition tback (s : state) : Prop := forall i t, transs (s_trans s) !! i = Some t -> is_Some (nfts (s_nft s) !! i).

Lemma transmit_run s i b q : tback s -> tok (s_trans s) ((i, b) :: q) ->
  exists t d, transs (s_trans s) !! i = Some t /\ nfts (s_nft s) !! i = Some d /\ end_block (t_protocol t) = Some b /\
    transmit_nft i s = (Ok tt, s <| s_nft ::= fun n => n <| nfts ::= <[i := put_transmission false (d <| owner := t_recipient t |>)]> |> |>
      <| s_trans ::= fun x => x <| transs ::= delete i |> |>).
Proof.
  intros HI HT. destruct (to_entry _ _ HT i b) as (t&Ht&Et); [by left|].
  destruct (HI i t Ht) as [d Hd]. exists t, d. split_and!; try done.
  unfold transmit_nft, get_trans, get_nft, gets, unwrap, set_nft, del_trans, mod_nft, mod_trans, modify, bind. rewrite Ht, Hd. done.
Qed.
Lemma tok_transmit x i b q : tok x ((i, b) :: q) -> forall y, transs y = delete i (transs x) -> consents y = consents x -> tok y q.
Proof.
  intros HT. destruct (to_q _ _ HT) as [_ Hn]. cbn in Hn. apply NoDup_cons in Hn as [Hi _].
  intros y E1 E2. eapply (tok_remove _ _ q i (consents x) HT); [by apply sublist_cons|done| | |done|done].
  - intros j b' [[= -> ->]|?]%elem_of_cons ?; done.
  - intros j l Hl. split; [done|]. intros ->. destruct (to_cons _ _ HT _ _ Hl) as (?&?&?&?&?&?&?&?&Hnq). apply Hnq. left.
Qed.

Lemma state_eta s : s = s <| s_nft ::= fun n => n <| nfts := nfts (s_nft s) |> |> <| s_trans ::= fun x => x <| transs := transs (s_trans s) |> <| t_queue := t_queue (s_trans s) |> |> <| s_events := s_events s |>.
Proof. destruct s as [? ? ? [] ? ? ? [] ? ? ? ?]. reflexivity. Qed.

Lemma trans_loop_run fuel : forall now q acts s, tback s -> tok (s_trans s) q ->
  exists l rest s', trans_loop fuel now q acts s = (Ok (rest, acts + nlen l), s') /\ q = l ++ rest /\
    (forall x, x ∈ l -> snd x <= now) /\
    (fuel = length q -> trans_actions <= acts + nlen l \/ (forall x, x ∈ rest -> now < snd x)) /\
    acts + nlen l <= N.max (acts + 1) trans_actions /\ tdone s s' (l.*1) /\ tok (s_trans s') rest.
Proof.
  induction fuel as [|f IH]; intros now q acts s HB HT.
  { exists [], q, s. cbn [trans_loop nlen length]. rewrite N.add_0_r. split_and!; try done.
    - by intros x ?%elem_of_nil.
    - intros E. right. destruct q; [|done]. by intros x ?%elem_of_nil.
    - lia.
    - split; [by intros i ?%elem_of_nil|done|]. exists (nfts (s_nft s)), (transs (s_trans s)), (t_queue (s_trans s)). apply state_eta. }
  cbn [trans_loop]. destruct (q_pop now q) as [[i q']|] eqn:Ep.
  2: { exists [], q, s. cbn [nlen length]. rewrite N.add_0_r. split_and!; try done.
    - by intros x ?%elem_of_nil.
    - intros _. right. intros x Hx. eapply q_pop_none; [done|apply HT|done].
    - lia.
    - split; [by intros j ?%elem_of_nil|done|]. exists (nfts (s_nft s)), (transs (s_trans s)), (t_queue (s_trans s)). apply state_eta. }
  apply q_pop_some in Ep as (b&->&Hb). destruct (transmit_run s i b q' HB HT) as (t&d&Ht&Hd&_&E).
  set (s1 := s <| s_nft ::= _ |> <| s_trans ::= _ |>) in E. set (s2 := s1 <| s_events ::= cons (Ev_Transmitted i) |>).
  assert (HT2 : tok (s_trans s2) q') by (by eapply tok_transmit).
  assert (HB2 : tback s2).
  { intros j t' Ht'. cbn in Ht' |- *. apply lookup_delete_Some in Ht' as [Hne Ht']. rewrite lookup_insert_ne by done. by eapply HB. }
  assert (Hi : i ∉ q'.*1). { destruct (to_q _ _ HT) as [_ Hn]. cbn in Hn. by apply NoDup_cons in Hn as [? _]. }
  assert (Hone : forall s' l, tdone s2 s' (l.*1) -> i ∉ l.*1 -> tdone s s' (((i, b) :: l).*1)).
  { intros s' l [T1 T2 (m1&m2&qq&T3)] Hil. cbn [fmap list_fmap fst]. split.
    - intros j [->|Hj]%elem_of_cons.
      + exists t, d. destruct (T2 i Hil) as [-> ->]. cbn. rewrite lookup_delete, lookup_insert. done.
      + destruct (T1 j Hj) as (t'&d'&Ht'&Hd'&E1&E2). assert (i <> j) by (by intros ->).
        exists t', d'. cbn in Ht', Hd'. rewrite lookup_delete_ne in Ht' by done. rewrite lookup_insert_ne in Hd' by done. done.
    - intros j [Hne Hj]%not_elem_of_cons. destruct (T2 j Hj) as [-> ->]. cbn. rewrite lookup_delete_ne, lookup_insert_ne by done. done.
    - exists m1, m2, qq. rewrite T3. subst s2 s1. st_cbn. cbn [fmap list_fmap rev fst]. rewrite map_app, <- app_assoc. cbn [map app]. done. }
  unfold bind, catch. rewrite E. unfold emit, modify, ret. fold s2.
  destruct (trans_actions <=? acts + 1) eqn:Ea.
  - apply N.leb_le in Ea. exists [(i, b)], q', s2. cbn [nlen length]. split_and!; try done.
    + by intros x ->%elem_of_list_singleton.
    + intros _. left. done.
    + unfold nlen; cbn [length]; lia.
    + apply (Hone s2 []); [|by intros ?%elem_of_nil]. split; [by intros j ?%elem_of_nil|done|].
      exists (nfts (s_nft s2)), (transs (s_trans s2)), (t_queue (s_trans s2)). apply state_eta.
  - apply N.leb_gt in Ea. destruct (IH now q' (acts + 1) s2 HB2 HT2) as (l&rest&s'&E'&->&Hdue&Hend&Hmax&Hdone&Hok).
    exists ((i, b) :: l), rest, s'. rewrite E'.
    assert (En : acts + nlen ((i, b) :: l) = acts + 1 + nlen l) by (unfold nlen; cbn [length]; lia). rewrite En. split_and!; try done.
    + intros x [->|Hx]%elem_of_cons; [done|]. by apply Hdue.
    + intros E2. apply Hend. cbn in E2. by injection E2.
    + lia.
    + apply Hone; [done|]. intros Hx. apply Hi. rewrite fmap_app, elem_of_app. by left.
Qed.

Lemma trans_hook_run s : tback s -> tinv s ->
  exists l s', trans_on_initialize s = (Ok tt, s') /\ t_queue (s_trans s) = l ++ t_queue (s_trans s') /\
    (forall x, x ∈ l -> snd x <= s_now s) /\
    (N.max 1 trans_actions <= nlen l \/ (forall x, x ∈ t_queue (s_trans s') -> s_now s < snd x)) /\
    nlen l <= N.max 1 trans_actions /\ tdone s s' (l.*1) /\ tinv s'.
Proof.
  intros HB HT. unfold trans_on_initialize, bind, gets, modify.
  destruct (trans_loop_run (length (t_queue (s_trans s))) (s_now s) _ 0 s HB HT) as (l&rest&s'&E&Eq&Hdue&Hend&Hmax&[D1 D2 (m1&m2&q&D3)]&Hok).
  rewrite E. cbn [fst snd]. rewrite N.add_0_l in *. specialize (Hend eq_refl). unfold when, mod_trans, modify.
  destruct (0 <? nlen l) eqn:E0.
  - eexists l, _. split; [reflexivity|]. cbn. split_and!; try done.
    + apply N.ltb_lt in E0. destruct Hend as [?|?]; [left; lia|by right].
    + split; [done|done|]. exists m1, m2, rest. rewrite D3. done.
    + destruct Hok as [K1 K2 K3 K4 K5 K6]. split; done.
  - destruct l; [|by apply N.ltb_ge in E0; unfold nlen in E0; cbn in E0; lia]. cbn in Eq. subst rest.
    (* nothing was due: the loop did not touch the state *)
    assert (s' = s /\ forall x, x ∈ t_queue (s_trans s) -> s_now s < snd x) as [-> Hnone].
    { unfold trans_loop in E. destruct (t_queue (s_trans s)) as [|x q'] eqn:Eq'; cbn [length] in E; [split; [by injection E|by intros ? ?%elem_of_nil]|].
      fold trans_loop in E. destruct (q_pop _ _) as [[i q'']|] eqn:Ep; [|split; [by injection E|]; intros y Hy; eapply q_pop_none; [exact Ep| |exact Hy]; destruct (to_q _ _ HT) as [Hso _]; by rewrite Eq' in Hso].
      apply q_pop_some in Ep as (b&[= -> ->]&Hb). exfalso.
      destruct Hend as [Hend|Hend]; [|specialize (Hend (i, b)); cbn in Hend; assert (s_now s < b) by (apply Hend; left); lia].
      destruct (transmit_run s i b q'' HB) as (t&d&_&_&_&E1); [unfold tinv in HT; by rewrite Eq' in HT|].
      unfold bind, catch in E. rewrite E1 in E. unfold emit, modify, ret in E.
      unfold nlen in Hend. cbn in Hend. assert (trans_actions <=? 0 + 1 = true) as Ea by (apply N.leb_le; lia). rewrite Ea in E. discriminate E. }
    exists [], s. split_and!; try done; [by right|]. split; [by intros i ?%elem_of_nil|done|]. exists (nfts (s_nft s)), (transs (s_trans s)), (t_queue (s_trans s)). apply state_eta.
Qed.

Lemma inv1_tback s : inv1 s -> tback s.
Proof. intros HI i t Ht. destruct (trans_nft s i t HI Ht) as (d&Hd&_). eauto. Qed.

Lemma tinv_hook s h : inv1 s -> tinv s -> tinv (snd (run_hook h s)).
Proof.
  intros HI HT. pose proof (hook_kept h s) as Hk. unfold kept in Hk.
  destruct h; cbn [hook_pallet] in Hk; try (unfold tinv in *; destruct_and! Hk; match goal with E : s_trans _ = s_trans _ |- _ => rewrite E; exact HT end).
  cbn [run_hook]. destruct (trans_hook_run s (inv1_tback s HI) HT) as (l&s'&->&_&_&_&_&_&H). done.
Qed.
Lemma sreach_tinv s : sreach s -> tinv s.
Proof.
  intros H. induction H as [s Hs|s o c s' Hs IH Ha Hw Hm He|s ev Hs IH|s Hs IH|s h Hs IH|s e s' Hs IH Ha He].
  - destruct Hs as (now&era&bal&lk&->&_). split; cbn.
    + split; constructor.
    + unfold nlen. cbn. lia.
    + by intros i b ?%elem_of_nil.
    + intros k x b Hx; by apply lookup_empty_Some in Hx.
    + intros k x Hx; by apply lookup_empty_Some in Hx.
    + intros k x f y Hx; by apply lookup_empty_Some in Hx.
  - eapply (tinv_call s); eauto using sreach_inv1.
  - exact IH.
  - exact IH.
  - apply tinv_hook; [by apply sreach_inv1|done].
  - apply env_kept in He. unfold env_kept_from in He. destruct_and! He. unfold tinv in *. match goal with E : s_trans _ = s_trans _ |- _ => rewrite E; exact IH end.
Qed.
Lemma reachable_tinv s : reachable s -> tinv s.
Proof. intros H. apply sreach_tinv, reachable_sreach, H. Qed.
End transcalls.
