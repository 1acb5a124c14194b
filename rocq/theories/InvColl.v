(** Collections: how calls change them, and the cross-reference invariant. *)
From Verif Require Export Lists NftHook.
Local Open Scope N_scope.

Section coll.
Context {C : Config}.

Definition coll_of (s : state) (i : N) : option N := nfts (s_nft s) !! i ≫= collection_id.

Definition limit_ok (c : collection) : Prop :=
  forall l, c_limit c = Some l -> nlen (c_nfts c) <= l /\ l <= coll_size_limit.

Record cinv (s : state) : Prop := {
  ci_next : forall k, next_coll (s_nft s) <= k -> colls (s_nft s) !! k = None;
  ci_ref : forall i k, coll_of s i = Some k <-> exists c, colls (s_nft s) !! k = Some c /\ i ∈ c_nfts c;
  ci_ok : forall k c, colls (s_nft s) !! k = Some c ->
    NoDup (c_nfts c) /\ nlen (c_nfts c) <= coll_size_limit /\ limit_ok c
}.

(** The ways one small step changes the collections. *)
Definition same_coll (s s' : state) : Prop :=
  (forall i, coll_of s' i = coll_of s i) /\ colls (s_nft s') = colls (s_nft s) /\
  next_coll (s_nft s') = next_coll (s_nft s).

Inductive cstep (s s' : state) : Prop :=
| cs_same : same_coll s s' -> cstep s s'
| cs_add i k c :
    colls (s_nft s) !! k = Some c -> c_closed c = false -> nlen (c_nfts c) < default coll_size_limit (c_limit c) ->
    nlen (c_nfts c) < coll_size_limit -> coll_of s i = None -> coll_of s' i = Some k ->
    (forall j, j <> i -> coll_of s' j = coll_of s j) ->
    colls (s_nft s') = <[k := c <| c_nfts ::= fun l => l ++ [i] |>]> (colls (s_nft s)) ->
    next_coll (s_nft s') = next_coll (s_nft s) -> cstep s s'
| cs_remove i k c p :
    colls (s_nft s) !! k = Some c -> coll_of s i = Some k -> position (N.eqb i) (c_nfts c) = Some p ->
    coll_of s' i = None -> (forall j, j <> i -> coll_of s' j = coll_of s j) ->
    colls (s_nft s') = <[k := c <| c_nfts ::= swap_remove p |>]> (colls (s_nft s)) ->
    next_coll (s_nft s') = next_coll (s_nft s) -> cstep s s'
| cs_set k c c' :
    colls (s_nft s) !! k = Some c -> c_nfts c' = c_nfts c -> c_owner c' = c_owner c ->
    (c_closed c = true -> c_closed c' = true) ->
    (c_limit c' = c_limit c \/ (c_limit c = None /\ exists l, c_limit c' = Some l /\ nlen (c_nfts c) <= l /\ l <= coll_size_limit)) ->
    (forall j, coll_of s' j = coll_of s j) ->
    colls (s_nft s') = <[k := c']> (colls (s_nft s)) ->
    next_coll (s_nft s') = next_coll (s_nft s) -> cstep s s'
| cs_create c' :
    c_nfts c' = [] -> limit_ok c' -> (forall j, coll_of s' j = coll_of s j) ->
    colls (s_nft s') = <[next_coll (s_nft s) := c']> (colls (s_nft s)) ->
    next_coll (s_nft s') = next_coll (s_nft s) + 1 -> cstep s s'
| cs_burn k c :
    colls (s_nft s) !! k = Some c -> c_nfts c = [] -> (forall j, coll_of s' j = coll_of s j) ->
    colls (s_nft s') = delete k (colls (s_nft s)) ->
    next_coll (s_nft s') = next_coll (s_nft s) -> cstep s s'.

Lemma cinv_step s s' : cinv s -> cstep s s' -> cinv s'.
Proof.
  intros [I1 I2 I3] H. destruct H as [(E1&E2&E3)|i k c Hc Hcl Hl1 Hl2 Hi Hi' Hj Ec En|i k c p Hc Hi Hp Hi' Hj Ec En
    |k c c' Hc Hn Ho Hcl Hl Hj Ec En|c' Hn Hl Hj Ec En|k c Hc Hn Hj Ec En].
  - split; rewrite ?E2, ?E3; try done. intros i k. rewrite E1. apply I2.
  - assert (Hni : i ∉ c_nfts c).
    { intros Hin. assert (coll_of s i = Some k) by (apply I2; eauto). congruence. }
    split; rewrite ?Ec, ?En.
    + intros j Hj'. rewrite lookup_insert_ne; [auto|]. intros ->. rewrite I1 in Hc; done.
    + intros j k'. destruct (decide (j = i)) as [->|Hne].
      * rewrite Hi'. split.
        -- intros [= <-]. eexists. rewrite lookup_insert. split; [done|]. cbn. set_solver.
        -- intros (c'&Hc'&Hin). destruct (decide (k' = k)) as [->|]; [done|].
           rewrite lookup_insert_ne in Hc' by done. assert (coll_of s i = Some k') by (apply I2; eauto). congruence.
      * rewrite Hj, I2 by done. destruct (decide (k' = k)) as [->|].
        -- rewrite lookup_insert. rewrite Hc. split.
           ++ intros (x&[= <-]&Hin). eexists. split; [done|]. cbn. set_solver.
           ++ intros (x&[= <-]&Hin). cbn in Hin. eexists. split; [done|]. set_solver.
        -- by rewrite lookup_insert_ne.
    + intros k' c' Hc'. destruct (decide (k' = k)) as [->|]; [|rewrite lookup_insert_ne in Hc' by done; eauto].
      rewrite lookup_insert in Hc'. injection Hc' as <-. destruct (I3 k c Hc) as (D1&D2&D3). cbn. split; [|split].
      * apply NoDup_app. split; [done|]. split; [set_solver|]. apply NoDup_singleton.
      * rewrite nlen_app. change (nlen [i]) with 1. clear -Hl2. lia.
      * intros l Hl. cbn in Hl. destruct (D3 l Hl) as [_ ?]. split; [|done]. cbn.
        rewrite nlen_app. change (nlen [i]) with 1. rewrite Hl in Hl1. cbn in Hl1. clear -Hl1. lia.
  - destruct (I3 k c Hc) as (D1&D2&D3).
    pose proof (swap_remove_perm _ _ _ (position_eqb _ _ _ Hp)) as HP.
    assert (HD : NoDup (i :: swap_remove p (c_nfts c))) by (by rewrite HP).
    apply NoDup_cons in HD as [HD1 HD2].
    assert (HL : nlen (swap_remove p (c_nfts c)) + 1 = nlen (c_nfts c)) by (rewrite <- (nlen_perm _ _ HP), nlen_cons; done).
    split; rewrite ?Ec, ?En.
    + intros j Hj'. rewrite lookup_insert_ne; [auto|]. intros ->. rewrite I1 in Hc; done.
    + intros j k'. destruct (decide (j = i)) as [->|Hne].
      * rewrite Hi'. split; [done|]. intros (c'&Hc'&Hin). exfalso. destruct (decide (k' = k)) as [->|].
        -- rewrite lookup_insert in Hc'. injection Hc' as <-. done.
        -- rewrite lookup_insert_ne in Hc' by done. assert (coll_of s i = Some k') by (apply I2; eauto). congruence.
      * rewrite Hj, I2 by done. destruct (decide (k' = k)) as [->|]; [|by rewrite lookup_insert_ne].
        rewrite lookup_insert, Hc. split.
        -- intros (x&[= <-]&Hin). eexists. split; [done|]. cbn. rewrite <- HP in Hin. set_solver.
        -- intros (x&[= <-]&Hin). cbn in Hin. eexists. split; [done|]. rewrite <- HP. set_solver.
    + intros k' c' Hc'. destruct (decide (k' = k)) as [->|]; [|rewrite lookup_insert_ne in Hc' by done; eauto].
      rewrite lookup_insert in Hc'. injection Hc' as <-. cbn. split; [done|]. split; [clear -HL D2; lia|].
      intros l Hl. cbn in Hl. destruct (D3 l Hl) as [? ?]. split; [|done]. cbn. clear -HL H. lia.
  - destruct (I3 k c Hc) as (D1&D2&D3). split; rewrite ?Ec, ?En.
    + intros j Hj'. rewrite lookup_insert_ne; [auto|]. intros ->. rewrite I1 in Hc; done.
    + intros j k'. rewrite Hj, I2. destruct (decide (k' = k)) as [->|]; [|by rewrite lookup_insert_ne].
      rewrite lookup_insert, Hc. split; intros (x&[= <-]&Hin); (eexists; split; [done|]); congruence.
    + intros k' x Hx. destruct (decide (k' = k)) as [->|]; [|rewrite lookup_insert_ne in Hx by done; eauto].
      rewrite lookup_insert in Hx. injection Hx as <-. unfold limit_ok. rewrite Hn. split; [done|]. split; [done|].
      intros l Hl'. destruct Hl as [Hl|(_&l'&Hl1&Hl2)]; [apply D3; congruence|].
      replace l with l' by congruence. done.
  - split; rewrite ?Ec, ?En.
    + intros j Hj'. rewrite lookup_insert_ne; [apply I1|]; clear -Hj'; lia.
    + intros j k'. rewrite Hj, I2. destruct (decide (k' = next_coll (s_nft s))) as [->|]; [|by rewrite lookup_insert_ne].
      rewrite lookup_insert, (I1 _ (N.le_refl _)). split; [by intros (x&?&_)|].
      intros (x&[= <-]&Hin). rewrite Hn in Hin. set_solver.
    + intros k' x Hx. destruct (decide (k' = next_coll (s_nft s))) as [->|]; [|rewrite lookup_insert_ne in Hx by done; eauto].
      rewrite lookup_insert in Hx. injection Hx as <-. rewrite Hn. split; [constructor|]. split; [unfold nlen; cbn; lia|done].
  - split; rewrite ?Ec, ?En.
    + intros j Hj'. rewrite lookup_delete_None. auto.
    + intros j k'. rewrite Hj, I2. destruct (decide (k' = k)) as [->|]; [|by rewrite lookup_delete_ne].
      rewrite lookup_delete, Hc. split; [|by intros (x&?&_)]. intros (x&[= <-]&Hin). rewrite Hn in Hin. set_solver.
    + intros k' x Hx. apply lookup_delete_Some in Hx as [_ Hx]. eauto.
Qed.

(** Two-state view: what a closed or limited collection keeps. *)
Definition crel (s s' : state) : Prop :=
  next_coll (s_nft s) <= next_coll (s_nft s') /\
  forall k, k < next_coll (s_nft s) ->
    match colls (s_nft s) !! k, colls (s_nft s') !! k with
    | None, None => True
    | None, Some _ => False
    | Some c, None => True
    | Some c, Some c' => c_owner c' = c_owner c /\ (c_closed c = true -> c_closed c' = true /\ c_nfts c' ⊆ c_nfts c) /\
        (forall l, c_limit c = Some l -> c_limit c' = Some l)
    end.
Lemma crel_refl s : crel s s.
Proof. split; [lia|]. intros k _. destruct (colls (s_nft s) !! k); [|done]. split_and!; done. Qed.
Lemma crel_trans s1 s2 s3 : crel s1 s2 -> crel s2 s3 -> crel s1 s3.
Proof.
  intros [A1 A2] [B1 B2]. split; [lia|]. intros k Hk. specialize (A2 k Hk). specialize (B2 k ltac:(lia)).
  destruct (colls (s_nft s1) !! k), (colls (s_nft s2) !! k), (colls (s_nft s3) !! k); try done.
  destruct A2 as (?&A2&A3), B2 as (?&B2&B3). split; [congruence|]. split; [|auto].
  intros H'. destruct (A2 H') as [? ?]. destruct B2 as [? ?]; [done|]. split; [done|]. by etrans.
Qed.
Lemma cstep_crel s s' : cinv s -> cstep s s' -> crel s s'.
Proof.
  intros [I1 I2 I3] H.
  assert (Hin : forall k c c', colls (s_nft s) !! k = Some c -> c_owner c' = c_owner c ->
     (c_closed c = true -> c_closed c' = true /\ c_nfts c' ⊆ c_nfts c) ->
     (forall l, c_limit c = Some l -> c_limit c' = Some l) ->
     colls (s_nft s') = <[k := c']> (colls (s_nft s)) -> next_coll (s_nft s') = next_coll (s_nft s) -> crel s s').
  { intros k c c' Hc Ho Hcl Hl Ec En. split; [lia|]. intros k' _. rewrite Ec. destruct (decide (k' = k)) as [->|].
    - rewrite lookup_insert, Hc. done.
    - rewrite lookup_insert_ne by done. destruct (colls (s_nft s) !! k'); [|done]. split_and!; done. }
  destruct H as [(E1&E2&E3)|i k c Hc Hcl Hl1 Hl2 Hi Hi' Hj Ec En|i k c p Hc Hi Hp Hi' Hj Ec En
    |k c c' Hc Hn Ho Hcl Hl Hj Ec En|c' Hn Hl Hj Ec En|k c Hc Hn Hj Ec En].
  - split; [lia|]. rewrite E2. apply crel_refl.
  - eapply (Hin k c); [done| | | |exact Ec|done]; st_cbn; try done. intros; congruence.
  - eapply (Hin k c); [done| | | |exact Ec|done]; st_cbn; try done. intros ?. split; [done|].
    pose proof (swap_remove_perm _ _ _ (position_eqb _ _ _ Hp)) as HP. intros x Hx. rewrite <- HP. set_solver.
  - eapply Hin; eauto; [|by intros l' ?; destruct Hl as [?|(?&_)]; congruence].
    intros H. split; [auto|]. by rewrite Hn.
  - split; [lia|]. intros k Hk. rewrite Ec, lookup_insert_ne by lia.
    destruct (colls (s_nft s) !! k); [|done]. split_and!; done.
  - split; [lia|]. intros k' _. rewrite Ec. destruct (decide (k' = k)) as [->|].
    + by rewrite lookup_delete, Hc.
    + rewrite lookup_delete_ne by done. destruct (colls (s_nft s) !! k'); [|done]. split_and!; done.
Qed.

(** ** Calls *)

Definition coll_call (c : call) : bool :=
  match c with
  | C_create_nft _ _ _ _ | C_create_secret_nft _ _ _ _ _ | C_create_capsule _ _ _ _ _ | C_burn_nft _
  | C_create_collection _ _ | C_burn_collection _ | C_close_collection _ | C_limit_collection _ _
  | C_add_nft_to_collection _ _ | C_set_collection_offchaindata _ _ | C_mandate _ => true
  | _ => false
  end.

Lemma exec_colls o c t : coll_call c = false ->
  pres (fun s => colls (s_nft s) = colls (s_nft t) /\ next_coll (s_nft s) = next_coll (s_nft t)) (exec_call o c).
Proof.
  intros Hm. destruct c; try discriminate Hm; clear Hm; cbn [exec_call];
    unfold signed, root, external.
  all: pres_go; st_cbn; assumption.
Qed.

Lemma hook_colls h t :
  pres (fun s => colls (s_nft s) = colls (s_nft t) /\ next_coll (s_nft s) = next_coll (s_nft t)) (run_hook h).
Proof.
  destruct h; cbn [run_hook].
  - apply pres_auction_hook; [|intros; st_cbn; assumption]. intros id. pres_go; st_cbn; assumption.
  - apply pres_rent_hook; [| | |intros; st_cbn; assumption]; intros; pres_go; st_cbn; assumption.
  - apply pres_trans_hook; [| |intros; st_cbn; assumption]; intros; pres_go; st_cbn; assumption.
  - pres_go; st_cbn; assumption.
Qed.

Lemma hook_cstep s h : inv1 s -> cstep s (snd (run_hook h s)).
Proof.
  intros HI. apply cs_same. destruct (hook_colls h s s) as [H1 H2]; [done|]. split; [|done].
  intros i. unfold coll_of. pose proof (h_nft _ _ (hook_hrel s h HI) i) as H.
  destruct (nfts (s_nft s) !! i) as [d|]; [|by rewrite H].
  destruct H as (d'&->&Ht&_). unfold same_traits in Ht. cbn. tauto.
Qed.

Lemma cstep_then s s1 s' : cstep s s1 -> same_coll s1 s' -> cstep s s'.
Proof.
  intros H (E1&E2&E3).
  destruct H as [(F1&F2&F3)|i k c Hc Hcl Hl1 Hl2 Hi Hi' Hj Ec En|i k c p Hc Hi Hp Hi' Hj Ec En
    |k c c' Hc Hn Ho Hcl Hl Hj Ec En|c' Hn Hl Hj Ec En|k c Hc Hn Hj Ec En].
  - apply cs_same. split; [intros; by rewrite E1|]. split; congruence.
  - eapply (cs_add _ _ i k c); eauto; try congruence. intros. rewrite E1. eauto.
  - eapply (cs_remove _ _ i k c p); eauto; try congruence. intros. rewrite E1. eauto.
  - eapply (cs_set _ _ k c c'); eauto; try congruence.
  - eapply (cs_create _ _ c'); eauto; try congruence.
  - eapply (cs_burn _ _ k c); eauto; try congruence.
Qed.

Lemma cstep_create_nft s who data roy co sb s' :
  inv1 s -> create_nft who data roy co sb s = (Ok tt, s') -> cstep s s'.
Proof.
  intros HI H. assert (Hn : nfts (s_nft s) !! next_nft (s_nft s) = None) by (apply (i_next s HI); lia).
  unfold create_nft in H. minv H; subst s'.
  - eapply (cs_add _ _ (next_nft (s_nft s)) _ x); st_cbn; eauto; unfold coll_of; st_cbn.
    + by rewrite Hn.
    + by rewrite lookup_insert.
    + intros j Hj. by rewrite lookup_insert_ne.
  - apply cs_same. split; [|done]. intros i. unfold coll_of. st_cbn.
    destruct (decide (i = next_nft (s_nft s))) as [->|]; [|by rewrite lookup_insert_ne].
    by rewrite lookup_insert, Hn.
Qed.

Lemma cstep_call s o c s' : inv1 s -> is_mandate c = false -> exec_call o c s = (Ok tt, s') -> cstep s s'.
Proof.
  intros HI Hm He. destruct (coll_call c) eqn:Hcc.
  - destruct c; try discriminate Hcc; try discriminate Hm; cbn [exec_call] in He; unfold signed in He;
      destruct o; try discriminate He.
    + by eapply cstep_create_nft.
    + unfold burn_nft in He. do 7 mstep He. apply bind_ok in He as ([]&s1&H1&He).
      assert (Hrest : forall i, nfts (s_nft s') !! i = delete id (nfts (s_nft s)) !! i /\
         colls (s_nft s') = colls (s_nft s1) /\ next_coll (s_nft s') = next_coll (s_nft s1)).
      { assert (nfts (s_nft s1) = nfts (s_nft s)) as E5 by (minv H1; by subst).
        intros i. minv He; subst s'; st_cbn; rewrite E5; done. }
      assert (Hc : forall i, coll_of s' i = if decide (i = id) then None else coll_of s i).
      { intros i. unfold coll_of. destruct (Hrest i) as [-> _]. destruct (decide (i = id)) as [->|].
        - by rewrite lookup_delete. - by rewrite lookup_delete_ne. }
      destruct (Hrest 0) as (_&R1&R2). minv H1.
      * eapply (cs_remove _ _ id _ x0 x1); eauto.
        -- unfold coll_of. by rewrite U.
        -- rewrite Hc. by rewrite decide_True.
        -- intros j Hj. rewrite Hc. by rewrite decide_False.
        -- rewrite R1, H1. done.
        -- rewrite R2, H1. done.
      * subst s1. apply cs_same. split; [|done]. intros i. rewrite Hc. destruct (decide (i = id)) as [->|]; [|done].
        unfold coll_of. rewrite U. done.
    + minv He; subst s'.
      all: eapply cs_create; [| | |st_cbn; reflexivity|st_cbn; reflexivity]; [reflexivity| |reflexivity].
      all: intros l Hl; cbn in Hl; simplify_eq; cbn; unfold nlen; cbn; lia.
    + minv He; subst s'. eapply (cs_burn _ _ coll x); [exact U| |st_cbn; reflexivity..].
      destruct (c_nfts x); [done|]. by rewrite nlen_cons in E0; lia.
    + minv He; subst s'. eapply (cs_set _ _ coll x (x <| c_closed := true |>)); try done. by left.
    + minv He; subst s'. eapply (cs_set _ _ coll x (x <| c_limit := Some limit |>)); try done. right. split; [done|]. eauto.
    + minv He; subst s'. eapply (cs_add _ _ id coll x); st_cbn; eauto; unfold coll_of; st_cbn.
      * by rewrite U0.
      * by rewrite lookup_insert.
      * intros j Hj. by rewrite lookup_insert_ne.
    + unfold create_secret_nft in He. do 2 mstep He. apply bind_ok in He as ([]&s1&H1&He).
      eapply cstep_then; [by eapply cstep_create_nft|].
      minv He; subst s'. split; [|done]. intros i. unfold coll_of. st_cbn.
      match goal with |- context [<[?k := _]> _] => destruct (decide (i = k)) as [->|]; [|by rewrite lookup_insert_ne] end.
      rewrite lookup_insert, U. done.
    + unfold create_capsule in He. do 2 mstep He. apply bind_ok in He as ([]&s1&H1&He).
      eapply cstep_then; [by eapply cstep_create_nft|].
      minv He; subst s'. split; [|done]. intros i. unfold coll_of. st_cbn.
      match goal with |- context [<[?k := _]> _] => destruct (decide (i = k)) as [->|]; [|by rewrite lookup_insert_ne] end.
      rewrite lookup_insert, U. done.
    + minv He; subst s'. eapply (cs_set _ _ coll x (x <| c_offchain := data |>)); try done. by left.
  - pose proof (exec_colls o c s Hcc s) as Hk. rewrite He in Hk. destruct Hk as [H1 H2]; [done|].
    apply cs_same. split; [|done]. intros i. unfold coll_of.
    destruct (nft_call s o c s' HI Hm He) as (G1&G2&_).
    destruct (nfts (s_nft s) !! i) as [d|] eqn:Hd.
    + specialize (G1 i d Hd). unfold evolves in G1. destruct (nfts (s_nft s') !! i) as [d'|].
      * destruct G1 as (_&_&_&[G|(k&->&_)]&_); [done|discriminate].
      * destruct G1 as [-> _]. discriminate.
    + destruct (nfts (s_nft s') !! i) as [d'|] eqn:Hd'; [|done].
      destruct (G2 i d' Hd Hd') as (_&_&_&_&G). by destruct c.
Qed.

Lemma cinv_genesis s : genesis s -> cinv s.
Proof.
  intros (now&era&bal&lk&->&_). split; cbn.
  - intros i _. apply lookup_empty.
  - intros i k. unfold coll_of. cbn. rewrite !lookup_empty. split; [done|]. by intros (c&?&_).
  - intros k c. by rewrite lookup_empty.
Qed.

Lemma sstep_cstep s s' : inv1 s -> sstep s s' -> cstep s s'.
Proof.
  intros HI [o c s2 ? ? ? ?| | | |e s2 ? He].
  - by eapply cstep_call.
  - by apply cs_same.
  - by apply cs_same.
  - by apply hook_cstep.
  - apply env_kept in He. unfold env_kept_from in He. destruct_and! He.
    apply cs_same. unfold same_coll, coll_of. split_and!; congruence.
Qed.

Lemma sreach_cinv s : sreach s -> cinv s.
Proof.
  induction 1 as [s Hs|s o c s' Hs IH Ha Hw Hm He|s ev Hs IH|s Hs IH|s h Hs IH|s e s' Hs IH Ha He].
  - by apply cinv_genesis.
  - eapply cinv_step; [exact IH|]. eapply cstep_call; eauto. by apply sreach_inv1.
  - eapply cinv_step; [exact IH|]. by apply cs_same.
  - eapply cinv_step; [exact IH|]. by apply cs_same.
  - eapply cinv_step; [exact IH|]. apply hook_cstep. by apply sreach_inv1.
  - eapply cinv_step; [exact IH|]. eapply sstep_cstep; [by apply sreach_inv1|]. by eapply ss_env.
Qed.
Lemma reachable_cinv s : reachable s -> cinv s.
Proof. intros H. by apply sreach_cinv, reachable_sreach. Qed.

Lemma later_crel s s' : reachable s -> later s s' -> crel s s'.
Proof.
  apply (later_rel crel); [apply crel_refl|apply crel_trans|]. intros t t' Ht Hst.
  apply cstep_crel; [by apply sreach_cinv|]. apply sstep_cstep; [by apply sreach_inv1|done].
Qed.
End coll.
