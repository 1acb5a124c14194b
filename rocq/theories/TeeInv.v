(** The invariant of the TEE pallet's storages. *)
From Verif Require Export RentFacts MktFacts.
Local Open Scope N_scope.

Section lists.
Lemma remove_op_ok op l : NoDup l -> NoDup (remove_op op l) /\ nlen (remove_op op l) <= nlen l /\ forall x, x ∈ remove_op op l <-> x ∈ l /\ x <> op.
Proof.
  intros Hn. unfold remove_op. destruct (position (N.eqb op) l) as [p|] eqn:Ep.
  - pose proof (swap_remove_perm _ _ _ (position_eqb _ _ _ Ep)) as HP.
    assert (HD : NoDup (op :: swap_remove p l)) by (by rewrite HP). apply NoDup_cons in HD as [H1 H2].
    split; [done|]. split; [rewrite <- (nlen_perm _ _ HP), nlen_cons; lia|].
    intros x. assert (x ∈ l <-> x ∈ op :: swap_remove p l) as -> by (split; intros Hx; [by rewrite HP|by rewrite HP in Hx]). rewrite elem_of_cons. split; [|naive_solver]. intros Hx. split; [by right|]. by intros ->.
  - split; [done|]. split; [lia|]. intros x. split; [|by intros [? _]]. intros Hx. split; [done|]. intros ->.
    destruct (position_elem l op Hx). congruence.
Qed.
Lemma remove_cluster_ok op (l : list (N * N)) : NoDup (l.*1) ->
  NoDup ((remove_from_cluster op l).*1) /\ nlen (remove_from_cluster op l) <= nlen l /\
  forall x, x ∈ (remove_from_cluster op l).*1 <-> x ∈ l.*1 /\ x <> op.
Proof.
  intros Hn. unfold remove_from_cluster. destruct (position _ l) as [p|] eqn:Ep.
  - destruct (position_lookup _ _ _ Ep) as (y&Hy&Ey). apply N.eqb_eq in Ey.
    pose proof (swap_remove_perm _ _ _ Hy) as HP. pose proof (fmap_Permutation fst _ _ HP) as HP1. cbn [fmap list_fmap] in HP1. rewrite Ey in HP1.
    assert (HD : NoDup (op :: (swap_remove p l).*1)) by (by rewrite HP1). apply NoDup_cons in HD as [H1 H2].
    split; [done|]. split; [rewrite <- (nlen_perm _ _ HP), nlen_cons; lia|].
    intros x. assert (x ∈ l.*1 <-> x ∈ op :: (swap_remove p l).*1) as -> by (split; intros Hx; [by rewrite HP1|by rewrite HP1 in Hx]). rewrite elem_of_cons. split; [|naive_solver]. intros Hx. split; [by right|]. by intros ->.
  - split; [done|]. split; [lia|]. intros x. split; [|by intros [? _]]. intros Hx. split; [done|]. intros ->.
    apply elem_of_list_fmap in Hx as (y&E1&Hy). pose proof (position_None _ _ _ Ep Hy) as E2. cbn in E2. rewrite <- E1, N.eqb_refl in E2. done.
Qed.
End lists.

Section teeinv.
Context {C : Config}.

Record teeok (t : tee_st) : Prop := {
  k_cluster : forall op, is_Some (encs t !! op) <-> is_Some (enc_cluster t !! op);
  k_era : forall op, is_Some (encs t !! op) <-> is_Some (assigned_era t !! op);
  k_in : forall op c, enc_cluster t !! op = Some c <-> exists cl, clusters t !! c = Some cl /\ op ∈ (cl_enclaves cl).*1;
  k_list : forall c cl, clusters t !! c = Some cl -> NoDup ((cl_enclaves cl).*1) /\ nlen (cl_enclaves cl) <= cluster_size /\ c < next_cluster t;
  k_regs : forall op r, regs t !! op = Some r -> encs t !! op = None /\ op <> e_addr r /\ exists l, ledgers t !! op = Some l /\ l_unlocking l = false;
  k_upd : forall op, is_Some (updates t !! op) -> is_Some (encs t !! op);
  k_unreg : NoDup (unregs t) /\ nlen (unregs t) <= list_limit;
  k_unreg_enc : forall op, op ∈ unregs t -> is_Some (encs t !! op);
  k_addr : forall op e, encs t !! op = Some e -> addr_op t !! e_addr e = Some op /\ op <> e_addr e;
  k_stake : forall op, is_Some (encs t !! op) -> op ∉ unregs t -> exists l, ledgers t !! op = Some l /\ l_unlocking l = false
}.

Lemma none_true {A} (o : option A) : none o = true <-> o = None.
Proof. by destruct o. Qed.

Lemma enc_no_reg t op : teeok t -> is_Some (encs t !! op) -> regs t !! op = None.
Proof. intros H [e He]. destruct (regs t !! op) eqn:E; [|done]. destruct (k_regs t H op _ E) as [? _]. congruence. Qed.

(** *** Changes of the ledgers, registrations and requests only *)
Lemma teeok_same t t' : teeok t -> encs t' = encs t -> enc_cluster t' = enc_cluster t -> assigned_era t' = assigned_era t -> clusters t' = clusters t ->
  next_cluster t' = next_cluster t -> addr_op t' = addr_op t ->
  (forall op r, regs t' !! op = Some r -> encs t !! op = None /\ op <> e_addr r /\ exists l, ledgers t' !! op = Some l /\ l_unlocking l = false) ->
  (forall op, is_Some (updates t' !! op) -> is_Some (encs t !! op)) ->
  NoDup (unregs t') /\ nlen (unregs t') <= list_limit -> (forall op, op ∈ unregs t' -> is_Some (encs t !! op)) ->
  (forall op, is_Some (encs t !! op) -> op ∉ unregs t' -> exists l, ledgers t' !! op = Some l /\ l_unlocking l = false) -> teeok t'.
Proof.
  intros [H1 H2 H3 H4 H5 H6 H7 H8 H9 H10] E1 E2 E3 E4 E5 E6 A B D E F. split; rewrite ?E1, ?E2, ?E3, ?E4, ?E5, ?E6; done.
Qed.

Lemma teeok_detach t t' op e c cl : teeok t -> encs t !! op = Some e -> enc_cluster t !! op = Some c -> clusters t !! c = Some cl ->
  encs t' = delete op (encs t) -> enc_cluster t' = delete op (enc_cluster t) -> assigned_era t' = delete op (assigned_era t) ->
  clusters t' = <[c := cl <| cl_enclaves ::= remove_from_cluster op |>]> (clusters t) -> next_cluster t' = next_cluster t ->
  addr_op t' = delete (e_addr e) (addr_op t) -> regs t' = regs t -> updates t' = delete op (updates t) -> unregs t' = remove_op op (unregs t) ->
  (forall o, o <> op -> ledgers t' !! o = ledgers t !! o) -> teeok t'.
Proof.
  intros HK He Hc Hcl E1 E2 E3 E4 E5 E6 E7 E8 E9 E10. destruct HK as [H1 H2 H3 H4 H5 H6 [H7 H7'] H8 H9 H10].
  destruct (H4 c cl Hcl) as (N1&N2&N3). destruct (remove_cluster_ok op (cl_enclaves cl) N1) as (R1&R2&R3).
  destruct (remove_op_ok op (unregs t) H7) as (U1&U2&U3).
  assert (Hdel : forall {A} (m : gmap N A) o, is_Some (delete op m !! o) <-> is_Some (m !! o) /\ o <> op).
  { intros A m o. rewrite lookup_delete_is_Some. clear. naive_solver. }
  split; rewrite ?E1, ?E2, ?E3, ?E4, ?E5, ?E6, ?E7, ?E8, ?E9.
  - intros o. rewrite !Hdel, H1. done.
  - intros o. rewrite !Hdel, H2. done.
  - intros o d. rewrite lookup_delete_Some, H3. split.
    + intros (Hne&cl'&Hcl'&Hin). destruct (decide (d = c)) as [->|Hd].
      * rewrite lookup_insert. eexists. split; [done|]. cbn. apply R3. assert (cl' = cl) as -> by congruence. done.
      * rewrite lookup_insert_ne by done. eauto.
    + intros (cl'&Hcl'&Hin). apply lookup_insert_Some in Hcl' as [[<- <-]|[Hd Hcl']].
      * cbn in Hin. apply R3 in Hin as [Hin Hne]. split; [done|]. eauto.
      * split; [|eauto]. intros <-. assert (enc_cluster t !! op = Some d) as E by (apply H3; eauto). congruence.
  - intros d cl' Hcl'. apply lookup_insert_Some in Hcl' as [[<- <-]|[Hd Hcl']]; [|by apply H4]. cbn. split; [done|]. split; [lia|done].
  - intros o r Hr. destruct (H5 o r Hr) as (K1&K2&K3). assert (o <> op) by (intros ->; congruence). rewrite lookup_delete_ne by done. rewrite E10 by done. done.
  - intros o. rewrite !Hdel. intros [? ?]. split; [by apply H6|done].
  - split; [done|lia].
  - intros o [Ho Hne]%U3. apply Hdel. split; [by apply H8|done].
  - intros o e' [Hne He']%lookup_delete_Some. destruct (H9 o e' He') as [K1 K2]. split; [|done]. rewrite lookup_delete_ne; [done|].
    intros Heq. destruct (H9 op e He) as [K3 _]. rewrite Heq in K3. congruence.
  - intros o [Ho Hne]%Hdel Hn. rewrite E10 by done. apply H10; [done|]. intros Hx. apply Hn, U3. done.
Qed.

Lemma teeok_assign t t' op r c cl era slot : teeok t -> regs t !! op = Some r -> clusters t !! c = Some cl -> nlen (cl_enclaves cl) < cluster_size ->
  addr_op t !! e_addr r = None -> encs t !! op = None ->
  encs t' = <[op := r]> (encs t) -> enc_cluster t' = <[op := c]> (enc_cluster t) -> assigned_era t' = <[op := era]> (assigned_era t) ->
  clusters t' = <[c := cl <| cl_enclaves ::= fun l => l ++ [(op, slot)] |>]> (clusters t) -> next_cluster t' = next_cluster t ->
  addr_op t' = <[e_addr r := op]> (addr_op t) -> regs t' = delete op (regs t) -> updates t' = updates t -> unregs t' = unregs t -> ledgers t' = ledgers t -> teeok t'.
Proof.
  intros HK Hr Hcl Hlen Ha He E1 E2 E3 E4 E5 E6 E7 E8 E9 E10. destruct HK as [H1 H2 H3 H4 H5 H6 [H7 H7'] H8 H9 H10].
  destruct (H4 c cl Hcl) as (N1&N2&N3). destruct (H5 op r Hr) as (_&Hne0&l0&Hl0&Hu0).
  assert (Hec : enc_cluster t !! op = None).
  { destruct (enc_cluster t !! op) eqn:E; [|done]. assert (is_Some (encs t !! op)) as [? ?] by (apply H1; eauto). congruence. }
  assert (Hins : forall {A} (m : gmap N A) v o, is_Some (<[op := v]> m !! o) <-> o = op \/ is_Some (m !! o)).
  { intros A m v o. rewrite lookup_insert_is_Some'. clear. naive_solver. }
  split; rewrite ?E1, ?E2, ?E3, ?E4, ?E5, ?E6, ?E7, ?E8, ?E9, ?E10.
  - intros o. rewrite !Hins, H1. done.
  - intros o. rewrite !Hins, H2. done.
  - intros o d. rewrite lookup_insert_Some, H3. split.
    + intros [[<- <-]|(Hne&cl'&Hcl'&Hin)].
      * rewrite lookup_insert. eexists. split; [done|]. cbn. rewrite fmap_app. apply elem_of_app. right. cbn. left.
      * destruct (decide (d = c)) as [->|Hd]; [|rewrite lookup_insert_ne by done; eauto]. rewrite lookup_insert. eexists. split; [done|]. cbn.
        rewrite fmap_app. apply elem_of_app. left. assert (cl' = cl) as -> by congruence. done.
    + intros (cl'&Hcl'&Hin). apply lookup_insert_Some in Hcl' as [[<- <-]|[Hd Hcl']].
      * cbn in Hin. rewrite fmap_app in Hin. apply elem_of_app in Hin as [Hin|Hin].
        -- right. split; [|eauto]. intros <-. assert (enc_cluster t !! op = Some c) by (apply H3; eauto). congruence.
        -- cbn in Hin. apply elem_of_list_singleton in Hin as ->. by left.
      * right. split; [|eauto]. intros <-. assert (enc_cluster t !! op = Some d) by (apply H3; eauto). congruence.
  - intros d cl' Hcl'. apply lookup_insert_Some in Hcl' as [[<- <-]|[Hd Hcl']]; [|by apply H4]. cbn. rewrite fmap_app. split_and!; try done.
    + apply NoDup_app. split; [done|]. cbn. split; [|apply NoDup_singleton]. intros x Hx Hy%elem_of_list_singleton. subst x.
      assert (enc_cluster t !! op = Some c) by (apply H3; eauto). congruence.
    + unfold nlen in *. rewrite app_length. cbn [length]. lia.
  - intros o r' [Hne Hr']%lookup_delete_Some. rewrite lookup_insert_ne by done. by apply H5.
  - intros o Ho. apply Hins. right. by apply H6.
  - done.
  - intros o Ho. apply Hins. right. by apply H8.
  - intros o e' He'. apply lookup_insert_Some in He' as [[<- <-]|[Hne He']]; [by rewrite lookup_insert|].
    destruct (H9 o e' He') as [K1 K2]. rewrite lookup_insert_ne; [done|]. intros Heq. rewrite Heq in Ha. congruence.
  - intros o [->|Ho]%Hins Hn; [eauto|]. by apply H10.
Qed.

(** The enclave of [op] gets a new address that nobody has; a mapping of the old one may go. *)
Lemma teeok_update t t' op e a u : teeok t -> encs t !! op = Some e -> op <> a ->
  encs t' = <[op := mkEnclave a u]> (encs t) -> enc_cluster t' = enc_cluster t -> assigned_era t' = assigned_era t -> clusters t' = clusters t ->
  next_cluster t' = next_cluster t -> regs t' = regs t -> updates t' = delete op (updates t) -> unregs t' = unregs t -> ledgers t' = ledgers t ->
  ((a = e_addr e /\ addr_op t' = addr_op t) \/
   (a <> e_addr e /\ addr_op t !! a = None /\ (addr_op t' = <[a := op]> (addr_op t) \/ addr_op t' = <[a := op]> (delete (e_addr e) (addr_op t))))) -> teeok t'.
Proof.
  intros HK He Hne0 E1 E2 E3 E4 E5 E7 E8 E9 E10 Haddr. destruct HK as [H1 H2 H3 H4 H5 H6 [H7 H7'] H8 H9 H10].
  assert (Hins : forall o v, is_Some (<[op := v]> (encs t) !! o) <-> is_Some (encs t !! o)).
  { intros o v. destruct (decide (o = op)) as [->|Hne]; [rewrite lookup_insert|rewrite lookup_insert_ne by done]; split; eauto. }
  destruct (H9 op e He) as [K0 K0'].
  split; rewrite ?E1, ?E2, ?E3, ?E4, ?E5, ?E7, ?E8, ?E9, ?E10.
  - intros o. by rewrite Hins.
  - intros o. by rewrite Hins.
  - done.
  - done.
  - intros o r Hr. destruct (H5 o r Hr) as (K1&K2&K3). assert (o <> op) by (intros ->; congruence). by rewrite lookup_insert_ne.
  - intros o Ho. apply Hins. apply H6. destruct (decide (o = op)) as [->|Hne]; [by rewrite lookup_delete in Ho; destruct Ho|]. by rewrite lookup_delete_ne in Ho.
  - done.
  - intros o Ho. apply Hins. by apply H8.
  - intros o e' He'. apply lookup_insert_Some in He' as [[<- <-]|[Hne He']]; cbn.
    + split; [|done]. destruct Haddr as [[-> ->]|(?&?&[->| ->])]; [done|by rewrite lookup_insert..].
    + destruct (H9 o e' He') as [K1 K2]. split; [|done]. destruct Haddr as [[? ->]|(?&Hn&[->| ->])]; [done|rewrite lookup_insert_ne; [done|congruence]|].
      rewrite lookup_insert_ne by congruence. rewrite lookup_delete_ne; [done|]. intros Heq. rewrite Heq in K0. congruence.
  - intros o Ho Hn. apply Hins in Ho. by apply H10.
Qed.

Lemma teeok_call o c s s' : teeok (s_tee s) -> is_mandate c = false -> exec_call o c s = (Ok tt, s') -> teeok (s_tee s').
Proof.
  intros HK Hm He. assert (pallet_of c = PTee \/ pallet_of c <> PTee) as [Hpal|Hpal] by (destruct (pallet_of c); auto).
  2: { assert (s_tee s' = s_tee s) as ->; [|done]. pose proof (call_kept _ _ _ _ Hm He) as Hk. unfold kept in Hk.
       destruct (pallet_of c); try done; destruct_and! Hk; done. }
  pose proof HK as [H1 H2 H3 H4 H5 H6 [H7 H7'] H8 H9 H10].
  destruct c; try discriminate Hpal; clear Hpal Hm; cbn [exec_call] in He; unfold signed, root, external in He;
    try (destruct o as [|who|]; try done; []).
  - (* register *) unfold register_enclave in He. minv He. subst s'. st_cbn. eapply teeok_same; try done; st_cbn.
    + intros op r Hr. apply lookup_insert_Some in Hr as [[<- <-]|[Hne Hr]].
      * bool_in E1. split; [done|]. split; [done|]. rewrite lookup_insert. by eexists.
      * rewrite lookup_insert_ne by done. by apply (H5 op r).
    + intros op Ho Hn. destruct (decide (who = op)) as [<-|Hne]; [by eexists; rewrite lookup_insert|]. rewrite lookup_insert_ne by done. by apply H10.
  - (* unregister *) unfold unregister_enclave in He. do 2 mstep He. destruct (encs (s_tee s) !! who) as [e|] eqn:Een.
    + minv He. subst s'. assert (who ∉ unregs (s_tee s)) as Hnw by (intros Hx%memN_iff; congruence). eapply teeok_same; try done; st_cbn.
      * intros op r Hr. destruct (H5 op r Hr) as (K1&K2&K3). rewrite lookup_insert_ne by congruence. done.
      * split; [|unfold nlen in *; rewrite app_length; cbn [length]; lia]. apply NoDup_app. split; [done|]. split; [|apply NoDup_singleton].
        intros y Hy Hz%elem_of_list_singleton. by subst.
      * intros op [Ho|Ho%elem_of_list_singleton]%elem_of_app; [by apply H8|]. subst op. by exists e.
      * intros op Ho Hn. rewrite lookup_insert_ne; [apply H10; [done|]|]; [|intros ->]; contradict Hn; apply elem_of_app; [by left|right; by apply elem_of_list_singleton].
    + minv He. subst s'. eapply teeok_same; try done; st_cbn.
      * intros op r [Hne Hr]%lookup_delete_Some. rewrite lookup_delete_ne by done. by apply H5.
      * intros op Ho Hn. rewrite lookup_delete_ne; [by apply H10|]. intros ->. rewrite Een in Ho. by destruct Ho.
  - (* update *) unfold update_enclave in He. minv He. subst s'. eapply teeok_same; try done; st_cbn.
    intros op Ho. destruct (decide (op = who)) as [->|Hne]; [eauto|]. rewrite lookup_insert_ne in Ho by done. by apply H6.
  - (* cancel update *) unfold cancel_update in He. minv He. subst s'. eapply teeok_same; try done; st_cbn.
    intros op [_ Ho]%lookup_delete_is_Some. by apply H6.
  - (* assign *) unfold assign_enclave in He. minv He. subst s'. eapply (teeok_assign (s_tee s)); done.
  - (* remove registration *) unfold remove_registration in He. minv He. subst s'. eapply teeok_same; try done; st_cbn.
    + intros o' r [Hne Hr]%lookup_delete_Some. rewrite lookup_delete_ne by done. by apply H5.
    + intros o' Ho Hn. rewrite lookup_delete_ne; [by apply H10|]. intros ->. apply H5 in U as [U _]. rewrite U in Ho. by destruct Ho.
  - (* reject update *) unfold reject_update in He. minv He. subst s'. eapply teeok_same; try done; st_cbn.
    intros o' [_ Ho]%lookup_delete_is_Some. by apply H6.
  - (* approve unregistration *) unfold approve_enclave_unregistration, detach_enclave in He. minv He. subst s'. eapply (teeok_detach (s_tee s)); done.
  - (* force remove *) unfold force_remove_enclave, detach_enclave in He. minv He. subst s'. eapply (teeok_detach (s_tee s)); try done; st_cbn.
    intros o' Hne. by rewrite lookup_insert_ne.
  - (* approve update *) unfold approve_update_enclave in He. do 5 mstep He. apply bind_ok in He as ([]&s0&HW&He). minv He. subst s'.
    apply when_ok in HW as [[Hb HW]|[Hb <-]].
    + minv HW. subst s0. bool_in Hb. bool_in E0. eapply (teeok_update (s_tee s)); try done. right. split; [congruence|split; [done|left; done]].
    + apply negb_false_iff, N.eqb_eq in Hb. bool_in E0. eapply (teeok_update (s_tee s)); try done. left. split; [congruence|done].
  - (* force update *) unfold force_update_enclave in He. do 3 mstep He. apply bind_ok in He as ([]&s0&HW&He). apply bind_ok in He as ([]&s1&HW1&He).
    assert (s1 = s0) as -> by (apply on_some_ok in HW1 as [(z&_&HW1)|[_ ->]]; [by minv HW1|done]). clear HW1. minv He. subst s'.
    apply on_some_ok in HW as [(a&->&HW)|[-> <-]]; cbn [default].
    + mstep HW. bool_in E0. apply when_ok in HW as [[Hb HW]|[Hb <-]].
      * bool_in Hb. minv HW. subst s0. eapply (teeok_update (s_tee s)); try done. right. split; [congruence|]. split; [done|]. right. done.
      * apply negb_false_iff, N.eqb_eq in Hb. eapply (teeok_update (s_tee s)); try done. left. split; [congruence|done].
    + eapply (teeok_update (s_tee s)); try done; [|left; done]. by apply H9.
  - (* create cluster *) unfold create_cluster in He. minv He. subst s'.
    assert (Hnew : clusters (s_tee s) !! next_cluster (s_tee s) = None).
    { destruct (clusters (s_tee s) !! next_cluster (s_tee s)) eqn:Ecl; [|done]. apply H4 in Ecl as (_&_&?). lia. }
    split; st_cbn; try done.
    + intros op c. rewrite H3. split; intros (cl&Hcl&Hin); exists cl; [rewrite lookup_insert_ne; [done|congruence]|].
      apply lookup_insert_Some in Hcl as [[<- <-]|[_ Hcl]]; [by apply elem_of_nil in Hin|done].
    + intros c cl Hcl. apply lookup_insert_Some in Hcl as [[<- <-]|[_ Hcl]].
      * cbn. split; [constructor|]. unfold nlen. cbn [length]. lia.
      * destruct (H4 c cl Hcl) as (?&?&?). split_and!; [done|done|lia].
  - (* update cluster *) unfold update_cluster in He. minv He. subst s'. split; st_cbn; try done.
    + intros op c. rewrite H3. split; intros (cl&Hcl&Hin).
      * destruct (decide (c = cluster)) as [->|Hne]; [rewrite lookup_insert; eexists; split; [done|]; cbn; congruence|rewrite lookup_insert_ne by done; eauto].
      * apply lookup_insert_Some in Hcl as [[<- <-]|[_ Hcl]]; eauto.
    + intros c cl Hcl. apply lookup_insert_Some in Hcl as [[<- <-]|[_ Hcl]]; [exact (H4 _ _ U)|by eapply H4].
  - (* remove cluster *) unfold remove_cluster in He. minv He. subst s'. bool_in E.
    assert (En : cl_enclaves x = []) by (destruct (cl_enclaves x); [done|unfold nlen in E; cbn [length] in E; lia]). split; st_cbn; try done.
    + intros op c. rewrite H3. split; intros (cl&Hcl&Hin); exists cl.
      * split; [|done]. rewrite lookup_delete_ne; [done|]. intros ->. assert (cl = x) as -> by congruence. rewrite En in Hin. by apply elem_of_nil in Hin.
      * by apply lookup_delete_Some in Hcl as [_ Hcl].
    + intros c cl [_ Hcl]%lookup_delete_Some. by apply H4.
  - (* withdraw *) unfold withdraw_unbonded in He. minv He. subst s'. eapply teeok_same; try done; st_cbn.
    + intros o' r Hr. destruct (H5 o' r Hr) as (K1&K2&l&K3&K4). rewrite lookup_delete_ne; [eauto|]. intros ->. congruence.
    + intros o' Ho Hn. destruct (H10 o' Ho Hn) as (l&K3&K4). rewrite lookup_delete_ne; [eauto|]. intros ->. congruence.
  - unfold register_metrics_server in He. minv He. subst s'. by eapply teeok_same.
  - unfold unregister_metrics_server in He. minv He. subst s'. by eapply teeok_same.
  - unfold force_update_metrics_server_type in He. minv He. subst s'. by eapply teeok_same.
  - unfold submit_metrics_server_report in He. minv He. subst s'. by eapply teeok_same.
  - unfold set_report_params_weightage in He. minv He. subst s'. by eapply teeok_same.
  - unfold set_staking_amount in He. minv He. subst s'. by eapply teeok_same.
  - unfold set_daily_reward_pool in He. minv He. subst s'. by eapply teeok_same.
  - unfold claim_rewards in He. minv He. subst s'. by eapply teeok_same.
  - unfold update_operator_assigned_era in He. minv He. subst s'. split; st_cbn; try done.
    intros op'. rewrite H2, lookup_insert_is_Some'. clear -U. split; [by right|]. intros [<-|?]; [by exists x|done].
  - unfold bond_extra in He. minv He. subst s'. eapply teeok_same; try done; st_cbn.
    + intros o' r Hr. destruct (H5 o' r Hr) as (K1&K2&l&K3&K4). split; [done|]. split; [done|].
      destruct (decide (o' = who)) as [->|Hne]; [rewrite lookup_insert; eexists; split; [done|]; cbn; congruence|rewrite lookup_insert_ne by done; eauto].
    + intros o' Ho Hn. destruct (H10 o' Ho Hn) as (l&K3&K4).
      destruct (decide (o' = who)) as [->|Hne]; [rewrite lookup_insert; eexists; split; [done|]; cbn; congruence|rewrite lookup_insert_ne by done; eauto].
  - unfold refund_excess in He. minv He. subst s'. eapply teeok_same; try done; st_cbn.
    + intros o' r Hr. destruct (H5 o' r Hr) as (K1&K2&l&K3&K4). split; [done|]. split; [done|].
      destruct (decide (o' = who)) as [->|Hne]; [rewrite lookup_insert; eexists; split; [done|]; cbn; congruence|rewrite lookup_insert_ne by done; eauto].
    + intros o' Ho Hn. destruct (H10 o' Ho Hn) as (l&K3&K4).
      destruct (decide (o' = who)) as [->|Hne]; [rewrite lookup_insert; eexists; split; [done|]; cbn; congruence|rewrite lookup_insert_ne by done; eauto].
Qed.
End teeinv.
