(** The history of a transmission: who consented, and when it takes effect. *)
From Verif Require Export TransFacts.
Local Open Scope N_scope.

Section facts.
Context {C : Config}.

Definition in_queue (s : state) (i : N) : Prop := i ∈ (t_queue (s_trans s)).*1.
Definition recorded (s : state) (i : N) : list N := default [] (consents (s_trans s) !! i).

(** What a step does to the consents and the queue place of an NFT that stays under the same
    transmission. *)
Inductive cons_step (s : state) (a : action) (i : N) (l : list N) (k : N) : Prop :=
| CS_same : recorded (step s a) i = recorded s i -> (in_queue (step s a) i <-> in_queue s i) ->
    (forall w s', a = Extrinsic (Signed w) (C_add_consent i) -> dispatch (Signed w) (C_add_consent i) s <> (Ok tt, s')) -> cons_step s a i l k
| CS_more w : a = Extrinsic (Signed w) (C_add_consent i) -> dispatch (Signed w) (C_add_consent i) s = (Ok tt, step s a) ->
    w ∈ l -> w ∉ recorded s i -> ~ in_queue s i ->
    (nlen (recorded s i) + 1 < k /\ recorded (step s a) i = recorded s i ++ [w] /\ ~ in_queue (step s a) i) \/
    (k <= nlen (recorded s i) + 1 /\ in_queue (step s a) i) -> cons_step s a i l k.

Lemma q_ins_fst x q i : i ∈ (q_ins x q).*1 <-> i = fst x \/ i ∈ q.*1.
Proof.
  rewrite !q_fst_elem. split.
  - intros [b [<-|H]%q_ins_elem]; [by left|right; eauto].
  - intros [->|[b H]]; [exists (snd x); apply q_ins_elem; left; by destruct x|exists b; apply q_ins_elem; by right].
Qed.
Lemma q_del_fst_ne j q i : NoDup (q.*1) -> i <> j -> i ∈ (q_del j q).*1 <-> i ∈ q.*1.
Proof.
  intros Hn Hne. rewrite !q_fst_elem. split; intros [b H]; exists b; [by apply q_del_elem in H as [? _]|].
  by apply q_del_elem.
Qed.

Lemma cons_step_ok s a i t l k : config_ok -> reachable s -> action_ok a -> under s i t -> under (step s a) i t -> asks (t_protocol t) l k ->
  cons_step s a i l k.
Proof.
  unfold under. intros HC Hs Ha Ht Ht' Hk%asks_data. pose proof (reachable_inv1 s Hs) as HI. pose proof (reachable_tinv s Hs) as HT.
  pose proof (to_q _ _ HT) as [Hsort Hnd].
  assert (Hsame : forall u, step s a = u -> recorded u i = recorded s i -> (in_queue u i <-> in_queue s i) ->
    (forall w s', a = Extrinsic (Signed w) (C_add_consent i) -> dispatch (Signed w) (C_add_consent i) s <> (Ok tt, s')) -> cons_step s a i l k).
  { intros u <- ???. by apply CS_same. }
  destruct a as [o c| |e].
  - destruct (dispatch_cases o c s) as [(s'&Hw&He&Hdp)|[e Hdp]].
    2: { apply (Hsame s); [cbn [step]; by rewrite Hdp|done|done|]. intros w s' [= -> ->]. by rewrite Hdp. }
    destruct (is_mandate c) eqn:Hm.
    { destruct (mandate_trans s o c Hm) as (_&E2&E3&_). apply (Hsame (step s (Extrinsic o c)) eq_refl);
        [unfold recorded; by rewrite E3|unfold in_queue; by rewrite E2|]. intros w s2 [= -> ->]. discriminate Hm. }
    assert (Es : step s (Extrinsic o c) = s') by (cbn [step]; by rewrite Hdp).
    assert (pallet_of c = PTrans \/ pallet_of c <> PTrans) as [Hpal|Hpal] by (destruct (pallet_of c); auto).
    2: { apply (Hsame s' Es); [unfold recorded|unfold in_queue|]; try by rewrite (call_trans_kept _ _ _ _ Hm He Hpal).
         intros w s2 [= -> ->]. by contradiction Hpal. }
    rewrite Es in Ht'. clear Hm Hw.
    destruct c; try discriminate Hpal; cbn [exec_call] in He.
    all: try (unfold signed in He; destruct o as [who| |]; try done).
    all: try (apply (Hsame s' Es); [| |done]; unfold recorded, in_queue).
    + apply tset_ok in He as (d0&b&q'&Hd0&_&_&Hu&_&_&_&_&_&_&->). done.
    + apply tset_ok in He as (d0&b&q'&Hd0&_&_&Hu&_&_&_&_&Hq&_&->). st_cbn.
      assert (id <> i). { intros ->. destruct (trans_nft s i t HI Ht) as (d'&Hd'&Hf). destruct Hu as (_&_&_&?&_). congruence. }
      destruct (block_to_queue _); destruct_and? Hq; subst q'; [|done]. rewrite q_ins_fst. cbn. naive_solver.
    + apply tremove_ok in He as (d0&t0&Hd0&Ho0&_&Ht0&Hc&En&_&E1&E2&E3). rewrite E3. rewrite E1 in Ht'. apply lookup_delete_Some in Ht' as [Hne _].
      destruct (consent_data (t_protocol t0)); [by rewrite lookup_delete_ne|done].
    + apply tremove_ok in He as (d0&t0&Hd0&Ho0&_&Ht0&Hc&En&_&E1&E2&E3). rewrite E2. rewrite E1 in Ht'. apply lookup_delete_Some in Ht' as [Hne _].
      destruct (t_protocol t0); try done; apply q_del_fst_ne; done.
    + by apply treset_ok in He as (d0&t0&b0&Hd0&Ho0&_&Ht0&Ep&Hb&_&->).
    + apply treset_ok in He as (d0&t0&b0&Hd0&Ho0&_&Ht0&Ep&Hb&_&->). st_cbn. by apply q_update_fst.
    + pose proof He as He1. apply tconsent_ok in He as (d0&t0&cl&th&Hd0&_&Ht0&Hcd&Hw0&Hq&Hnw&_&He). cbv zeta in He.
      destruct (decide (id = i)) as [->|Hne].
      * assert (t0 = t) as -> by congruence. assert (cl = l /\ th = k) as [-> ->] by (split; congruence).
        assert (Hnq : ~ in_queue s i).
        { intros [x Hx]%q_fst_elem. destruct (to_entry _ _ HT _ _ Hx) as (t'&E1&Ex). assert (t' = t) as -> by congruence.
          apply Hq; [congruence|]. apply q_fst_elem. eauto. }
        apply (CS_more _ _ _ _ _ who); try done; [by rewrite Es|]. rewrite Es. unfold recorded, in_queue in *.
        destruct He as [(Hlt&En&Et)|[(Hle&b&Eb&Hb&Hcap&En&Et)|(Hle&Eb&En&Et)]]; rewrite Et; st_cbn.
        -- left. rewrite lookup_insert. done.
        -- right. split; [done|]. apply q_ins_fst. by left.
        -- rewrite Et in Ht'. st_cbn_in Ht'. by rewrite lookup_delete in Ht'.
      * apply (Hsame s' Es); [| |by intros ??[=]]; unfold recorded, in_queue.
        -- destruct He as [(Hlt&En&Et)|[(Hle&b&Eb&Hb&Hcap&En&Et)|(Hle&Eb&En&Et)]]; rewrite Et; st_cbn;
             [by rewrite lookup_insert_ne|by rewrite lookup_delete_ne|by rewrite lookup_delete_ne].
        -- destruct He as [(Hlt&En&Et)|[(Hle&b&Eb&Hb&Hcap&En&Et)|(Hle&Eb&En&Et)]]; rewrite Et; st_cbn; try done.
           rewrite q_ins_fst. cbn. clear -Hne. naive_solver.
    + minv He. subst s'. st_cbn. by destruct k0.
    + minv He. subst s'. st_cbn. by destruct k0.
  - destruct (turn_exists HookTrans s HC) as (u&u'&Hu).
    destruct (fact_trans_turn s u u' HC Hs Hu) as (_&_&_&_&l0&Eq&Hin&Hout&_&_&_&Ec).
    apply (Hsame (next_block s) eq_refl); [unfold recorded; by rewrite Ec| |done]. unfold in_queue. rewrite Eq, fmap_app, elem_of_app.
    split; [by right|]. intros [[b Hb]%q_fst_elem|?]; [|done]. destruct (Hin i b Hb) as (_&t0&_&_&Hg). exfalso. by eapply given_not_some.
  - assert (s_trans (step s (Env e)) = s_trans s) as E.
    { cbn [step]. destruct (transactional_cases (run_env e) s) as [(s2&Hok&E)|(x&s2&_&E)]; rewrite E; [|done].
      by apply env_kept in Hok as (_&_&_&_&_&?&_). }
    apply CS_same; [unfold recorded; by rewrite E|unfold in_queue; by rewrite E|done].
Qed.

(** A transmission begins with the call that sets it. *)
Lemma new_entry s a i t : config_ok -> reachable s -> action_ok a -> transs (s_trans s) !! i = None -> under (step s a) i t ->
  (exists w, a = Extrinsic (Signed w) (C_set_transmission_protocol i (t_recipient t) (t_protocol t) (t_cancellation t))) /\
  (forall l k, asks (t_protocol t) l k -> recorded (step s a) i = [] /\ ~ in_queue (step s a) i).
Proof.
  unfold under. intros HC Hs Ha Ht Ht'. pose proof (reachable_inv1 s Hs) as HI. pose proof (reachable_tinv s Hs) as HT.
  destruct a as [o c| |e].
  - destruct (dispatch_cases o c s) as [(s'&Hw&He&Hdp)|[e Hdp]].
    2: { cbn [step] in Ht'. rewrite Hdp in Ht'. cbn [snd] in Ht'. congruence. }
    destruct (is_mandate c) eqn:Hm.
    { destruct (mandate_trans s o c Hm) as (E1&_). congruence. }
    assert (Es : step s (Extrinsic o c) = s') by (cbn [step]; by rewrite Hdp). rewrite Es in *.
    assert (pallet_of c = PTrans \/ pallet_of c <> PTrans) as [Hpal|Hpal] by (destruct (pallet_of c); auto).
    2: { rewrite (call_trans_kept _ _ _ _ Hm He Hpal) in Ht'. congruence. }
    destruct c; try discriminate Hpal; cbn [exec_call] in He.
    all: try (unfold signed in He; destruct o as [who| |]; try done).
    + apply tset_ok in He as (d0&b&q'&Hd0&_&_&Hu&_&_&_&_&Hq&_&E). rewrite E in Ht'. st_cbn_in Ht'.
      apply lookup_insert_Some in Ht' as [[-> <-]|[_ Ht']]; [|congruence]. cbn. split; [by eexists|]. intros l k Hk%asks_data.
      unfold recorded, in_queue. rewrite E. st_cbn. destruct (consents (s_trans s) !! i) as [x|] eqn:Ex.
      { destruct (to_cons _ _ HT i x Ex) as (u&?&?&?&_). congruence. }
      split; [done|]. assert (block_to_queue p = None) as En by (by destruct p). rewrite En in Hq. subst q'.
      intros [x Hx]%q_fst_elem. destruct (to_entry _ _ HT _ _ Hx) as (?&?&_). congruence.
    + apply tremove_ok in He as (d0&t0&Hd0&Ho0&_&Ht0&Hc&En&_&E1&E2&E3). rewrite E1 in Ht'. apply lookup_delete_Some in Ht' as [_ ?]. congruence.
    + apply treset_ok in He as (d0&t0&b0&Hd0&Ho0&_&Ht0&Ep&Hb&_&E). rewrite E in Ht'. st_cbn_in Ht'.
      apply lookup_insert_Some in Ht' as [[-> <-]|[_ Ht']]; congruence.
    + apply tconsent_ok in He as (d0&t0&cl&th&Hd0&_&Ht0&Hcd&Hw0&Hq&Hnw&_&He). cbv zeta in He.
      destruct He as [(Hlt&En&Et)|[(Hle&b&Eb&Hb&Hcap&En&Et)|(Hle&Eb&En&Et)]]; rewrite Et in Ht'; st_cbn_in Ht'; try congruence.
      apply lookup_delete_Some in Ht' as [_ ?]. congruence.
    + minv He. subst s'. st_cbn_in Ht'. destruct k; cbn in Ht'; congruence.
  - destruct (turn_exists HookTrans s HC) as (u&u'&Hu).
    destruct (fact_trans_turn s u u' HC Hs Hu) as (_&_&_&_&l0&Eq&Hin&Hout&_&_&_&Ec). cbn [step] in Ht'.
    destruct (decide (i ∈ map fst l0)) as [Hi|Hi]; [|rewrite Hout in Ht' by done; congruence].
    change (map fst l0) with (l0.*1) in Hi. apply q_fst_elem in Hi as [b Hb]. destruct (Hin i b Hb) as (_&t0&?&_). congruence.
  - exfalso. cbn [step] in Ht'. destruct (transactional_cases (run_env e) s) as [(s2&Hok&E)|(x&s2&_&E)]; rewrite E in Ht'; cbn [snd] in Ht'; [|congruence].
    apply env_kept in Hok as (_&_&_&_&_&E2&_). congruence.
Qed.

(** ** Runs *)
Lemma after_snoc s l a : after s (l ++ [a]) = step (after s l) a.
Proof. unfold after. by rewrite fold_left_app. Qed.
Lemma after_app s l l' : after s (l ++ l') = after (after s l) l'.
Proof. unfold after. by rewrite fold_left_app. Qed.
Lemma after_reachable s l : reachable s -> Forall action_ok l -> reachable (after s l).
Proof.
  intros Hs. induction l as [|a l IH] using rev_ind; intros Hl; [done|]. rewrite after_snoc. apply Forall_app in Hl as [H1 H2].
  inversion H2; subst. by apply reach_step; [apply IH|].
Qed.
Lemma reachable_after s : reachable s -> exists s0 l, genesis s0 /\ Forall action_ok l /\ s = after s0 l.
Proof.
  induction 1 as [s Hs|s a Hs (s0&l&H0&Hl&->) Ha]; [by exists s, []|]. exists s0, (l ++ [a]). split; [done|]. split; [|by rewrite after_snoc].
  apply Forall_app. split; [done|]. by constructor.
Qed.
Lemma genesis_no_trans s i : genesis s -> transs (s_trans s) !! i = None.
Proof. intros (now&era&bal&lk&->&_). apply lookup_empty. Qed.

(** Every consent transmission has a beginning. *)
Lemma since_exists s0 acts i t l k : config_ok -> genesis s0 -> Forall action_ok acts -> under (after s0 acts) i t -> asks (t_protocol t) l k ->
  exists acts1 acts2, acts = acts1 ++ acts2 /\ since s0 acts1 acts2 i t.
Proof.
  intros HC H0. revert t. induction acts as [|a acts IH] using rev_ind; intros t Hacts Hu Hk.
  { unfold under in Hu. cbn in Hu. rewrite genesis_no_trans in Hu by done. discriminate Hu. }
  apply Forall_app in Hacts as [Hacts Ha]. inversion Ha as [|?? Ha0 _]; subst.
  assert (Hr : reachable (after s0 acts)) by (apply after_reachable; [by apply reach_init|done]).
  pose proof Hu as Hu1. rewrite after_snoc in Hu1. destruct (transs (s_trans (after s0 acts)) !! i) as [t'|] eqn:Et.
  - assert (t' = t) as ->.
    { unfold under in Hu1. destruct (trans_step_ok _ a i t' HC Hr Ha0 Et) as [S _|w E _ _ [G _]|w b b' E Eo Ep Hb S _|w lc kc E _ _ _ _ _ _ _ _ [G _]|b E _ _ _ [G _]]; try congruence.
      exfalso. rewrite S in Hu1. injection Hu1 as <-. cbn in Hk. destruct Hk as [|[? ?]]; discriminate. }
    destruct (IH t Hacts Et Hk) as (acts1&acts2&->&[Hb Hall]). exists acts1, (acts2 ++ [a]). split; [by rewrite app_assoc|]. split; [done|].
    intros p q Epq. destruct q as [|b q _] using rev_ind.
    + rewrite app_nil_r in Epq. subst p. by rewrite app_assoc.
    + rewrite app_assoc in Epq. apply app_inj_tail in Epq as [-> _]. by eapply Hall.
  - destruct (new_entry _ a i t HC Hr Ha0 Et Hu1) as [(w&->) _]. eexists (acts ++ [_]), []. rewrite app_nil_r. split; [done|]. split.
    + exists acts, w. done.
    + intros p q Epq. symmetry in Epq. apply app_nil in Epq as [-> ->]. by rewrite app_nil_r.
Qed.

Lemma since_snoc s0 acts1 acts2 a i t : since s0 acts1 (acts2 ++ [a]) i t -> since s0 acts1 acts2 i t.
Proof. intros [H1 H2]. split; [done|]. intros p q ->. apply (H2 p (q ++ [a])). by rewrite app_assoc. Qed.
Lemma consented_snoc s0 acts1 acts2 a i w : consented s0 acts1 (acts2 ++ [a]) i w <->
  consented s0 acts1 acts2 i w \/ exists s', a = Extrinsic (Signed w) (C_add_consent i) /\ dispatch (Signed w) (C_add_consent i) (after s0 (acts1 ++ acts2)) = (Ok tt, s').
Proof.
  unfold consented. split.
  - intros (p&q&s'&E&Hd). destruct q as [|b q _] using rev_ind.
    + apply app_inj_tail in E as [-> ->]. right. by exists s'.
    + rewrite app_comm_cons, app_assoc in E. apply app_inj_tail in E as [-> _]. left. by exists p, q, s'.
  - intros [(p&q&s'&->&Hd)|(s'&->&Hd)].
    + exists p, (q ++ [a]), s'. split; [|done]. by rewrite <- app_assoc.
    + by exists acts2, [], s'.
Qed.

(** The consents of a transmission are those given since it began. *)
Lemma consent_history s0 acts1 acts2 i t l k : config_ok -> reachable s0 -> Forall action_ok (acts1 ++ acts2) ->
  since s0 acts1 acts2 i t -> asks (t_protocol t) l k ->
  let s := after s0 (acts1 ++ acts2) in
  exists ws, NoDup ws /\ (forall w, w ∈ ws -> w ∈ l) /\ (forall w, w ∈ ws <-> consented s0 acts1 acts2 i w) /\
    ((~ in_queue s i /\ ws = recorded s i /\ nlen ws < k) \/ (in_queue s i /\ k <= nlen ws)).
Proof.
  intros HC H0. induction acts2 as [|a acts2 IH] using rev_ind; intros Hacts Hsince Hk; cbv zeta.
  - rewrite app_nil_r in *. destruct Hsince as [(acts0&w&->&Hn) Hall].
    specialize (Hall [] [] eq_refl). rewrite app_nil_r, after_snoc in Hall. apply Forall_app in Hacts as [Hacts Ha]. inversion Ha as [|?? Ha0 _]; subst.
    assert (Hr : reachable (after s0 acts0)) by (by apply after_reachable).
    destruct (new_entry _ _ i t HC Hr Ha0 Hn Hall) as [_ Hnew]. destruct (Hnew l k Hk) as [N1 N2]. rewrite after_snoc.
    exists []. split; [constructor|]. split; [by intros ? ?%elem_of_nil|]. split.
    { intros x. split; [by intros ?%elem_of_nil|]. intros (p&q&s'&E&_). by destruct p. }
    left. split; [done|]. split; [done|]. pose proof (reachable_tinv _ (reach_step _ _ Hr Ha0)) as HT.
    destruct (to_list _ _ HT i t l k Hall) as (_&?&_); [by apply asks_data|]. done.
  - pose proof Hsince as [_ Hall]. pose proof (since_snoc _ _ _ _ _ _ Hsince) as Hs2. rewrite app_assoc in Hacts. apply Forall_app in Hacts as [Hacts Ha].
    inversion Ha as [|?? Ha0 _]; subst. specialize (IH Hacts Hs2 Hk). cbv zeta in IH.
    assert (Hr : reachable (after s0 (acts1 ++ acts2))) by (by apply after_reachable).
    pose proof (Hall acts2 [a] eq_refl) as U1. pose proof (Hall (acts2 ++ [a]) []) as U2. rewrite app_nil_r in U2. specialize (U2 eq_refl).
    rewrite app_assoc, after_snoc in U2. rewrite app_assoc, after_snoc. set (s := after s0 (acts1 ++ acts2)) in *.
    destruct IH as (ws&Hn&Hl&Hw&Hq). destruct (cons_step_ok s a i t l k HC Hr Ha0 U1 U2 Hk) as [S1 S2 S3|w E Hd Hwl Hwn Hnq Hnext].
    + exists ws. split; [done|]. split; [done|]. split.
      { intros w. rewrite Hw, consented_snoc. split; [by left|]. intros [?|(s'&E&Hd)]; [done|]. by destruct (S3 w s' E). }
      rewrite S1. destruct Hq as [(Q1&Q2&Q3)|[Q1 Q2]]; [left|right]; rewrite S2; done.
    + destruct Hq as [(Q1&Q2&Q3)|[Q1 Q2]]; [|done]. exists (ws ++ [w]). rewrite <- Q2 in *.
      assert (En : nlen (ws ++ [w]) = nlen ws + 1) by (unfold nlen; rewrite app_length; cbn [length]; lia).
      split. { apply NoDup_app. split; [done|]. split; [|apply NoDup_singleton]. intros x Hx Hy%elem_of_list_singleton. by subst. }
      split. { intros x [Hx|Hx%elem_of_list_singleton]%elem_of_app; [by apply Hl|by subst]. }
      split. { intros x. rewrite elem_of_app, elem_of_list_singleton, Hw, consented_snoc. fold s. split.
        - intros [?| ->]; [by left|right; eauto].
        - intros [?|(s'&Ex&_)]; [by left|right; congruence]. }
      destruct Hnext as [(R1&R2&R3)|[R1 R2]]; [left|right]; rewrite En; done.
Qed.
End facts.
