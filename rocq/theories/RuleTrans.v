(** When the calls of pallet transmission-protocols succeed. *)
From Verif Require Export RuleNft TransInv.
Local Open Scope N_scope.

Section rules.
Context {C : Config}.
Implicit Types (s : state).

Lemma block_of_is p : end_block p = block_of p.
Proof. by destruct p. Qed.
Lemma asks_iff p l k : consent_data p = Some (l, k) <-> asks p l k.
Proof.
  unfold asks. destruct p; cbn; split; intros H; try done; try (destruct H as [?|[? ?]]; simplify_eq; done); simplify_eq; eauto.
Qed.
Lemma timed_iff p b : block_to_queue p = Some b <-> timed p b.
Proof.
  unfold timed. destruct p; cbn; split; intros H; try done; try (destruct H as [?|?]; simplify_eq; done); simplify_eq; eauto.
Qed.
Lemma fee_for_is s p : protocol_fee (s_trans s) (kind_of_protocol p) = fee_for s p.
Proof. by destruct p. Qed.
Lemma may_cancel_iff c n : is_cancellable c n = true <-> may_cancel c n.
Proof. destruct c; cbn; [done|apply N.leb_le|done]. Qed.

Lemma fact_trans_rule s w c : 0 < ed -> reachable s -> wf_call c = true -> is_trans_call c ->
  (exists s', dispatch (Signed w) c s = (Ok tt, s')) <-> trans_rule s w c.
Proof.
  intros Hed Hs Hw Hc. pose proof (reachable_binv s Hs) as Hb. pose proof (reachable_inv1 s Hs) as H1.
  pose proof (to_q _ _ (reachable_tinv s Hs)) as [_ Hnd].
  apply rule_intro; [done| |].
  - intros s' H. destruct c; try done; cbn [exec_call signed root] in H; try done; cbn [trans_rule].
    + apply tset_ok in H as (d&b&q'&Hd&Ho&Hne&Hun&Hsb&Hcn&He&Hl&Hq&Hf&_).
      split_and!; [exists d; split_and!; [done|done|congruence|done|by apply not_locked]|done|..].
      * intros b0. rewrite <- block_of_is. apply He.
      * intros l k Ha%asks_iff. destruct (Hl _ _ Ha) as (?&?&?&?). done.
      * intros b0 Ht%timed_iff. rewrite Ht in Hq. lia.
      * rewrite <- fee_for_is. by eapply fee_affords.
    + apply tremove_ok in H as (d&t&Hd&Ho&_&Ht&Hcn%may_cancel_iff&_). exists d. split_and!; [done|done|by exists t].
    + apply treset_ok in H as (d&t&b0&Hd&Ho&_&Ht&Hp&?&?&_). split; [|done]. exists d. split_and!; [done|done|by exists t, b0].
    + pose proof H as H'. unfold add_consent in H'. do 8 mstep H'. apply bind_ok in H' as ([]&s0&HW&H').
      assert (s0 = s) as ->. { destruct (kind_of_protocol _); minv HW; done. } clear HW. do 4 mstep H'. clear H'.
      apply tconsent_ok in H as (d&t&cl&th&Hd&_&Ht&Ha&Hin&Hq&Hnin&_&Hcase).
      exists t, cl, th. split_and!; [done|by apply asks_iff|done|done|done|..].
      * intros b Hbl b' Hwt. rewrite <- block_of_is in Hbl. apply Hq; [congruence|]. by apply (elem_of_list_fmap_1 fst) in Hwt.
      * intros b Hbl Hlt Hk. rewrite <- block_of_is in Hbl. unfold consents_of in *. cbv zeta in Hcase.
        destruct Hcase as [(?&_)|[(_&b2&Hb2&_&?&_)|(_&Hb2&_)]]; [lia|lia|]. specialize (Hb2 _ Hbl). lia.
  - intros H. destruct c; try done; cbn [trans_rule] in H; cbn [exec_call signed].
    + destruct H as [(d&Hd&<-&Hr&(?&?&?&?&?&?)&Hl) (Hcn&Hbl&Ha&Ht&Hf)].
      assert (soulbound_locked d = false) by (apply not_true_is_false; by rewrite soulbound_locked_iff).
      rewrite <- fee_for_is in Hf. destruct (affords_fee s _ _ Hed Hb Hf) as [b Hfee].
      unfold set_transmission_protocol.
      apply ok_end. okstep. eapply ok_assoc, ok_run with (r := tt) (s1 := s).
      { destruct c; try done. specialize (Hcn _ eq_refl). apply N.ltb_lt in Hcn. unfold ensure. by rewrite Hcn. }
      cbv beta. okto. eapply ok_run with (r := tt) (s1 := s).
      { destruct (end_block p) as [b0|] eqn:Eb; [|done]. rewrite block_of_is in Eb. destruct (Hbl _ Eb) as [G1%N.ltb_lt G2%N.leb_le].
        cbn. unfold bind, ensure. rewrite G1. cbn. by rewrite G2. }
      cbv beta. eapply ok_assoc, ok_run with (r := tt) (s1 := s).
      { destruct (consent_data p) as [[l k]|] eqn:Eb; [|done]. apply asks_iff in Eb. destruct (Ha _ _ Eb) as (G1%no_dup_NoDup&[G2%N.ltb_lt G3%N.leb_le]&G4%N.leb_le).
        cbn [on_some fst snd]. unfold bind, ensure. by rewrite G1, G2, G3, G4. }
      cbv beta. okgo. destruct (block_to_queue p) as [b0|] eqn:Eq.
      * assert (nlen (t_queue (s_trans s)) < trans_limit) as Hlt by (by eapply Ht, timed_iff).
        okgo. okstep. { unfold q_insert. apply N.ltb_lt in Hlt. by rewrite Hlt. } okgo.
      * okgo.
    + destruct H as (d&Hd&<-&t&Hu&Hcn%may_cancel_iff). unfold under in Hu.
      destruct (trans_nft s _ t H1 Hu) as (d'&Hd'&Htr). assert (d' = d) as -> by congruence.
      unfold remove_transmission_protocol. okgo. destruct (kind_of_protocol _); okgo.
    + destruct H as [(d&Hd&<-&t&b0&Hu&Hp) [Hn1 Hn2]]. unfold under in Hu.
      destruct (trans_nft s _ t H1 Hu) as (d'&Hd'&Htr). assert (d' = d) as -> by congruence.
      assert (can_reset (t_protocol t) = true) by (by rewrite Hp).
      unfold reset_timer. okgo.
    + destruct H as (t&l&k&Hu&Ha%asks_iff&Hin&Hnin&Hlim&Hq&Hroom). unfold under in Hu.
      destruct (trans_nft s _ t H1 Hu) as (d&Hd&Htr). unfold add_consent. okgo.
      eapply ok_run with (r := tt) (s1 := s).
      { destruct (t_protocol t) eqn:Ep; cbn [kind_of_protocol]; try done.
        destruct (q_get id (t_queue (s_trans s))) as [b'|] eqn:Eg; [|done].
        exfalso. eapply Hq; [done|]. by apply (q_get_elem _ _ _ Hnd). }
      cbv beta. okgo. okstep; [by apply memN_iff|]. cbv zeta. okgo.
      okstep. { rewrite negb_true_iff. apply not_true_is_false. by rewrite memN_iff. }
      okstep; [by apply N.ltb_lt|]. cbn [snd].
      destruct (nlen (default [] (consents (s_trans s) !! id) ++ [w]) <? k) eqn:Ek; [okgo|].
      assert (Hk : k <= nlen (consents_of s id) + 1).
      { apply N.ltb_ge in Ek. unfold consents_of. rewrite nlen_app in Ek. cbn in Ek. lia. }
      rewrite block_of_is. destruct (block_of (t_protocol t)) as [b|] eqn:Eb.
      * destruct (b <=? s_now s) eqn:En.
        -- okgo.
        -- apply N.leb_gt in En. specialize (Hroom _ eq_refl En Hk). okgo. okstep. { unfold q_insert. apply N.ltb_lt in Hroom. by rewrite Hroom. } okgo.
      * okgo.
Qed.
End rules.
