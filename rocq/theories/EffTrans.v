(** What the calls of pallet transmission-protocols do. *)
From Verif Require Import SpecEffects EffCalc EffAuc TransFacts.
Local Open Scope N_scope.

Section rows.
Context {C : Config}.

Lemma set_does w i r p cn s s' : reachable s -> exec_call (Signed w) (C_set_transmission_protocol i r p cn) s = (Ok tt, s') ->
  trans_does s w (C_set_transmission_protocol i r p cn) s'.
Proof.
  intros R H. pose proof (reachable_tinv s R) as HT. cbn [trans_does]. cbn [exec_call signed] in H. unfold set_transmission_protocol in H.
  mstep H. apply bind_ok in H as ([]&s0&H0&H). assert (s0 = s) as -> by (destruct cn; by minv H0). clear H0.
  do 11 mstep H. apply bind_ok in H as ([]&s0&H0&H). assert (s0 = s) as -> by (destruct (end_block p); cbn [on_some] in H0; by minv H0). clear H0.
  apply bind_ok in H as ([]&s0&H0&H). assert (s0 = s) as -> by (destruct (consent_data p); cbn [on_some] in H0; by minv H0). clear H0.
  mstep H. apply bind_ok in H as (q&s0&H0&H).
  assert (s0 = s /\ match p with AtBlock b | AtBlockWithReset b => enters i b (t_queue (s_trans s)) q | _ => q = t_queue (s_trans s) end) as [-> Hq].
  { destruct p; cbn [block_to_queue] in H0; minv H0; subst; (split; [done|]); try done;
      match goal with U : q_insert _ _ _ _ = Some _ |- _ => apply q_insert_some in U as [_ ->] end; (split; [apply q_ins_sorted, HT|apply q_ins_perm]). }
  clear H0. minv H. subst. exists x, q. split; [done|]. split; [done|]. eff_eq.
Qed.
Lemma remove_does w i s s' : reachable s -> exec_call (Signed w) (C_remove_transmission_protocol i) s = (Ok tt, s') ->
  trans_does s w (C_remove_transmission_protocol i) s'.
Proof.
  intros R H. pose proof (reachable_tinv s R) as HT. cbn [trans_does]. cbn [exec_call signed] in H. unfold remove_transmission_protocol in H.
  do 9 mstep H. exists x. split; [done|].
  assert (Hd : q_del i (t_queue (s_trans s)) = without i (t_queue (s_trans s))) by apply without_del, HT.
  assert (Hc : consent_data (t_protocol x0) = None -> consents (s_trans s) = delete i (consents (s_trans s))).
  { intros En. symmetry. apply delete_notin. destruct (consents (s_trans s) !! i) eqn:Eo; [|done].
    destruct (to_cons _ _ HT _ _ Eo) as (t&cl&th&Ht&Hd'&_). congruence. }
  assert (Hq : end_block (t_protocol x0) = None -> t_queue (s_trans s) = without i (t_queue (s_trans s))).
  { intros En. symmetry. apply without_none. intros [b Hb]%q_fst_elem. destruct (to_entry _ _ HT _ _ Hb) as (t&Ht&Et). congruence. }
  destruct (t_protocol x0); cbn [kind_of_protocol] in H; minv H; subst; eff_eq; first [exact Hd|by apply Hc|by apply Hq].
Qed.
Lemma reset_does w i b s s' : reachable s -> exec_call (Signed w) (C_reset_timer i b) s = (Ok tt, s') ->
  trans_does s w (C_reset_timer i b) s'.
Proof.
  intros R H. pose proof (reachable_tinv s R) as HT. cbn [trans_does]. eff_run H reset_timer.
  eexists _, _. split; [done|]. split; [apply moved_update, HT|]. eff_eq.
Qed.
Lemma consent_does w i s s' : reachable s -> exec_call (Signed w) (C_add_consent i) s = (Ok tt, s') ->
  trans_does s w (C_add_consent i) s'.
Proof.
  intros R H. pose proof (reachable_tinv s R) as HT. cbn [trans_does]. cbn [exec_call signed] in H. unfold add_consent in H.
  do 8 mstep H. apply bind_ok in H as ([]&s0&H0&H). assert (s0 = s) as -> by (destruct (kind_of_protocol (t_protocol x0)); by minv H0). clear H0.
  mstep H. mstep H. destruct x1 as [l k]. exists x0, l, k. split; [done|]. split; [by apply asks_data|].
  cbv zeta in H |- *. cbn [fst snd] in H. mstep H. mstep H. fold (consents_of s i) in *.
  assert (Hnow : forall s1, bind (del_consents i) (fun _ => bind (when true (transmit_nft i)) (fun _ => bind (emit (Ev_ConsentAdded i w)) (fun _ =>
      bind (emit (Ev_ThresholdReached i)) (fun _ => when true (emit (Ev_Transmitted i)))))) s = (Ok tt, s1) ->
    exists d, nfts (s_nft s) !! i = Some d /\ becomes s1
      (write i (d <| owner := t_recipient x0 |> <| nstate ::= fun f => f <| is_transmission := false |> |>) s
         <| s_trans ::= fun x => x <| transs ::= delete i |> <| consents ::= delete i |> |>)
      [Ev_ConsentAdded i w; Ev_ThresholdReached i; Ev_Transmitted i]).
  { clear H. intros s1 H. unfold transmit_nft in H. cbn [when] in H. minv H. subst s1. st_cbn_in U2. rewrite U0 in U2. injection U2 as <-.
    exists x2. split; [done|]. eff_eq. }
  destruct (nlen (consents_of s i ++ [w]) <? k) eqn:Ek.
  - left. apply N.ltb_lt in Ek. split; [done|]. minv H. subst. eff_eq.
  - right. apply N.ltb_ge in Ek.
    assert (Eb : block_of (t_protocol x0) = end_block (t_protocol x0)) by (by destruct (t_protocol x0)). rewrite Eb.
    destruct (end_block (t_protocol x0)) as [b|] eqn:Ee.
    + destruct (b <=? s_now s) eqn:El.
      * apply N.leb_le in El. right. split; [done|]. split; [by intros ? [= <-]|]. apply Hnow. exact H.
      * clear Hnow. apply N.leb_gt in El. left. split; [done|]. apply bind_ok in H as (r&s1&H1&H). minv H1. subst s1 r.
        apply q_insert_some in U2 as [_ ->]. exists b, (q_ins (i, b) (t_queue (s_trans s))). split; [done|]. split; [done|].
        split; [split; [apply q_ins_sorted, HT|apply q_ins_perm]|]. unfold when in H. minv H. subst. eff_eq.
    + right. split; [done|]. split; [done|]. apply Hnow. exact H.
Qed.
End rows.
