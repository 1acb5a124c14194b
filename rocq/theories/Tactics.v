(** Proof tools: inversion of successful monadic runs, preservation through a computation
    whatever its result, simplification of record updates. *)
From Verif Require Export Runtime.
From Coq Require Export Lia ZifyBool ZifyN.
Local Open Scope N_scope.

(** * Simplification *)

Ltac st_cbn := cbn [set
  s_now s_era s_bal s_nft s_mkt s_auc s_rent s_trans s_tee s_brg s_srw s_events
  free_m tee_lock other_lock issuance
  nfts colls delegated secret_data secret_shards capsule_data capsule_shards next_nft next_coll
  mint_fee secret_fee capsule_fee
  mkts sales next_mkt mkt_fee
  auctions commissions deadlines claims
  contracts offers queues
  transs consents t_queue fee_at_block fee_at_block_reset fee_on_consent fee_on_consent_at_block
  regs unregs updates encs addr_op clusters next_cluster enc_cluster servers staking_amount
  ledgers reports weights reward_pool claimed assigned_era
  nonces vote_threshold relayers votes bridge_fee
  session_era_payout session_extra
  is_capsule is_listed is_secret is_delegated is_soulbound is_syncing_secret is_rented
  is_syncing_capsule is_transmission
  owner creator offchain_data collection_id royalty nstate
  c_owner c_offchain c_nfts c_limit c_closed
  m_owner m_kind m_commission m_listing m_accounts m_offchain m_collections
  sale_seller sale_mkt sale_price sale_commission
  a_creator a_start a_end a_start_price a_buy_it a_bidders a_mkt a_extended
  period_length max_duration is_changeable new_terms
  r_start r_renter r_rentee r_duration r_acceptance r_can_revoke r_rent_fee r_renter_cf
  r_rentee_cf r_creation q_fixed q_sub q_avail
  t_recipient t_protocol t_cancellation
  e_addr e_uri cl_enclaves cl_type l_operator l_staked l_unlocking l_unbonded_at
  p_votes p_status p_expiry
  put_listed put_delegated put_rented put_transmission put_syncing_secret
  put_syncing_capsule put_secret put_capsule default_state
  fst snd].
Ltac st_cbn_in H := cbn [set
  s_now s_era s_bal s_nft s_mkt s_auc s_rent s_trans s_tee s_brg s_srw s_events
  free_m tee_lock other_lock issuance
  nfts colls delegated secret_data secret_shards capsule_data capsule_shards next_nft next_coll
  mint_fee secret_fee capsule_fee
  mkts sales next_mkt mkt_fee
  auctions commissions deadlines claims
  contracts offers queues
  transs consents t_queue fee_at_block fee_at_block_reset fee_on_consent fee_on_consent_at_block
  regs unregs updates encs addr_op clusters next_cluster enc_cluster servers staking_amount
  ledgers reports weights reward_pool claimed assigned_era
  nonces vote_threshold relayers votes bridge_fee
  session_era_payout session_extra
  is_capsule is_listed is_secret is_delegated is_soulbound is_syncing_secret is_rented
  is_syncing_capsule is_transmission
  owner creator offchain_data collection_id royalty nstate
  c_owner c_offchain c_nfts c_limit c_closed
  m_owner m_kind m_commission m_listing m_accounts m_offchain m_collections
  sale_seller sale_mkt sale_price sale_commission
  a_creator a_start a_end a_start_price a_buy_it a_bidders a_mkt a_extended
  period_length max_duration is_changeable new_terms
  r_start r_renter r_rentee r_duration r_acceptance r_can_revoke r_rent_fee r_renter_cf
  r_rentee_cf r_creation q_fixed q_sub q_avail
  t_recipient t_protocol t_cancellation
  e_addr e_uri cl_enclaves cl_type l_operator l_staked l_unlocking l_unbonded_at
  p_votes p_status p_expiry
  put_listed put_delegated put_rented put_transmission put_syncing_secret
  put_syncing_capsule put_secret put_capsule default_state
  fst snd] in H.

(** * Inversion of [m s = (Ok r, s')] *)
Section inv.
Context {A B : Type}.
Implicit Types (m : M A) (k : A -> M B) (s : state).

Lemma bind_ok m k s r s' :
  bind m k s = (Ok r, s') -> exists a s1, m s = (Ok a, s1) /\ k a s1 = (Ok r, s').
Proof. unfold bind. destruct (m s) as [[a|e] s1]; [|done]. eauto. Qed.

Lemma bind_gets (f : state -> A) k s r : bind (gets f) k s = r -> k (f s) s = r.
Proof. done. Qed.
Lemma bind_ret (a : A) k s r : bind (ret a) k s = r -> k a s = r.
Proof. done. Qed.
Lemma bind_unwrap (o : option A) e k s r s' :
  bind (unwrap o e) k s = (Ok r, s') -> exists a, o = Some a /\ k a s = (Ok r, s').
Proof. unfold bind, unwrap. destruct o; [|done]. eauto. Qed.
Lemma bind_of_res (o : res A) k s r s' :
  bind (of_res o) k s = (Ok r, s') -> exists a, o = Ok a /\ k a s = (Ok r, s').
Proof. unfold bind, of_res. destruct o; [|done]. eauto. Qed.
Lemma bind_map_err e m k s r s' :
  bind (map_err e m) k s = (Ok r, s') -> bind m k s = (Ok r, s').
Proof. unfold bind, map_err. destruct (m s) as [[a|e'] s1]; done. Qed.
Lemma bind_catch m (k : res A -> M B) s r :
  bind (catch m) k s = r -> exists a s1, m s = (a, s1) /\ k a s1 = r.
Proof. unfold bind, catch. destruct (m s) as [a s1]. eauto. Qed.
Lemma ret_ok (a r : A) s s' : ret a s = (Ok r, s') -> a = r /\ s = s'.
Proof. unfold ret. intros [= -> ->]. done. Qed.
Lemma unwrap_ok (o : option A) e s r s' : unwrap o e s = (Ok r, s') -> o = Some r /\ s = s'.
Proof. unfold unwrap. destruct o; [|done]. intros [= -> ->]. done. Qed.
End inv.

Section inv2.
Context {B : Type} {C : Config}.
Implicit Types (k : unit -> M B) (s : state).

Lemma bind_ensure b e k s r s' :
  bind (ensure b e) k s = (Ok r, s') -> b = true /\ k tt s = (Ok r, s').
Proof. unfold bind, ensure. destruct b; done. Qed.
Lemma bind_modify f k s r : bind (modify f) k s = r -> k tt (f s) = r.
Proof. done. Qed.
Lemma bind_attempt {A} (m : M A) k s r : bind (attempt m) k s = r -> k tt (snd (m s)) = r.
Proof. done. Qed.
Lemma bind_when b m k s r :
  bind (when b m) k s = r -> (b = true /\ bind m k s = r) \/ (b = false /\ k tt s = r).
Proof. destruct b; auto. Qed.
Lemma bind_on_some {A} (o : option A) m k s r :
  bind (on_some o m) k s = r -> (exists a, o = Some a /\ bind (m a) k s = r) \/ (o = None /\ k tt s = r).
Proof. destruct o; eauto. Qed.
Lemma bind_lift_bal f k s r s' :
  bind (lift_bal f) k s = (Ok r, s') ->
  exists b, f (s_bal s) = Ok b /\ k tt (s <| s_bal := b |>) = (Ok r, s').
Proof. unfold bind, lift_bal. destruct (f (s_bal s)); [|done]. eauto. Qed.
Lemma bind_transfer f t a kp k s r s' :
  bind (transfer f t a kp) k s = (Ok r, s') ->
  exists b, transfer_b f t a kp (s_bal s) = Ok b /\ k tt (s <| s_bal := b |>) = (Ok r, s').
Proof. apply bind_lift_bal. Qed.

(** What a fee payment does to the balances. *)
Definition pay_fee_b (who amt : N) (b : balances) : res balances :=
  match withdraw_b who amt true b with
  | Ok b1 => Ok (collect_b amt b1)
  | Err e => Err e
  end.
Lemma bind_pay_fee w a k s r s' :
  bind (pay_fee w a) k s = (Ok r, s') ->
  exists b, pay_fee_b w a (s_bal s) = Ok b /\ k tt (s <| s_bal := b |>) = (Ok r, s').
Proof. apply bind_lift_bal. Qed.
Lemma ensure_ok b e s r s' : ensure b e s = (Ok r, s') -> b = true /\ s = s'.
Proof. unfold ensure. destruct b; [|done]. intros [= _ ->]. done. Qed.
Lemma modify_ok f s r s' : modify f s = (Ok r, s') -> s' = f s.
Proof. unfold modify. intros [= _ <-]. done. Qed.
Lemma lift_bal_ok f s r s' :
  lift_bal f s = (Ok r, s') -> exists b, f (s_bal s) = Ok b /\ s' = s <| s_bal := b |>.
Proof. unfold lift_bal. destruct (f (s_bal s)); [|done]. intros [= _ <-]. eauto. Qed.
Lemma when_ok b m s r s' :
  when b m s = (Ok r, s') -> (b = true /\ m s = (Ok r, s')) \/ (b = false /\ s = s').
Proof. destruct b; [by left|]. intros [= _ ->]. by right. Qed.
Lemma on_some_ok {A} (o : option A) m s r s' :
  on_some o m s = (Ok r, s') -> (exists a, o = Some a /\ m a s = (Ok r, s')) \/ (o = None /\ s = s').
Proof. destruct o; [eauto|]. intros [= _ ->]. by right. Qed.
End inv2.

Lemma bind_assoc {A B D} (m : M A) (k : A -> M B) (h : B -> M D) s r :
  bind (bind m k) h s = r -> bind m (fun a => bind (k a) h) s = r.
Proof. unfold bind. destruct (m s) as [[a|e] s1]; done. Qed.

(** [claim_all] in closed form. *)
Definition claims_add (l : list (N * N)) (m : gmap N N) : gmap N N :=
  fold_left (fun m x => <[fst x := sadd (default 0 (m !! fst x)) (snd x)]> m) l m.
Lemma claim_all_run {C : Config} l s :
  claim_all l s = (Ok tt, s <| s_auc ::= fun x => x <| claims ::= claims_add l |> |>).
Proof.
  revert s. induction l as [|x l IH]; intros s.
  - destruct s as [????? [] ??????]; done.
  - unfold claim_all in *. cbn [for_each]. unfold bind. cbn [add_claim mod_auc modify].
    unfold add_claim, mod_auc, modify. rewrite IH. f_equal.
Qed.
Lemma bind_claim_all {C : Config} {B} l (k : unit -> M B) s r :
  bind (claim_all l) k s = r ->
  k tt (s <| s_auc ::= fun x => x <| claims ::= claims_add l |> |>) = r.
Proof. unfold bind. rewrite claim_all_run. done. Qed.

(** Turn boolean facts into propositions. *)
Ltac bool_in E :=
  repeat first
    [ rewrite negb_true_iff in E | rewrite andb_true_iff in E | rewrite orb_true_iff in E
    | rewrite N.eqb_eq in E | rewrite N.eqb_neq in E | rewrite N.leb_le in E
    | rewrite N.ltb_lt in E | rewrite N.leb_gt in E | rewrite N.ltb_ge in E ];
  lazymatch type of E with
  | (match ?o with Some _ => true | None => false end) = true =>
      let O := fresh "O" in destruct o eqn:O; [clear E|discriminate E]
  | (match ?o with None => true | Some _ => false end) = true =>
      let O := fresh "O" in destruct o eqn:O; [discriminate E|clear E]
  | none ?o = true =>
      let O := fresh "O" in destruct o eqn:O; [discriminate E|clear E]
  | none ?o = false =>
      let O := fresh "O" in destruct o eqn:O; [clear E|discriminate E]
  | _ /\ _ => let E1 := fresh E in destruct E as [E E1]; bool_in E; bool_in E1
  | _ => idtac
  end.

(** One step of inversion of a hypothesis [H : m s = (Ok r, s')]. *)
Ltac mstep H :=
  lazymatch type of H with
  | bind ?m ?k ?s = ?r =>
      lazymatch m with
      | bind _ _ => apply bind_assoc in H; cbv beta in H
      | gets _ => apply bind_gets in H; cbv beta in H
      | get_nft _ => apply bind_gets in H; cbv beta in H
      | get_coll _ => apply bind_gets in H; cbv beta in H
      | get_mkt _ => apply bind_gets in H; cbv beta in H
      | get_sale _ => apply bind_gets in H; cbv beta in H
      | get_auction _ => apply bind_gets in H; cbv beta in H
      | get_contract _ => apply bind_gets in H; cbv beta in H
      | get_trans _ => apply bind_gets in H; cbv beta in H
      | get_tee _ => apply bind_gets in H; cbv beta in H
      | free_balance _ => apply bind_gets in H; cbv beta in H
      | ret _ => apply bind_ret in H; cbv beta in H
      | modify _ => apply bind_modify in H; cbv beta in H
      | mod_bal _ => apply bind_modify in H; cbv beta in H
      | mod_nft _ => apply bind_modify in H; cbv beta in H
      | mod_mkt _ => apply bind_modify in H; cbv beta in H
      | mod_auc _ => apply bind_modify in H; cbv beta in H
      | mod_rent _ => apply bind_modify in H; cbv beta in H
      | mod_trans _ => apply bind_modify in H; cbv beta in H
      | mod_tee _ => apply bind_modify in H; cbv beta in H
      | mod_brg _ => apply bind_modify in H; cbv beta in H
      | mod_srw _ => apply bind_modify in H; cbv beta in H
      | emit _ => apply bind_modify in H; cbv beta in H
      | set_nft _ _ => apply bind_modify in H; cbv beta in H
      | set_coll _ _ => apply bind_modify in H; cbv beta in H
      | set_mkt _ _ => apply bind_modify in H; cbv beta in H
      | set_auction _ _ => apply bind_modify in H; cbv beta in H
      | del_auction _ => apply bind_modify in H; cbv beta in H
      | set_contract _ _ => apply bind_modify in H; cbv beta in H
      | del_contract _ => apply bind_modify in H; cbv beta in H
      | del_offers _ => apply bind_modify in H; cbv beta in H
      | set_trans _ _ => apply bind_modify in H; cbv beta in H
      | del_trans _ => apply bind_modify in H; cbv beta in H
      | del_consents _ => apply bind_modify in H; cbv beta in H
      | add_claim _ _ => apply bind_modify in H; cbv beta in H
      | set_lock _ _ => apply bind_modify in H; cbv beta in H
      | remove_lock _ => apply bind_modify in H; cbv beta in H
      | clear_old_era _ => apply bind_modify in H; cbv beta in H
      | claim_all _ => apply bind_claim_all in H; cbv beta in H
      | for_each _ _ => fail
      | attempt _ => apply bind_attempt in H; cbv beta in H
      | map_err _ _ => apply bind_map_err in H
      | ensure _ _ =>
          apply bind_ensure in H; let E := fresh "E" in destruct H as [E H]; cbv beta in H;
          bool_in E
      | unwrap _ _ =>
          apply bind_unwrap in H; let x := fresh "x" in let E := fresh "U" in
          destruct H as (x & E & H); cbv beta in H
      | of_res _ =>
          apply bind_of_res in H; let x := fresh "x" in let E := fresh "U" in
          destruct H as (x & E & H); cbv beta in H
      | transfer _ _ _ _ =>
          apply bind_transfer in H; let b := fresh "b" in let E := fresh "T" in
          destruct H as (b & E & H); cbv beta in H
      | pay_fee _ _ =>
          apply bind_pay_fee in H; let b := fresh "b" in let E := fresh "T" in
          destruct H as (b & E & H); cbv beta in H
      | lift_bal _ =>
          apply bind_lift_bal in H; let b := fresh "b" in let E := fresh "T" in
          destruct H as (b & E & H); cbv beta in H
      | when _ _ => apply bind_when in H; let E := fresh "W" in destruct H as [[E H]|[E H]]; cbv beta in H
      | on_some _ _ =>
          apply bind_on_some in H; let E := fresh "O" in let x := fresh "o" in
          destruct H as [(x & E & H)|[E H]]; cbv beta in H
      | catch _ =>
          apply bind_catch in H; let x := fresh "x" in let s1 := fresh "s1" in let E := fresh "K" in
          destruct H as (x & s1 & E & H); cbv beta in H
      | match ?x with _ => _ end => let E := fresh "X" in destruct x eqn:E
      | ?g => let f := head_of g in unfold f in H; cbv beta zeta in H
      end
  | (match ?x with _ => _ end) _ = _ => let E := fresh "X" in destruct x eqn:E
  | ret _ _ = (Ok _, _) => apply ret_ok in H; destruct H as [H ?]
  | ensure _ _ _ = (Ok _, _) =>
      apply ensure_ok in H; let E := fresh "E" in destruct H as [E H]; bool_in E
  | unwrap _ _ _ = (Ok _, _) =>
      apply unwrap_ok in H; let E := fresh "U" in destruct H as [E H]
  | fail _ _ = (Ok _, _) => discriminate H
  | modify _ _ = (Ok _, _) => apply modify_ok in H; cbv beta in H
  | emit _ _ = (Ok _, _) => apply modify_ok in H; cbv beta in H
  | mod_nft _ _ = (Ok _, _) => apply modify_ok in H; cbv beta in H
  | mod_mkt _ _ = (Ok _, _) => apply modify_ok in H; cbv beta in H
  | mod_bal _ _ = (Ok _, _) => apply modify_ok in H; cbv beta in H
  | mod_auc _ _ = (Ok _, _) => apply modify_ok in H; cbv beta in H
  | mod_rent _ _ = (Ok _, _) => apply modify_ok in H; cbv beta in H
  | mod_trans _ _ = (Ok _, _) => apply modify_ok in H; cbv beta in H
  | mod_tee _ _ = (Ok _, _) => apply modify_ok in H; cbv beta in H
  | mod_brg _ _ = (Ok _, _) => apply modify_ok in H; cbv beta in H
  | mod_srw _ _ = (Ok _, _) => apply modify_ok in H; cbv beta in H
  | set_nft _ _ _ = (Ok _, _) => apply modify_ok in H; cbv beta in H
  | set_contract _ _ _ = (Ok _, _) => apply modify_ok in H; cbv beta in H
  | del_contract _ _ = (Ok _, _) => apply modify_ok in H; cbv beta in H
  | del_trans _ _ = (Ok _, _) => apply modify_ok in H; cbv beta in H
  | del_auction _ _ = (Ok _, _) => apply modify_ok in H; cbv beta in H
  | when _ _ _ = (Ok _, _) => apply when_ok in H; let E := fresh "W" in destruct H as [[E H]|[E H]]
  | on_some _ _ _ = (Ok _, _) =>
      apply on_some_ok in H; let E := fresh "O" in let x := fresh "o" in
      destruct H as [(x & E & H)|[E H]]
  | transfer _ _ _ _ _ = (Ok _, _) =>
      apply lift_bal_ok in H; let b := fresh "b" in let E := fresh "T" in destruct H as (b & E & H)
  | pay_fee _ _ _ = (Ok _, _) =>
      apply lift_bal_ok in H; let b := fresh "b" in let E := fresh "T" in destruct H as (b & E & H)
  | lift_bal _ _ = (Ok _, _) =>
      apply lift_bal_ok in H; let b := fresh "b" in let E := fresh "T" in destruct H as (b & E & H)
  | for_each _ _ _ = _ => fail
  | ?g _ = (Ok _, _) => let f := head_of g in unfold f in H; cbv beta zeta in H
  end
with head_of g := lazymatch g with ?f _ => head_of f | _ => g end.

Ltac minv H := repeat (mstep H).

(** * Dispatch *)
Section disp.
Context {C : Config}.

Lemma transactional_ok m s r s' : transactional m s = (Ok r, s') -> m s = (Ok tt, s').
Proof. unfold transactional. destruct (m s) as [[[]|e] s1]; [|done]. intros [= _ <-]. done. Qed.
Lemma transactional_cases m s :
  (exists s', m s = (Ok tt, s') /\ transactional m s = (Ok tt, s')) \/
  (exists e s', m s = (Err e, s') /\ transactional m s = (Err e, s)).
Proof. unfold transactional. destruct (m s) as [[[]|e] s1]; eauto 6. Qed.
Lemma dispatch_ok o c s r s' :
  dispatch o c s = (Ok r, s') -> wf_call c = true /\ exec_call o c s = (Ok tt, s').
Proof. unfold dispatch. destruct (wf_call c); [|done]. intros H%transactional_ok. done. Qed.
Lemma dispatch_err o c s e s' : dispatch o c s = (Err e, s') -> s' = s.
Proof.
  unfold dispatch. destruct (wf_call c); [|by intros [= _ <-]].
  destruct (transactional_cases (exec_call o c) s) as [(?&_&->)|(?&?&_&->)]; [done|].
  by intros [= _ <-].
Qed.
Lemma dispatch_cases o c s :
  (exists s', wf_call c = true /\ exec_call o c s = (Ok tt, s') /\ dispatch o c s = (Ok tt, s')) \/
  (exists e, dispatch o c s = (Err e, s)).
Proof.
  unfold dispatch. destruct (wf_call c); [|eauto].
  destruct (transactional_cases (exec_call o c) s) as [(?&?&->)|(?&?&?&->)]; eauto 6.
Qed.
End disp.

(** * Preservation, whatever the result *)
Section pres.
Context {C : Config}.
Implicit Types (P : state -> Prop).

Definition pres {A} P (m : M A) : Prop := forall s, P s -> P (snd (m s)).

Lemma pres_ret {A} P (a : A) : pres P (ret a).
Proof. intros s Hs. exact Hs. Qed.
Lemma pres_bind {A B} P (m : M A) (k : A -> M B) :
  pres P m -> (forall a, pres P (k a)) -> pres P (bind m k).
Proof.
  intros Hm Hk s Hs. unfold bind. specialize (Hm s Hs). destruct (m s) as [[a|e] s1]; [|done].
  by apply Hk.
Qed.
Lemma pres_gets {A} P (f : state -> A) : pres P (gets f).
Proof. intros s Hs. exact Hs. Qed.
Lemma pres_gets_bind {A B} P (f : state -> A) (k : A -> M B) :
  (forall s, P s -> P (snd (k (f s) s))) -> pres P (bind (gets f) k).
Proof. intros H s Hs. by apply H. Qed.
Lemma pres_modify P f : (forall s, P s -> P (f s)) -> pres P (modify f).
Proof. intros H s Hs. by apply H. Qed.
Lemma pres_attempt {A} P (m : M A) : pres P m -> pres P (attempt m).
Proof. intros H s Hs. by apply H. Qed.
Lemma pres_catch {A} P (m : M A) : pres P m -> pres P (catch m).
Proof. intros H s Hs. unfold catch. specialize (H s Hs). by destruct (m s). Qed.
Lemma pres_when P b m : pres P m -> pres P (when b m).
Proof. intros H. destruct b; [exact H|apply pres_ret]. Qed.

Lemma pres_auction_loop P : (forall id, pres P (settle_one id)) ->
  forall fuel now dl acts, pres P (auction_loop fuel now dl acts).
Proof.
  intros Hs fuel. induction fuel as [|f IH]; intros now dl acts; [apply pres_ret|].
  cbn [auction_loop]. destruct (q_pop now dl) as [[id dl']|]; [|apply pres_ret].
  apply pres_bind; [auto|]. intros d. destruct (_ && _); [apply pres_ret|]. apply IH.
Qed.
Lemma pres_auction_hook P : (forall id, pres P (settle_one id)) ->
  (forall s dl, P s -> P (s <| s_auc ::= fun x => x <| deadlines := dl |> |>)) ->
  pres P auction_on_initialize.
Proof.
  intros Hs Hd. unfold auction_on_initialize. do 2 (apply pres_bind; [apply pres_gets|]; intros ?).
  apply pres_bind; [apply pres_auction_loop; auto|]. intros dl'. apply pres_modify. auto.
Qed.

Lemma pres_finish_loop P ev : (forall id, pres P (handle_finished id)) -> (forall e, pres P (emit e)) ->
  forall fuel now q acts, pres P (finish_loop ev fuel now q acts).
Proof.
  intros Hh He fuel. induction fuel as [|f IH]; intros now q acts; [apply pres_ret|].
  cbn [finish_loop]. destruct (q_pop now q) as [[id q']|]; [|apply pres_ret].
  apply pres_bind; [apply pres_attempt; auto|]. intros _. apply pres_bind; [auto|]. intros _.
  destruct (_ <=? _); [apply pres_ret|]. apply IH.
Qed.
Lemma pres_subscription_loop P :
  (forall id, pres P (handle_finished id)) -> (forall e, pres P (emit e)) ->
  (forall id now, pres P (handle_subscription id now)) ->
  forall fuel now q acts, pres P (subscription_loop fuel now q acts).
Proof.
  intros Hh He Hs fuel. induction fuel as [|f IH]; intros now q acts; [apply pres_ret|].
  cbn [subscription_loop]. destruct (q_pop now q) as [[id q']|]; [|apply pres_ret].
  apply pres_bind; [auto|]. intros r. apply pres_bind.
  { destruct r; apply pres_bind; [apply He|intros _; apply pres_ret|apply pres_attempt, Hh|].
    intros _. apply pres_bind; [apply He|]. intros _. apply pres_ret. }
  intros q''. destruct (_ <=? _); [apply pres_ret|]. apply IH.
Qed.
Lemma pres_rent_hook P :
  (forall id, pres P (handle_finished id)) -> (forall e, pres P (emit e)) ->
  (forall id now, pres P (handle_subscription id now)) ->
  (forall s q, P s -> P (s <| s_rent ::= fun r => r <| queues := q |> |>)) ->
  pres P rent_on_initialize.
Proof.
  intros Hh He Hs Hq. unfold rent_on_initialize. do 2 (apply pres_bind; [apply pres_gets|]; intros ?).
  apply pres_bind; [apply pres_finish_loop; auto|]. intros r1.
  apply pres_bind; [apply pres_subscription_loop; auto|]. intros r2.
  apply pres_bind; [apply pres_finish_loop; auto|]. intros r3.
  apply pres_when, pres_modify. auto.
Qed.

Lemma pres_trans_loop P : (forall id, pres P (transmit_nft id)) -> (forall e, pres P (emit e)) ->
  forall fuel now q acts, pres P (trans_loop fuel now q acts).
Proof.
  intros Hh He fuel. induction fuel as [|f IH]; intros now q acts; [apply pres_ret|].
  cbn [trans_loop]. destruct (q_pop now q) as [[id q']|]; [|apply pres_ret].
  apply pres_bind; [apply pres_catch; auto|]. intros r. apply pres_bind.
  { destruct r; (apply pres_bind; [apply He|intros _; apply pres_ret]). }
  intros a. destruct (_ <=? _); [apply pres_ret|]. apply IH.
Qed.
Lemma pres_trans_hook P :
  (forall id, pres P (transmit_nft id)) -> (forall e, pres P (emit e)) ->
  (forall s q, P s -> P (s <| s_trans ::= fun r => r <| t_queue := q |> |>)) ->
  pres P trans_on_initialize.
Proof.
  intros Hh He Hq. unfold trans_on_initialize. do 2 (apply pres_bind; [apply pres_gets|]; intros ?).
  apply pres_bind; [apply pres_trans_loop; auto|]. intros r.
  apply pres_when, pres_modify. auto.
Qed.
End pres.
