(** Facts behind the rent properties: starting, keeping and leaving a contract. *)
From Verif Require Export RentFacts3.
Local Open Scope N_scope.

Section facts.
Context {C : Config}.

(** ** Starting *)
Lemma start_charges t c b b1 b2 k s s' : s_bal s = b -> s_bal s' = b2 ->
  transfer_b t (r_renter c) (tokens (r_rent_fee c)) true b = Ok b1 -> transfer_b t rent_pot (cf_amount (r_rentee_cf c)) true b1 = Ok b2 ->
  pays2 s s' t (r_renter c) (token_fee (r_rent_fee c)) rent_pot (token_deposit (r_rentee_cf c)) k.
Proof.
  intros <- <- T1 T2. rewrite <- token_amount in T2. rewrite <- token_tokens in T1.
  assert (Hk : k <> t \/ true = true \/ ed <= 1) by (right; by left).
  pose proof (transfer_exact _ _ _ _ _ _ k Hk T1). pose proof (transfer_exact _ _ _ _ _ _ k Hk T2). unfold pays2, at_acc in *.
  destruct (decide (k = t)); lia.
Qed.
Lemma fact_rent_charges s who i cb s' : dispatch (Signed who) (C_rent i cb) s = (Ok tt, s') ->
  exists c, contracts (s_rent s) !! i = Some c /\ r_rentee c = None /\ r_renter c <> who /\ r_creation c = cb /\
    contracts (s_rent s') = <[i := c <| r_rentee := Some who |> <| r_start := Some (s_now s) |>]> (contracts (s_rent s)) /\
    forall k, pays2 s s' who (r_renter c) (token_fee (r_rent_fee c)) rent_pot (token_deposit (r_rentee_cf c)) k.
Proof.
  intros H. apply dispatch_ok in H as [_ H]. cbn [exec_call signed] in H.
  apply rent_ok in H as (c&b1&b2&Hc&Hcb&Hr&Hne&_&_&T1&T2&Eb&Er). exists c. rewrite Er. split_and!; try done.
  intros k. by eapply start_charges.
Qed.
Lemma fact_accept_charges s who i t s' : reachable s -> dispatch (Signed who) (C_accept_rent_offer i t) s = (Ok tt, s') ->
  exists c, contracts (s_rent s) !! i = Some c /\ r_rentee c = None /\ r_renter c = who /\ offered s i t /\
    contracts (s_rent s') = <[i := c <| r_rentee := Some t |> <| r_start := Some (s_now s) |>]> (contracts (s_rent s)) /\
    forall k, pays2 s s' t (r_renter c) (token_fee (r_rent_fee c)) rent_pot (token_deposit (r_rentee_cf c)) k.
Proof.
  intros Hs H. apply dispatch_ok in H as [_ H]. cbn [exec_call signed] in H.
  apply raccept_ok in H as (c&l&b1&b2&Hc&Hl&Hr&Hin&T1&T2&Eb&Er). exists c. rewrite Er. split_and!; try done.
  - by eapply offered_not_running; [apply reachable_inv1|..].
  - by exists l.
  - intros k. by eapply start_charges.
Qed.

(** The NFTs that change hands. *)
Lemma take_nfts t c s s' : take_rent_and_cancellation_fee t c s = (Ok tt, s') ->
  let give o a (m : gmap N nft_data) := match o with Some j => alter (fun x => x <| owner := a |>) j m | None => m end in
  nfts (s_nft s') = give (cf_nft (r_rentee_cf c)) rent_pot (give (rf_nft (r_rent_fee c)) (r_renter c) (nfts (s_nft s))) /\
  (forall j, rf_nft (r_rent_fee c) = Some j -> owner_of s j = Some t) /\ (forall j, cf_nft (r_rentee_cf c) = Some j -> owner_of s j = Some t).
Proof.
  intros H give. unfold take_rent_and_cancellation_fee in H.
  apply bind_map_err in H. do 1 mstep H. apply bind_map_err in H. mstep H.
  set (sb := s <| s_bal := b |> <| s_bal := b0 |>) in *.
  assert (Hchk : forall oi e1 e2 e3 (q : unit -> M unit) r, bind (check_fee_nft t oi e1 e2 e3) q sb = (Ok r, s') ->
    (forall k, oi = Some k -> owner_of s k = Some t) /\ q tt sb = (Ok r, s')).
  { intros oi e1 e2 e3 q r Hq. unfold check_fee_nft in Hq. minv Hq.
    - split; [|done]. intros k Hk. rewrite O in Hk. injection Hk as <-. subst t. unfold owner_of. change (nfts (s_nft sb)) with (nfts (s_nft s)) in *. by rewrite U.
    - split; [|done]. congruence. }
  apply Hchk in H as [Hrf H]. apply Hchk in H as [Hcf H]. clear Hchk. split; [|done].
  apply bind_ok in H as ([]&s1&H1&H).
  assert (Hch : forall o e a (u u' : state), on_some o (fun i => map_err e (change_nft_ownership i a)) u = (Ok tt, u') -> nfts (s_nft u') = give o a (nfts (s_nft u))).
  { intros o e a u u' Hu. unfold give. apply on_some_ok in Hu as [(j&->&Hu)|[-> <-]]; [|done].
    unfold map_err, change_nft_ownership, bind, get_nft, gets, unwrap in Hu.
    destruct (nfts (s_nft u) !! j) as [d|] eqn:Ed; [|done]. injection Hu as <-. st_cbn. by rewrite <- (insert_alter_like _ _ _ (fun y => y <| owner := a |>) Ed). }
  rewrite (Hch _ _ _ _ _ H), (Hch _ _ _ _ _ H1). done.
Qed.
Lemma fact_start_nfts s o i x s' : (exists cb, x = C_rent i cb) \/ (exists t, x = C_accept_rent_offer i t) -> dispatch o x s = (Ok tt, s') ->
  exists c c' t, contracts (s_rent s) !! i = Some c /\ contracts (s_rent s') !! i = Some c' /\ r_rentee c' = Some t /\ 
    (forall j, r_rent_fee c = RentNFT j -> owner_of s j = Some t /\ (r_rentee_cf c <> FeeNFT j -> owner_of s' j = Some (r_renter c))) /\
    (forall j, r_rentee_cf c = FeeNFT j -> owner_of s j = Some t /\ owner_of s' j = Some rent_pot) /\
    (forall j, r_rent_fee c <> RentNFT j -> r_rentee_cf c <> FeeNFT j -> nfts (s_nft s') !! j = nfts (s_nft s) !! j).
Proof.
  intros Hx H. apply dispatch_ok in H as [_ H].
  assert (exists c t s1 s2, contracts (s_rent s) !! i = Some c /\ take_rent_and_cancellation_fee t c s = (Ok tt, s1) /\ start_contract i t c s1 = (Ok tt, s2) /\
    s_nft s' = s_nft s2 /\ s_rent s' = s_rent s2) as (c&t&s1&s2&Hc&H1&H2&En&Er).
  { destruct Hx as [[cb ->]|[t ->]]; cbn [exec_call] in H; unfold signed in H; destruct o as [who| |]; try done.
    - unfold rent in H. do 7 mstep H. apply bind_ok in H as ([]&s1&H1&H). apply bind_ok in H as ([]&s2&H2&H). mstep H. subst s'. exists x, who, s1, s2. done.
    - unfold accept_rent_offer in H. do 6 mstep H. apply bind_ok in H as ([]&s1&H1&H). apply bind_ok in H as ([]&s2&H2&H). mstep H. subst s'. exists x, t, s1, s2. done. }
  pose proof (take_nfts _ _ _ _ H1) as (En1&Hrf&Hcf). apply start_contract_run in H2 as (q&_&->).
  exists c, (c <| r_rentee := Some t |> <| r_start := Some (s_now s1) |>), t. st_cbn_in En. rewrite Er. st_cbn. rewrite lookup_insert. split; [done|]. split; [done|]. split; [done|].
  assert (Hd : forall j, owner_of s j = Some t -> exists d, nfts (s_nft s) !! j = Some d).
  { unfold owner_of. intros j. destruct (nfts (s_nft s) !! j); [eauto|done]. }
  unfold owner_of at 2 4. rewrite En, En1. split_and!.
  - intros j Ej. rewrite Ej in *. cbn [rf_nft] in *. pose proof (Hrf j eq_refl) as Ho. split; [done|]. intros Hne. destruct (Hd j Ho) as [d Hj].
    destruct (r_rentee_cf c) as [| |k|]; cbn [cf_nft]; rewrite ?lookup_alter_ne by congruence; rewrite lookup_alter, Hj; done.
  - intros j Ej. rewrite Ej in *. cbn [cf_nft] in *. pose proof (Hcf j eq_refl) as Ho. split; [done|]. destruct (Hd j Ho) as [d Hj].
    rewrite lookup_alter. destruct (r_rent_fee c) as [|k]; cbn [rf_nft]; [by rewrite Hj|].
    destruct (decide (k = j)) as [->|]; [rewrite lookup_alter|rewrite lookup_alter_ne by done]; by rewrite Hj.
  - intros j Hn1 Hn2. destruct (r_rentee_cf c) as [| |k|]; cbn [cf_nft]; rewrite ?lookup_alter_ne by congruence;
      destruct (r_rent_fee c); cbn [rf_nft]; rewrite ?lookup_alter_ne by congruence; done.
Qed.

(** ** Capacity *)
Definition noerr {A} (e : error) (P : state -> Prop) (m : M A) : Prop :=
  forall s, P s -> fst (m s) <> Err e /\ P (snd (m s)).
Lemma noerr_bind {A B} e P (m : M A) (k : A -> M B) : noerr e P m -> (forall a, noerr e P (k a)) -> noerr e P (bind m k).
Proof.
  intros Hm Hk s Hs. specialize (Hm s Hs). unfold bind. destruct (m s) as [[a|e'] s1]; cbn [fst snd] in *; [|destruct Hm; split; congruence].
  destruct Hm as [_ Hm]. by apply Hk.
Qed.
Lemma noerr_ret {A} e P (a : A) : noerr e P (ret a).
Proof. by intros s Hs. Qed.
Lemma noerr_gets {A} e P (f : state -> A) : noerr e P (gets f).
Proof. by intros s Hs. Qed.
Lemma noerr_unwrap {A} e P (o : option A) e' : e' <> e -> noerr e P (unwrap o e').
Proof. intros He s Hs. unfold unwrap. destruct o; cbn; split; congruence. Qed.
Lemma noerr_ensure e P b e' : e' <> e -> noerr e P (ensure b e').
Proof. intros He s Hs. unfold ensure. destruct b; cbn; split; congruence. Qed.
Lemma noerr_modify e (P : state -> Prop) f : (forall s, P s -> P (f s)) -> noerr e P (modify f).
Proof. intros Hf s Hs. cbn. split; [done|auto]. Qed.
Lemma noerr_map_err {A} e (P : state -> Prop) e' (m : M A) : e' <> e -> (forall s, P s -> P (snd (m s))) -> noerr e P (map_err e' m).
Proof. intros He Hm s Hs. unfold map_err. specialize (Hm s Hs). destruct (m s) as [[a|?] s1]; cbn in *; split; congruence. Qed.
Lemma noerr_on_some {A} e P (o : option A) m : (forall a, noerr e P (m a)) -> noerr e P (on_some o m).
Proof. intros Hm. destruct o; [apply Hm|]. by intros s Hs. Qed.
Lemma pres_transfer_rent q f t a k s : queues (s_rent s) = q -> queues (s_rent (snd (transfer f t a k s))) = q.
Proof. intros H. unfold transfer, lift_bal. destruct (transfer_b f t a k (s_bal s)); done. Qed.
Lemma pres_change_rent q i o s : queues (s_rent s) = q -> queues (s_rent (snd (change_nft_ownership i o s))) = q.
Proof. intros H. unfold change_nft_ownership, bind, get_nft, gets, unwrap. destruct (nfts (s_nft s) !! i); done. Qed.

Lemma noerr_take q t c : noerr (rerr R_MaxSimultaneousContractReached) (fun s => queues (s_rent s) = q) (take_rent_and_cancellation_fee t c).
Proof.
  unfold take_rent_and_cancellation_fee, check_fee_nft, get_nft.
  repeat first [apply noerr_bind; [|intros] | apply noerr_map_err; [done|] | apply noerr_on_some; intros | apply noerr_gets | apply noerr_unwrap; done | apply noerr_ensure; done].
  all: intros s Hs; first [by apply pres_transfer_rent|by apply pres_change_rent].
Qed.
Lemma noerr_start q i t c b : rent_limit <> 0 -> nlen (q_fixed q) + nlen (q_sub q) + nlen (q_avail q) <= rent_limit -> (i, b) ∈ q_avail q ->
  forall s, queues (s_rent s) = q -> fst (start_contract i t c s) <> Err (rerr R_MaxSimultaneousContractReached).
Proof.
  intros Hz Hq Hi s Hs. unfold start_contract, bind, gets, unwrap, mod_rent, modify, del_offers, set_contract. rewrite Hs.
  assert (exists q', queues_insert i (s_now s + duration_or_period (r_duration c)) (kind_of (r_duration c)) (queues_remove i QAvail q) = Some q') as [q' ->]; [|done].
  assert (1 <= nlen (q_avail q)). { destruct (q_avail q); [by apply elem_of_nil in Hi|unfold nlen; cbn; lia]. }
  destruct (kind_of (r_duration c)) eqn:Ek; cbn [queues_insert queues_remove q_fixed q_sub q_avail set]; unfold q_insert.
  - destruct (_ <? _) eqn:E; [by eexists|]. apply N.ltb_ge in E. cbn [set q_fixed] in E. lia.
  - destruct (_ <? _) eqn:E; [by eexists|]. apply N.ltb_ge in E. cbn [set q_sub] in E. lia.
  - by destruct (r_duration c).
Qed.
Lemma noerr_started q i t c b s : rent_limit <> 0 -> nlen (q_fixed q) + nlen (q_sub q) + nlen (q_avail q) <= rent_limit -> (i, b) ∈ q_avail q ->
  queues (s_rent s) = q ->
  fst ((take_rent_and_cancellation_fee t c ;;; start_contract i t c ;;; emit (Ev_ContractStarted i t)) s) <> Err (rerr R_MaxSimultaneousContractReached).
Proof.
  intros Hz Hq Hi Hs. unfold bind at 1. destruct (noerr_take q t c s Hs) as [Hn1 Hn2].
  destruct (take_rent_and_cancellation_fee t c s) as [[[]|e] s1]; cbn [fst snd] in *; [|congruence].
  unfold bind. pose proof (noerr_start q i t c b Hz Hq Hi s1 Hn2) as Hn3.
  destruct (start_contract i t c s1) as [[[]|e] s2]; cbn [fst] in *; [done|congruence].
Qed.
Lemma dispatch_fst o x s e s' : dispatch o x s = (Err e, s') -> e <> DecodeError -> fst (exec_call o x s) = Err e.
Proof.
  unfold dispatch, transactional. destruct (wf_call x); [|congruence]. destruct (exec_call o x s) as [[]?]; [done|]. cbn. congruence.
Qed.
Lemma fact_capacity s o i x e s' : config_ok -> reachable s -> (exists cb, x = C_rent i cb) \/ (exists t, x = C_accept_rent_offer i t) ->
  dispatch o x s = (Err e, s') -> e <> Rent_err R_MaxSimultaneousContractReached.
Proof.
  intros HC Hs Hx H ->. apply dispatch_fst in H; [|done]. revert H.
  change (fst (exec_call o x s) <> Err (rerr R_MaxSimultaneousContractReached)).
  pose proof (reachable_inv1 s Hs) as HI. destruct (reachable_rent s HC Hs) as [HR _]. pose proof (r_size _ _ _ HR) as Hq. unfold queues_size in Hq.
  assert (Hav : forall c, contracts (s_rent s) !! i = Some c -> r_rentee c = None -> exists b, (i, b) ∈ q_avail (queues (s_rent s)) /\ rent_limit <> 0).
  { intros c Hc Hr. pose proof (fact_rent_scheduled s i c HC Hs Hc) as Hsch. pose proof (c_run _ _ (r_cok _ _ _ HR _ _ Hc)) as Hrun. rewrite Hr in Hrun.
    destruct (r_start c); [done|]. destruct Hsch as [Hin _]. eexists. split; [exact Hin|].
    destruct (q_avail (queues (s_rent s))); [by apply elem_of_nil in Hin|]. unfold nlen in Hq. cbn in Hq. lia. }
  destruct Hx as [[cb ->]|[t ->]]; cbn [exec_call]; unfold signed; destruct o as [who| |]; try done.
  - unfold rent. unfold bind at 1, get_contract at 1, gets at 1. unfold bind at 1, unwrap at 1.
    destruct (contracts (s_rent s) !! i) as [c|] eqn:Hc; [|done].
    unfold bind at 1, ensure at 1. destruct (r_creation c =? cb); [|done]. unfold bind at 1, ensure at 1. destruct (r_rentee c) eqn:Hr; [done|].
    unfold bind at 1, ensure at 1. destruct (negb _); [|done]. unfold bind at 1, ensure at 1. destruct (negb _); [|done]. unfold bind at 1, ensure at 1. destruct (whitelisted _ _); [|done].
    destruct (Hav c eq_refl Hr) as (b&Hb&Hz). by eapply noerr_started.
  - unfold accept_rent_offer. unfold bind at 1, get_contract at 1, gets at 1. unfold bind at 1, unwrap at 1.
    destruct (contracts (s_rent s) !! i) as [c|] eqn:Hc; [|done]. unfold bind at 1, gets at 1. unfold bind at 1, unwrap at 1.
    destruct (offers (s_rent s) !! i) as [l|] eqn:Hl; [|done]. unfold bind at 1, ensure at 1. destruct (r_renter c =? who); [|done].
    unfold bind at 1, ensure at 1. destruct (memN t l); [|done].
    destruct (Hav c eq_refl (offered_not_running s i c l HI Hc Hl)) as (b&Hb&Hz). by eapply noerr_started.
Qed.

(** ** The terms of a contract in the course of time *)
Lemma same_terms_trans c1 c2 c3 : same_terms c1 c2 -> same_terms c2 c3 -> same_terms c1 c3.
Proof. unfold same_terms. intros H1 H2. destruct_and! H1. destruct_and! H2. split_and!; congruence. Qed.
Lemma step_terms s a i c c' : contract_step s a i c c' -> ~ changeable (r_duration c) -> same_terms c c' /\ ~ changeable (r_duration c').
Proof.
  intros [->|[(t&_&->&_)|[(fee&p&md&ch&x&_&Hd&Hch&_)|(t&fee&p&md&ch&x&_&_&Hd&_&_&_&_&_&->)]]] Hn.
  - split; [|done]. unfold same_terms. split_and!; done.
  - split; [|done]. unfold same_terms. split_and!; done.
  - exfalso. apply Hn. by exists x.
  - split; [|intros (y&[= <-]&Hy); apply Hn; exists x; done]. unfold same_terms. cbn. rewrite Hd. split_and!; done.
Qed.
Lemma later_reachable s s' : reachable s -> later s s' -> reachable s'.
Proof. intros Hs H. induction H; [done|]. by constructor. Qed.
Lemma now_step s a : s_now s <= s_now (step s a).
Proof.
  apply (step_cases (fun t => s_now s <= s_now t)); try done.
  - intros x s' Hm He. by rewrite (call_now _ _ _ _ Hm He).
  - intros o x s' _ Hm _ He. by rewrite (call_now _ _ _ _ Hm He).
  - intros _. apply (next_block_ind (fun t => s_now s <= s_now t)); [st_cbn; lia|]. intros h t Ht. by rewrite hook_now.
  - intros e s' _ He. apply env_kept in He as (->&_). done.
Qed.
Lemma fact_terms_stay s s' i c c' : config_ok -> reachable s -> later s s' -> contracts (s_rent s) !! i = Some c ->
  r_creation c < s_now s -> ~ changeable (r_duration c) ->
  contracts (s_rent s') !! i = Some c' -> r_creation c' = r_creation c -> same_terms c c'.
Proof.
  intros HC Hs Hl Hc Hcr Hch Hc' Hcr'.
  assert (H : s_now s <= s_now s' /\ forall x, contracts (s_rent s') !! i = Some x -> s_now s <= r_creation x \/ same_terms c x /\ ~ changeable (r_duration x)).
  { clear c' Hc' Hcr'. induction Hl as [|s' a Hl IH Ha].
    - split; [done|]. intros x Hx. right. assert (x = c) as -> by congruence. split; [|done]. unfold same_terms. split_and!; done.
    - destruct IH as [Hn IH]. pose proof (later_reachable _ _ Hs Hl) as Hs'. split; [pose proof (now_step s' a); lia|]. intros x Hx.
      destruct (contracts (s_rent s') !! i) as [y|] eqn:Hy.
      + pose proof (fact_contract_step s' a i y x HC Hs' Ha Hy Hx) as Hst. destruct (IH y eq_refl) as [Hb|[Ht Hnc]].
        * left. assert (r_creation x = r_creation y) as ->; [|done].
          destruct Hst as [->|[(t&_&->&_)|[(fee&p&md&ch&z&_&_&_&->)|(t&fee&p&md&ch&z&_&_&_&_&_&_&_&_&->)]]]; done.
        * right. destruct (step_terms _ _ _ _ _ Hst Hnc). split; [by eapply same_terms_trans|done].
      + destruct (fact_contract_new s' a i x HC Hs' Ha Hy Hx) as (who&di&acc&cr&fee&cf1&cf2&_&_&->). left. cbn. lia. }
  destruct H as [_ H]. destruct (H c' Hc') as [?|[? _]]; [lia|done].
Qed.

(** ** Leaving a running contract *)
Lemma return_fee_go f a b s : transfer_b rent_pot a (cf_amount f) false (s_bal s) = Ok b -> (forall j, cf_nft f = Some j -> is_Some (nfts (s_nft s) !! j)) ->
  exists s', return_cancellation_fee f a s = (Ok tt, s') /\ s_bal s' = b /\ (forall j, is_Some (nfts (s_nft s) !! j) -> is_Some (nfts (s_nft s') !! j)).
Proof.
  intros T Hn. unfold return_cancellation_fee. unfold bind at 1, transfer, lift_bal. rewrite T.
  destruct (cf_nft f) as [k|]; cbn [on_some]; [|by eexists; split; [reflexivity|]].
  destruct (Hn k eq_refl) as [d Hd]. unfold change_nft_ownership, bind, get_nft, gets, unwrap. st_cbn. rewrite Hd.
  eexists. split; [reflexivity|]. split; [done|]. intros j Hj. st_cbn. destruct (decide (k = j)) as [->|]; [by rewrite lookup_insert|by rewrite lookup_insert_ne].
Qed.
Lemma fact_leave s who i c other own theirs : config_ok -> reachable s -> i <= u32_max -> contracts (s_rent s) !! i = Some c ->
  revokes c who other own theirs -> (forall x, own <> FlexibleTokens x) \/ ed <= 1 ->
  exists s', dispatch (Signed who) (C_revoke_contract i) s = (Ok tt, s').
Proof.
  intros HC Hs Hi Hc Hrev Hflex. pose proof (reachable_inv1 s Hs) as HI. destruct (reachable_rlinv s HC Hs) as [_ HB HL HR HS].
  pose proof (r_cok _ _ _ HR _ _ Hc) as Hok. unfold rsolv in HS. rewrite (rescrow_del _ _ _ Hc) in HS.
  assert (Her : ed <= rent_ed) by apply HC.
  assert (exists t, r_rentee c = Some t) as [t Ht]. { destruct Hrev as [(_&_&?&_)|(_&?&_)]; eauto. }
  assert (Ho : other ∉ pots). { destruct Hrev as [(_&_&Hr&_)|(_&_&->&_)]; [by eapply (inv1_rentees s HI)|by eapply renter_not_pot]. }
  assert (Hsum : rdue c = cf_amount own + cf_amount theirs).
  { unfold rdue. rewrite Ht. cbn [isS]. destruct Hrev as [(_&_&_&->&->)|(_&_&_&->&->)]; lia. }
  assert (W1 : whole (cf_amount own)). { apply zb_whole; [done|]. destruct Hrev as [(_&_&_&->&_)|(_&_&_&->&_)]; apply Hok. }
  assert (W2 : whole (cf_amount theirs)). { apply zb_whole; [done|]. destruct Hrev as [(_&_&_&_&->)|(_&_&_&_&->)]; apply Hok. }
  rewrite Hsum in HS. set (R := rescrow _) in HS.
  pose proof (nolock_frozen s rent_pot HL rpot_in) as Hfr.
  destruct (can_pay_whole rent_pot other (cf_amount theirs) (s_bal s) W2 HB Hfr ltac:(lia)) as [b1 T1].
  pose proof (rpot_pays _ _ _ _ _ (cf_amount own) T1 W1 ltac:(lia)) as G1.
  assert (HB1 : bsum b1 0) by (by eapply transfer_bsum). assert (Hfr1 : frozen b1 rent_pot = 0).
  { rewrite (frozen_locks (s_bal s) b1); [done|]. by eapply transfer_locks. }
  assert (Hnft : forall j, secures c j -> is_Some (nfts (s_nft s) !! j)). { intros j Hj. by eapply deposit_exists. }
  assert (Hn1 : forall j, cf_nft theirs = Some j -> is_Some (nfts (s_nft s) !! j)).
  { intros j Hj. apply Hnft. assert (theirs = FeeNFT j) as Hj' by (destruct theirs; try done; cbn in Hj; congruence).
    destruct Hrev as [(_&_&_&_&Hf)|(_&_&_&_&Hf)]; [right; split; [congruence|]|left]; congruence. }
  assert (Hn2 : forall j, cf_nft own = Some j -> is_Some (nfts (s_nft s) !! j)).
  { intros j Hj. apply Hnft. assert (own = FeeNFT j) as Hj' by (destruct own; try done; cbn in Hj; congruence).
    destruct Hrev as [(_&_&_&Hf&_)|(_&_&_&Hf&_)]; [left|right; split; [congruence|]]; congruence. }
  destruct (return_fee_go theirs other b1 s T1 Hn1) as (s1&E1&Eb1&Hd1).
  assert (exists s2, (match cf_flexible own with
    | Some full => let! percent := unwrap (percentage_of_completion c (s_now s)) Panic in return_flexible_fee who other percent full
    | None => return_cancellation_fee own other end) s1 = (Ok tt, s2) /\ (forall j, is_Some (nfts (s_nft s1) !! j) -> is_Some (nfts (s_nft s2) !! j))) as (s2&E2&Hd2).
  { destruct (cf_flexible own) as [full|] eqn:Hfl.
    - destruct Hflex as [Hflex|Hed]; [destruct own; try done; by edestruct Hflex|].
      assert (exists st, r_start c = Some st) as [st Hst]. { pose proof (c_run _ _ Hok) as Hrun. rewrite Ht in Hrun. destruct (r_start c); [eauto|done]. }
      destruct (completion_defined c (s_now s) st Hst) as [pc Hpc]; [rewrite total_is; apply Hok|].
      unfold bind at 1, unwrap. rewrite Hpc. unfold return_flexible_fee.
      destruct (fact_completion c (s_now s) pc st Hpc Hst) as (p&_&->&Hp); [by apply (c_start _ _ Hok)|].
      assert (permill_mul (p * 10000) full <= full) as Hle by (eapply share_le; [exact Hp|apply permill_mul_share]).
      set (sh := permill_mul (p * 10000) full) in *. assert (Ef : cf_amount own = full) by (destruct own; try done; cbn in *; congruence). rewrite Ef in *.
      destruct (can_pay rent_pot who sh b1 Hed HB1 Hfr1 ltac:(lia)) as [b2 T2].
      assert (HB2 : bsum b2 0) by (by eapply transfer_bsum). assert (Hfr2 : frozen b2 rent_pot = 0).
      { rewrite (frozen_locks b1 b2); [done|]. by eapply transfer_locks. }
      pose proof (pays_exact _ _ _ _ _ Hed T2) as Hx.
      destruct (can_pay rent_pot other (full - sh) b2 Hed HB2 Hfr2 ltac:(lia)) as [b3 T3].
      unfold bind, transfer, lift_bal. rewrite Eb1, T2. st_cbn. rewrite T3. by eexists.
    - destruct (can_pay_whole rent_pot other (cf_amount own) b1 W1 HB1 Hfr1 G1) as [b2 T2]. rewrite <- Eb1 in T2.
      destruct (return_fee_go own other b2 s1 T2) as (s2&E2&_&Hd2); [by eauto|]. exists s2. done. }
  assert (is_Some (nfts (s_nft s2) !! i)) as [d Hd]. { apply Hd2, Hd1. destruct (contract_nft s i c HI Hc) as (d&Hd&_). eauto. }
  unfold dispatch. assert (wf_call (C_revoke_contract i) = true) as -> by (cbn; unfold fits; by apply N.leb_le).
  cut (exists s', revoke_contract who i s = (Ok tt, s')). { intros [s' E]. exists s'. unfold transactional. cbn [exec_call signed]. by rewrite E. }
  unfold revoke_contract. unfold bind at 1, gets at 1. unfold bind at 1, get_contract at 1, gets at 1. unfold bind at 1, unwrap at 1. rewrite Hc. unfold bind at 1, unwrap at 1. rewrite Ht.
  assert (Hrest : forall (k : M unit), (forall u, k u = (mod_rent (fun r => r <| queues ::= queues_remove i (kind_of (r_duration c)) |>) ;;; del_contract i ;;;
     let! o := get_nft i in let! d := unwrap o (rerr R_NFTNotFound) in set_nft i (put_rented false d) ;;; emit (Ev_ContractRevoked i who)) u) -> exists s', k s2 = (Ok tt, s')).
  { intros k ->. unfold bind, mod_rent, modify, del_contract, mod_rent, modify, get_nft, gets, unwrap. st_cbn. rewrite Hd. eexists. reflexivity. }
  destruct Hrev as [(->&Hcan&Ht'&->&->)|(Hne&Ht'&->&->&->)].
  - assert (t = other) as -> by congruence. rewrite N.eqb_refl. cbn [orb]. unfold bind at 1, ensure at 1. unfold bind at 1, when at 1, ensure at 1. rewrite Hcan.
    unfold bind at 1. rewrite E1. unfold bind at 1. rewrite E2. by apply Hrest.
  - assert (t = who) as -> by congruence. destruct (N.eqb_spec (r_renter c) who) as [|_]; [congruence|]. rewrite N.eqb_refl. cbn [orb]. unfold bind at 1, ensure at 1. unfold bind at 1, when at 1.
    unfold bind at 1, ret at 1. rewrite E1. unfold bind at 1. rewrite E2. by apply Hrest.
Qed.
End facts.
