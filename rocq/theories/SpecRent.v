(** Vocabulary of the rent properties. *)
From Verif Require Export Spec.
Local Open Scope N_scope.

Section spec.
Context {C : Config}.

(** The token part of a security deposit and of a rent fee. *)
Definition token_deposit (f : cancel_fee) : N :=
  match f with FixedTokens x => x | FlexibleTokens x => x | _ => 0 end.
Definition token_fee (f : rent_fee) : N := match f with RentTokens x => x | RentNFT _ => 0 end.

(** The tokens a contract has deposited: the renter's always, the rentee's while it runs. *)
Definition deposits_of (c : contract) : N :=
  token_deposit (r_renter_cf c) + match r_rentee c with Some _ => token_deposit (r_rentee_cf c) | None => 0 end.
Definition held_deposits (s : state) : N := msum (deposits_of <$> contracts (s_rent s)).

(** The length of one period, and of the whole contract. *)
Definition period_of (d : duration) : N := match d with Fixed n => n | Subscription x => period_length x end.
Definition total_of (d : duration) : N := match d with Fixed n => n | Subscription x => max_duration x end.
(** The renter changed the terms and the rentee has not accepted them. *)
Definition terms_open (d : duration) : Prop := match d with Fixed _ => False | Subscription x => new_terms x = true end.
(** The whole duration of a running contract has passed at block [now]. *)
Definition over (c : contract) (now : N) : Prop :=
  exists st, r_start c = Some st /\ st + total_of (r_duration c) <= now.

(** Contract [i] is scheduled for block [b]. *)
Definition scheduled (s : state) (i b : N) : Prop :=
  (i, b) ∈ q_fixed (queues (s_rent s)) \/ (i, b) ∈ q_sub (queues (s_rent s)) \/ (i, b) ∈ q_avail (queues (s_rent s)).

(** What account [a] receives and pays when contract [c] ends: both deposits go back. *)
Definition end_gets (c : contract) (a : N) : N :=
  at_acc (r_renter c) a (token_deposit (r_renter_cf c)) +
  match r_rentee c with Some t => at_acc t a (token_deposit (r_rentee_cf c)) | None => 0 end.
Definition end_pays (c : contract) (a : N) : N := at_acc rent_pot a (deposits_of c).

(** What account [a] receives and pays when contract [c] is renewed: one rent fee. *)
Definition renew_gets (c : contract) (a : N) : N := at_acc (r_renter c) a (token_fee (r_rent_fee c)).
Definition renew_pays (c : contract) (a : N) : N :=
  match r_rentee c with Some t => at_acc t a (token_fee (r_rent_fee c)) | None => 0 end.

(** The same for contract [i] between two states: it ended if it is gone. *)
Definition gets_by (s s' : state) (a i : N) : N :=
  match contracts (s_rent s) !! i with
  | None => 0
  | Some c => match contracts (s_rent s') !! i with None => end_gets c a | Some _ => renew_gets c a end
  end.
Definition pays_by (s s' : state) (a i : N) : N :=
  match contracts (s_rent s) !! i with
  | None => 0
  | Some c => match contracts (s_rent s') !! i with None => end_pays c a | Some _ => renew_pays c a end
  end.

(** NFT [i] is free again and otherwise as before; the NFTs deposited for contract [c] of NFT
    [i] are with their owners. *)
Definition released (s s' : state) (i : N) (c : contract) : Prop :=
  (exists d, nfts (s_nft s) !! i = Some d /\
     nfts (s_nft s') !! i = Some (d <| nstate ::= fun st => st <| is_rented := false |> |>)) /\
  (forall j, r_renter_cf c = FeeNFT j -> owner_of s' j = Some (r_renter c)) /\
  (forall j t, r_rentee c = Some t -> r_rentee_cf c = FeeNFT j -> owner_of s' j = Some t).

(** Contract [c] of NFT [i] is there before and gone after. *)
Definition ended (s s' : state) (i : N) (c : contract) : Prop :=
  contracts (s_rent s) !! i = Some c /\ contracts (s_rent s') !! i = None.

(** The effects of ending or renewing exactly the contracts in [l]. *)
Record rent_effects (s : state) (l : list N) (s' : state) : Prop := {
  re_out : forall i, i ∉ l -> contracts (s_rent s') !! i = contracts (s_rent s) !! i;
  re_in : forall i, i ∈ l -> exists c, contracts (s_rent s) !! i = Some c /\
    (contracts (s_rent s') !! i = None \/ contracts (s_rent s') !! i = Some c);
  re_nodup : NoDup l;
  re_bal : forall a, a <> rent_pot \/ ed <= 1 ->
    free (s_bal s') a + sum_of (map (pays_by s s' a) l) = free (s_bal s) a + sum_of (map (gets_by s s' a) l);
  re_end : forall i c, i ∈ l -> ended s s' i c -> released s s' i c;
  re_rest : forall j, (forall i c, i ∈ l -> ended s s' i c -> j <> i /\ ~ secures c j) ->
    nfts (s_nft s') !! j = nfts (s_nft s) !! j
}.

(** In the block that follows state [s], the start-of-block work [h] turns [t] into [t']. *)
Definition turn (h : hook) (s t t' : state) : Prop :=
  exists l1 l2, hook_order = l1 ++ h :: l2 /\
    t = fold_left (fun s h => snd (run_hook h s)) l1 (s <| s_now ::= fun n => n + 1 |>) /\
    t' = snd (run_hook h t).

(** Every contract scheduled for the next block is in [l], and [l] fits in one block. *)
Definition all_due_fit (s : state) (l : list N) : Prop :=
  (forall i b, scheduled s i b -> b <= s_now s + 1 -> i ∈ l) /\ nlen l <= rent_actions.
End spec.

Section contracts.
Context {C : Config}.

(** The ways one step [a] of the chain may change contract [c] of NFT [i] into [c']: not at
    all; somebody rents it; the renter changes the terms; the rentee accepts them. *)
Definition contract_step (s : state) (a : action) (i : N) (c c' : contract) : Prop :=
  c' = c \/
  (exists t, r_rentee c = None /\ c' = c <| r_rentee := Some t |> <| r_start := Some (s_now s) |> /\
     (a = Extrinsic (Signed t) (C_rent i (r_creation c)) \/
      a = Extrinsic (Signed (r_renter c)) (C_accept_rent_offer i t) /\ t ∈ default [] (offers (s_rent s) !! i))) \/
  (exists fee p md ch x, a = Extrinsic (Signed (r_renter c)) (C_change_subscription_terms i fee p md ch) /\
     r_duration c = Subscription x /\ is_changeable x = true /\
     c' = c <| r_duration := Subscription (mkSub p (default duration_limit md) ch true) |> <| r_rent_fee := RentTokens fee |>) \/
  (exists t fee p md ch x, a = Extrinsic (Signed t) (C_accept_subscription_terms i fee p md ch) /\
     r_rentee c = Some t /\ r_duration c = Subscription x /\ new_terms x = true /\
     r_rent_fee c = RentTokens fee /\ period_length x = p /\ (forall m, md = Some m -> max_duration x = m) /\ is_changeable x = ch /\
     c' = c <| r_duration := Subscription (mkSub (period_length x) (max_duration x) (is_changeable x) false) |>).

(** The open offers for NFT [i]. *)
Definition offered (s : state) (i t : N) : Prop := exists l, offers (s_rent s) !! i = Some l /\ t ∈ l.

(** [a] pays [x] to [b] and [y] to [c]; the equation is about account [k]. *)
Definition pays2 (s s' : state) (a b x c y k : N) : Prop :=
  free (s_bal s') k + at_acc a k (x + y) = free (s_bal s) k + at_acc b k x + at_acc c k y.
End contracts.

Section revoking.
Context {C : Config}.

(** A number as a 32 bit number, saturating. *)
Definition sat32 (n : N) : N := N.min n 4294967295.
(** Whole percents of contract [c] completed at block [now]: hundred times the blocks since
    its start over its total duration, at most 100, in saturating 32 bit arithmetic. *)
Definition completed (c : contract) (now p : N) : Prop :=
  exists st, r_start c = Some st /\
    p = N.min 100 (sat32 (100 * (sat32 now - sat32 st)) / sat32 (total_of (r_duration c))).
(** The part [x] of their deposit [f] that the revoking party keeps: a flexible token deposit
    is kept in the completed proportion, any other is lost. *)
Definition kept_share (c : contract) (now : N) (f : cancel_fee) (x : N) : Prop :=
  match f with
  | FlexibleTokens v => exists p, completed c now p /\ permill_share (p * 10000) v x
  | _ => x = 0
  end.
(** [who] may revoke [c]; then [other] is the other party, and [own] and [theirs] are the
    deposits of the two. *)
Definition revokes (c : contract) (who other : N) (own theirs : cancel_fee) : Prop :=
  (who = r_renter c /\ r_can_revoke c = true /\ r_rentee c = Some other /\ own = r_renter_cf c /\ theirs = r_rentee_cf c) \/
  (who <> r_renter c /\ r_rentee c = Some who /\ other = r_renter c /\ own = r_rentee_cf c /\ theirs = r_renter_cf c).

(** NFT data [d] of the rented NFT [i] or of another NFT, given to [o]. *)
Definition freed (i j o : N) (d : nft_data) : nft_data :=
  if decide (j = i) then d <| owner := o |> <| nstate ::= fun st => st <| is_rented := false |> |> else d <| owner := o |>.
End revoking.

Section terms.
Context {C : Config}.

(** The agreed terms of a contract, all but whether the last change was accepted. *)
Definition same_terms (c c' : contract) : Prop :=
  r_renter c' = r_renter c /\ r_creation c' = r_creation c /\ r_rent_fee c' = r_rent_fee c /\
  r_renter_cf c' = r_renter_cf c /\ r_rentee_cf c' = r_rentee_cf c /\ r_can_revoke c' = r_can_revoke c /\
  r_acceptance c' = r_acceptance c /\ period_of (r_duration c') = period_of (r_duration c) /\
  total_of (r_duration c') = total_of (r_duration c).
(** The renter may change the terms. *)
Definition changeable (d : duration) : Prop := exists x, d = Subscription x /\ is_changeable x = true.
End terms.

Section paying.
Context {C : Config}.

(** Account [a] can pay [x] to [b] and stay alive: the locks and the existential deposit of
    [a] stay untouched, and [b] ends with at least the existential deposit. *)
Definition affordable (s : state) (a b x : N) : Prop :=
  x = 0 \/ a = b \/ (x + N.max ed (frozen (s_bal s) a) <= free (s_bal s) a /\ ed <= free (s_bal s) b + x).
End paying.
