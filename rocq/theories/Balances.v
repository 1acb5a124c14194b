(** The part of pallet-balances (polkadot-v0.9.42, not in /repo) that the pallets call,
    through the [Currency] and [LockableCurrency] traits.  Every function works on the
    [balances] component alone, so no other storage can change.

    Simplified: no reserved balances or holds, and the only provider reference of an
    account is its balance; a lock is the only consumer reference.  Error values follow
    the trait's error kinds, not the exact [TokenError]/[Error] constructor. *)
From Verif Require Export State.
Local Open Scope N_scope.

Section balances.
Context {C : Config}.

(** models [Currency::free_balance]. *)
Definition free (b : balances) (a : N) : N := default 0 (free_m b !! a).

(** models [AccountData::frozen]: the largest lock on the account. *)
Definition frozen (b : balances) (a : N) : N :=
  N.max (default 0 (tee_lock b !! a)) (default 0 (other_lock b !! a)).

(** No counterpart in /repo: pallet-balances' consumer reference of a lock. *)
Definition has_lock (b : balances) (a : N) : bool := 0 <? frozen b a.

(** models the account write of pallet-balances ([try_mutate_account]): an account left
    with less than the existential deposit is reaped and the dust is burned
    ([DustRemoval = ()]). *)
Definition set_free (a v : N) (b : balances) : balances :=
  if v <? ed
  then b <| free_m ::= delete a |> <| issuance ::= fun i => i - v |>
  else b <| free_m ::= insert a v |>.

(** What a transfer must leave on the sender: the locked amount, and the existential
    deposit when the account has to survive. *)
Definition untouchable (b : balances) (a : N) (keep_alive : bool) : N :=
  N.max (frozen b a) (if keep_alive || has_lock b a then ed else 0).

(** models [Currency::transfer] ([keep_alive = true] is [KeepAlive], [false] is
    [AllowDeath]). *)
Definition transfer_b (from to amt : N) (keep_alive : bool) (b : balances) : res balances :=
  if (amt =? 0) || (from =? to) then Ok b
  else if free b from <? amt then Err Balances_InsufficientBalance
  else if free b from <? amt + frozen b from then Err Balances_LiquidityRestrictions
  else if free b from <? amt + untouchable b from keep_alive then Err Balances_KeepAlive
  else if free b to + amt <? ed then Err Balances_ExistentialDeposit
  else if u128_max <? free b to + amt then Err Balances_Overflow
  else Ok (set_free to (free b to + amt) (set_free from (free b from - amt) b)).

(** models [Currency::withdraw]; the withdrawn amount is then an imbalance that the
    caller must dispose of ([collect_b], [burn_b]). *)
Definition withdraw_b (who amt : N) (keep_alive : bool) (b : balances) : res balances :=
  if amt =? 0 then Ok b
  else if free b who <? amt then Err Balances_InsufficientBalance
  else
    let new_free := free b who - amt in
    if keep_alive && (new_free <? ed) && (ed <=? free b who) then Err Balances_KeepAlive
    else if new_free <? frozen b who then Err Balances_LiquidityRestrictions
    else if has_lock b who && (new_free <? ed) then Err Balances_KeepAlive
    else Ok (set_free who new_free b).

(** models [Currency::deposit_creating]: a new account must receive at least the
    existential deposit, otherwise nothing is deposited.  Returns the amount deposited. *)
Definition deposit_creating_b (who amt : N) (b : balances) : N * balances :=
  if amt =? 0 then (0, b)
  else if (match free_m b !! who with None => true | Some _ => false end) && (amt <? ed)
  then (0, b)
  else if u128_max <? free b who + amt then (0, b)
  else (amt, set_free who (free b who + amt) b).

(** Dropping a negative imbalance of [amt]: it leaves the total issuance. *)
Definition burn_b (amt : N) (b : balances) : balances :=
  b <| issuance ::= fun i => i - amt |>.

(** models [Currency::resolve_creating]: what cannot be deposited is dropped. *)
Definition resolve_creating_b (who amt : N) (b : balances) : balances :=
  let (d, b1) := deposit_creating_b who amt b in burn_b (amt - d) b1.

(** models [Currency::issue]: the imbalance created and the new issuance. *)
Definition issue_b (amt : N) (b : balances) : N * balances :=
  let amt' := N.min amt (u128_max - issuance b) in
  (amt', b <| issuance ::= fun i => i + amt' |>).

(** models [T::FeesCollector::on_unbalanced] (see [fees_collector] in State.v). *)
Definition collect_b (amt : N) (b : balances) : balances :=
  match fees_collector with
  | None => burn_b amt b
  | Some a => resolve_creating_b a amt b
  end.

(** models [LockableCurrency::set_lock] with the tee pallet's identifier.  Versions of
    pallet-balances differ for a zero amount: it is ignored and leaves an existing lock in
    place, or it removes the lock; [zero_lock_clears] says which. *)
Definition set_lock_b (who amt : N) (b : balances) : balances :=
  if amt =? 0 then (if zero_lock_clears then b <| tee_lock ::= delete who |> else b)
  else b <| tee_lock ::= insert who amt |>.

(** models [LockableCurrency::remove_lock] with the tee pallet's identifier. *)
Definition remove_lock_b (who : N) (b : balances) : balances :=
  b <| tee_lock ::= delete who |>.

(** models [Currency::ensure_can_withdraw]. *)
Definition can_withdraw (b : balances) (who amt new_balance : N) : bool :=
  (amt =? 0) || (frozen b who <=? new_balance).

(** ** Lifted to the state *)

(** No counterpart in /repo: a currency operation run on the state. *)
Definition lift_bal (f : balances -> res balances) : M unit := fun s =>
  match f (s_bal s) with
  | Ok b => (Ok tt, s <| s_bal := b |>)
  | Err e => (Err e, s)
  end.

(** [T::Currency::transfer(..)?] (for instance auction/src/lib.rs:672-699) *)
Definition transfer (from to amt : N) (keep_alive : bool) : M unit :=
  lift_bal (transfer_b from to amt keep_alive).

(** [withdraw(..., KeepAlive)?] followed by [FeesCollector::on_unbalanced]. *)
Definition pay_fee (who amt : N) : M unit :=
  lift_bal (fun b => match withdraw_b who amt true b with
                     | Ok b1 => Ok (collect_b amt b1)
                     | Err e => Err e
                     end).

(** [T::Currency::free_balance] (for instance staking-rewards/src/lib.rs:160) *)
Definition free_balance (a : N) : M N := gets (fun s => free (s_bal s) a).

End balances.
