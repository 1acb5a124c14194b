(** Model of pallet rent (rent/src/lib.rs, rent/src/types.rs). *)
From Verif Require Export AuctionModel.
Local Open Scope N_scope.

Section rent.
Context {C : Config}.

(** models an error of rent/src/lib.rs:191-278. *)
Definition rerr (e : rent_error) : error := Rent_err e.

(** [Contracts::get] (rent/src/lib.rs:121-130) *)
Definition get_contract (id : N) : M (option contract) := gets (fun s => contracts (s_rent s) !! id).
(** [Contracts::insert] (rent/src/lib.rs:121-130) *)
Definition set_contract (id : N) (c : contract) : M unit := mod_rent (fun r => r <| contracts ::= <[id := c]> |>).
(** [Contracts::remove] (rent/src/lib.rs:121-130) *)
Definition del_contract (id : N) : M unit := mod_rent (fun r => r <| contracts ::= delete id |>).
(** [Offers::remove] (rent/src/lib.rs:138-146) *)
Definition del_offers (id : N) : M unit := mod_rent (fun r => r <| offers ::= delete id |>).

(** ** rent/src/types.rs *)

(** models rent/src/types.rs:42-54 ([to_duration]) *)
Definition to_duration (d : duration_input) : duration :=
  match d with
  | FixedIn n => Fixed n
  | SubscriptionIn p m ch => Subscription (mkSub p (default duration_limit m) ch false)
  end.

(** models rent/src/types.rs:98-103 ([get_full_duration]) *)
Definition full_duration (d : duration) : N :=
  match d with Fixed n => n | Subscription s => max_duration s end.

(** models rent/src/types.rs:105-110 ([get_duration_or_period]) *)
Definition duration_or_period (d : duration) : N :=
  match d with Fixed n => n | Subscription s => period_length s end.

(** models rent/src/types.rs:112-117 ([queue_kind]) *)
Definition kind_of (d : duration) : queue_kind :=
  match d with Fixed _ => QFixed | Subscription _ => QSub end.

(** models rent/src/types.rs:119-124 ([terms_changed]) *)
Definition terms_changed (d : duration) : bool :=
  match d with Fixed _ => false | Subscription s => new_terms s end.

(** models rent/src/types.rs:126-131 ([set_terms_changed]) *)
Definition set_terms_changed (b : bool) (d : duration) : duration :=
  match d with Fixed n => Fixed n | Subscription s => Subscription (s <| new_terms := b |>) end.

(** models rent/src/types.rs:141-149 ([get_allow_list]) *)
Definition allow_list (a : acceptance) : option (list N) :=
  match a with AutoAcceptance l => l | ManualAcceptance l => l end.

(** models rent/src/types.rs:305-310 ([is_manual_acceptance]) *)
Definition is_manual (a : acceptance) : bool :=
  match a with AutoAcceptance _ => false | ManualAcceptance _ => true end.

(** models rent/src/types.rs:160-178 ([RentFee::get_balance], [get_nft]) *)
Definition rf_tokens (f : rent_fee) : option N := match f with RentTokens x => Some x | RentNFT _ => None end.
(** models rent/src/types.rs:171-176 ([RentFee::get_nft]) *)
Definition rf_nft (f : rent_fee) : option N := match f with RentTokens _ => None | RentNFT i => Some i end.

(** models rent/src/types.rs:191-219 ([CancellationFee::get_balance], [as_flexible],
    [get_nft]) *)
Definition cf_tokens (f : cancel_fee) : option N :=
  match f with FixedTokens x => Some x | FlexibleTokens x => Some x | _ => None end.
(** models [get_balance().unwrap_or_default()] (rent/src/types.rs:195-200) *)
Definition cf_amount (f : cancel_fee) : N := default 0 (cf_tokens f).
(** models rent/src/types.rs:209-214 ([as_flexible]) *)
Definition cf_flexible (f : cancel_fee) : option N := match f with FlexibleTokens x => Some x | _ => None end.
(** models rent/src/types.rs:202-207 ([CancellationFee::get_nft]) *)
Definition cf_nft (f : cancel_fee) : option N := match f with FeeNFT i => Some i | _ => None end.

(** models rent/src/types.rs:72-78 ([allows_rent_fee]) *)
Definition allows_rent_fee (d : duration) (f : rent_fee) : bool :=
  match d, f with Subscription _, RentNFT _ => false | _, _ => true end.

(** models rent/src/types.rs:80-89 ([allows_cancellation]) *)
Definition allows_cancellation (d : duration) (f : cancel_fee) : bool :=
  match d, f with Subscription _, FlexibleTokens _ => false | _, _ => true end.

(** models rent/src/types.rs:285-298 ([has_ended]) *)
Definition has_ended (c : contract) (now : N) : bool :=
  match r_start c with
  | None => false
  | Some st => if now <? st then false else full_duration (r_duration c) <=? now - st
  end.

(** models rent/src/types.rs:300-303 ([can_adjust_subscription]) *)
Definition can_adjust (d : duration) : bool :=
  match d with Fixed _ => false | Subscription s => is_changeable s end.

(** models rent/src/types.rs:312-321 ([percentage_of_completion]): u32 arithmetic; [None] is
    the panic of [expect] or of the division by zero. *)
Definition percentage_of_completion (c : contract) (now : N) : option N :=
  match r_start c with
  | None => None
  | Some st =>
      let now' := N.min now u32_max in
      let st' := N.min st u32_max in
      let full := N.min (full_duration (r_duration c)) u32_max in
      let elapsed := if now' <? st' then now' + (u32_max + 1) - st' else now' - st' in
      if full =? 0 then None
      else Some (permill_from_percent (N.min (elapsed * 100) u32_max / full))
  end.

(** ** Queues (rent/src/types.rs:425-505) *)

Definition queues_size (q : rent_queues) : N := nlen (q_fixed q) + nlen (q_sub q) + nlen (q_avail q).

(** models rent/src/types.rs:453-455 ([can_be_increased]) *)
Definition queues_can_grow (q : rent_queues) : bool := queues_size q + 1 <=? rent_limit.

(** models rent/src/types.rs:458-469 ([insert]) *)
Definition queues_insert (id b : N) (k : queue_kind) (q : rent_queues) : option rent_queues :=
  match k with
  | QFixed => (fun l => q <| q_fixed := l |>) <$> q_insert rent_limit id b (q_fixed q)
  | QSub => (fun l => q <| q_sub := l |>) <$> q_insert rent_limit id b (q_sub q)
  | QAvail => (fun l => q <| q_avail := l |>) <$> q_insert rent_limit id b (q_avail q)
  end.

(** models rent/src/types.rs:472-478 ([remove]) *)
Definition queues_remove (id : N) (k : queue_kind) (q : rent_queues) : rent_queues :=
  match k with
  | QFixed => q <| q_fixed ::= q_del id |>
  | QSub => q <| q_sub ::= q_del id |>
  | QAvail => q <| q_avail ::= q_del id |>
  end.

(** ** Helpers (rent/src/lib.rs:912-1087) *)

(** models [not_in_state(&Self::invalid_state())] (rent/src/lib.rs:1084-1086,
    primitives/src/nfts.rs:168-187) *)
Definition rentable_state (st : nft_state) : bool :=
  negb (is_listed st) && negb (is_delegated st) && negb (is_soulbound st) &&
  negb (is_syncing_secret st) && negb (is_rented st) && negb (is_syncing_capsule st) &&
  negb (is_transmission st).

(** models rent/src/lib.rs:919-925 ([change_nft_ownership]) *)
Definition change_nft_ownership (id new_owner : N) : M unit :=
  let! o := get_nft id in
  let! d := unwrap o (rerr R_NFTNotFound) in
  set_nft id (d <| owner := new_owner |>).

(** models rent/src/lib.rs:927-940 ([return_flexible_fee]) *)
Definition return_flexible_fee (offender damaged percent full : N) : M unit :=
  let to_offender := permill_mul percent full in
  let to_damaged := full - to_offender in
  transfer rent_pot offender to_offender false ;;;
  transfer rent_pot damaged to_damaged false.

(** models rent/src/lib.rs:942-954 ([return_cancellation_fee]) *)
Definition return_cancellation_fee (f : cancel_fee) (dst : N) : M unit :=
  transfer rent_pot dst (cf_amount f) false ;;;
  on_some (cf_nft f) (fun i => change_nft_ownership i dst).

(** models rent/src/lib.rs:956-980 ([handle_subscription_contract]) *)
Definition handle_subscription (id now : N) : M (option N) :=
  let! oc := get_contract id in
  match oc with
  | None => ret None
  | Some c =>
      match r_rentee c, rf_tokens (r_rent_fee c) with
      | Some rentee, Some fee =>
          if terms_changed (r_duration c) || has_ended c now then ret None
          else
            let! r := catch (transfer rentee (r_renter c) fee true) in
            match r with
            | Ok _ => ret (Some (now + duration_or_period (r_duration c)))
            | Err _ => ret None
            end
      | _, _ => ret None
      end
  end.

(** models rent/src/lib.rs:982-1018 ([handle_finished_or_unused_contract]); the write of
    the outer [mutate_nft] closure (value read at its start) comes last. *)
Definition handle_finished (id : N) : M unit :=
  let! oc := get_contract id in
  let! c := unwrap oc (rerr R_ContractNotFound) in
  let! o := get_nft id in
  let! d := unwrap o (rerr R_NFTNotFound) in
  transfer rent_pot (r_renter c) (cf_amount (r_renter_cf c)) false ;;;
  on_some (r_rentee c) (fun rentee => transfer rent_pot rentee (cf_amount (r_rentee_cf c)) false) ;;;
  on_some (cf_nft (r_renter_cf c)) (fun i => change_nft_ownership i (r_renter c)) ;;;
  on_some (r_rentee c) (fun rentee =>
    on_some (cf_nft (r_rentee_cf c)) (fun i => change_nft_ownership i rentee)) ;;;
  set_nft id (put_rented false d) ;;;
  del_contract id.

(** One NFT check of [take_rent_and_cancellation_fee] (rent/src/lib.rs:1054-1069) and
    [make_rent_offer] (rent/src/lib.rs:691-708). *)
Definition check_fee_nft (who : N) (oi : option N) (e1 e2 e3 : error) : M unit :=
  on_some oi (fun i =>
    let! o := get_nft i in
    let! d := unwrap o e1 in
    ensure (owner d =? who) e2 ;;;
    ensure (rentable_state (nstate d)) e3).

(** models rent/src/lib.rs:1031-1082 ([take_rent_and_cancellation_fee]) *)
Definition take_rent_and_cancellation_fee (rentee : N) (c : contract) : M unit :=
  map_err (rerr R_NotEnoughFundsForRentFee)
    (transfer rentee (r_renter c) (default 0 (rf_tokens (r_rent_fee c))) true) ;;;
  map_err (rerr R_NotEnoughFundsForCancellationFee)
    (transfer rentee rent_pot (cf_amount (r_rentee_cf c)) true) ;;;
  check_fee_nft rentee (rf_nft (r_rent_fee c)) (rerr R_RentNFTNotFound)
    (rerr R_RenteeDoesNotOwnTheRentNFT) (rerr R_RentNFTNotInValidState) ;;;
  check_fee_nft rentee (cf_nft (r_rentee_cf c)) (rerr R_CancellationNFTNotFound)
    (rerr R_RenteeDoesNotOwnTheCancellationNFT) (rerr R_CancellationNFTNotInValidState) ;;;
  on_some (rf_nft (r_rent_fee c)) (fun i =>
    map_err (rerr R_RentNFTNotFound) (change_nft_ownership i (r_renter c))) ;;;
  on_some (cf_nft (r_rentee_cf c)) (fun i =>
    map_err (rerr R_RentNFTNotFound) (change_nft_ownership i rent_pot)).

(** models rent/src/lib.rs:607-627 and 749-764: the storage part shared by [rent] and
    [accept_rent_offer] after the fees are taken. *)
Definition start_contract (id rentee : N) (c : contract) : M unit :=
  let! now := gets s_now in
  let! q := gets (fun s => queues (s_rent s)) in
  let! q' := unwrap (queues_insert id (now + duration_or_period (r_duration c)) (kind_of (r_duration c))
                       (queues_remove id QAvail q)) (rerr R_MaxSimultaneousContractReached) in
  mod_rent (fun r => r <| queues := q' |>) ;;;
  del_offers id ;;;
  set_contract id (c <| r_rentee := Some rentee |> <| r_start := Some now |>).

(** ** Extrinsics *)

(** models rent/src/lib.rs:355-479 ([create_contract]) *)
Definition create_contract (who id : N) (di : duration_input) (acc : acceptance)
    (can_revoke : bool) (fee : rent_fee) (renter_cf rentee_cf : cancel_fee) : M unit :=
  let! q := gets (fun s => queues (s_rent s)) in
  ensure (queues_can_grow q) (rerr R_MaxSimultaneousContractReached) ;;;
  let! o := get_nft id in
  let! d := unwrap o (rerr R_NFTNotFound) in
  ensure (owner d =? who) (rerr R_NotTheNFTOwner) ;;;
  ensure (rentable_state (nstate d)) (rerr R_ContractNFTNotInAValidState) ;;;
  let du := to_duration di in
  ensure (full_duration du <=? duration_limit) (rerr R_DurationExceedsMaximumLimit) ;;;
  ensure (0 <? full_duration du) (rerr R_DurationInvalid) ;;;
  ensure (duration_or_period du <=? duration_limit) (rerr R_DurationExceedsMaximumLimit) ;;;
  ensure (0 <? duration_or_period du) (rerr R_DurationInvalid) ;;;
  ensure (allows_rent_fee du fee) (rerr R_DurationAndRentFeeMismatch) ;;;
  ensure (allows_cancellation du renter_cf) (rerr R_DurationAndCancellationFeeMismatch) ;;;
  ensure (allows_cancellation du rentee_cf) (rerr R_DurationAndCancellationFeeMismatch) ;;;
  on_some (rf_nft fee) (fun i => let! o := get_nft i in let! _ := unwrap o (rerr R_RentNFTNotFound) in ret tt) ;;;
  on_some (cf_nft rentee_cf) (fun i => let! o := get_nft i in let! _ := unwrap o (rerr R_CancellationNFTNotFound) in ret tt) ;;;
  ensure ((cf_amount renter_cf =? 0) || (rent_ed <? cf_amount renter_cf)) (rerr R_AmountTooLow) ;;;
  ensure ((cf_amount rentee_cf =? 0) || (rent_ed <? cf_amount rentee_cf)) (rerr R_AmountTooLow) ;;;
  map_err (rerr R_NotEnoughFundsForCancellationFee) (transfer who rent_pot (cf_amount renter_cf) true) ;;;
  on_some (cf_nft renter_cf) (fun i =>
    let! o := get_nft i in
    let! x := unwrap o (rerr R_CancellationNFTNotFound) in
    ensure (owner x =? who) (rerr R_CallerDoesNotOwnCancellationNFT) ;;;
    ensure (rentable_state (nstate x)) (rerr R_CancellationNFTNotInValidState) ;;;
    set_nft i (x <| owner := rent_pot |>)) ;;;
  let! now := gets s_now in
  let! q' := unwrap (queues_insert id (now + availability_limit) QAvail q) (rerr R_MaxSimultaneousContractReached) in
  mod_rent (fun r => r <| queues := q' |>) ;;;
  set_contract id (mkContract None who None du acc can_revoke fee renter_cf rentee_cf now) ;;;
  set_nft id (put_rented true d) ;;;
  emit (Ev_ContractCreated id who du acc can_revoke fee renter_cf rentee_cf).

(** models rent/src/lib.rs:484-509 ([cancel_contract]) *)
Definition cancel_contract (who id : N) : M unit :=
  let! oc := get_contract id in
  let! c := unwrap oc (rerr R_ContractNotFound) in
  ensure (r_renter c =? who) (rerr R_NotTheContractOwner) ;;;
  ensure (match r_rentee c with None => true | Some _ => false end) (rerr R_CannotCancelRunningContract) ;;;
  mod_rent (fun r => r <| queues ::= queues_remove id QAvail |>) ;;;
  del_offers id ;;;
  handle_finished id ;;;
  emit (Ev_ContractCanceled id).

(** models rent/src/lib.rs:514-569 ([revoke_contract]) *)
Definition revoke_contract (who id : N) : M unit :=
  let! now := gets s_now in
  let! oc := get_contract id in
  let! c := unwrap oc (rerr R_ContractNotFound) in
  let! rentee := unwrap (r_rentee c) (rerr R_CannotRevokeNonRunningContract) in
  let is_renter := r_renter c =? who in
  let is_rentee := rentee =? who in
  ensure (is_renter || is_rentee) (rerr R_NotAContractParticipant) ;;;
  when is_renter (ensure (r_can_revoke c) (rerr R_ContractCannotBeCanceledByRenter)) ;;;
  let damaged := if is_renter then rentee else r_renter c in
  let deposited := if is_renter then r_rentee_cf c else r_renter_cf c in
  let price := if is_renter then r_renter_cf c else r_rentee_cf c in
  return_cancellation_fee deposited damaged ;;;
  match cf_flexible price with
  | Some full =>
      let! percent := unwrap (percentage_of_completion c now) Panic in
      return_flexible_fee who damaged percent full
  | None => return_cancellation_fee price damaged
  end ;;;
  mod_rent (fun r => r <| queues ::= queues_remove id (kind_of (r_duration c)) |>) ;;;
  del_contract id ;;;
  let! o := get_nft id in
  let! d := unwrap o (rerr R_NFTNotFound) in
  set_nft id (put_rented false d) ;;;
  emit (Ev_ContractRevoked id who).

(** models rent/src/lib.rs:597-599 and 670-672 (the allow list) *)
Definition whitelisted (a : acceptance) (who : N) : bool :=
  match allow_list a with None => true | Some l => memN who l end.

(** models rent/src/lib.rs:574-632 ([rent]) *)
Definition rent (who id creation_block : N) : M unit :=
  let! oc := get_contract id in
  let! c := unwrap oc (rerr R_ContractNotFound) in
  ensure (r_creation c =? creation_block) (rerr R_ContractDoesNotMatch) ;;;
  ensure (match r_rentee c with None => true | Some _ => false end) (rerr R_CannotRentStartedContract) ;;;
  ensure (negb (r_renter c =? who)) (rerr R_CannotRentOwnContract) ;;;
  ensure (negb (is_manual (r_acceptance c))) (rerr R_ContractDoesNotSupportAutomaticRent) ;;;
  ensure (whitelisted (r_acceptance c) who) (rerr R_NotWhitelisted) ;;;
  take_rent_and_cancellation_fee who c ;;;
  start_contract id who c ;;;
  emit (Ev_ContractStarted id who).

(** models rent/src/lib.rs:637-719 ([make_rent_offer]) *)
Definition make_rent_offer (who id creation_block : N) : M unit :=
  let! oo := gets (fun s => offers (s_rent s) !! id) in
  let l := default [] oo in
  ensure (negb (memN who l)) (rerr R_OfferAlreadyExists) ;;;
  let! oc := get_contract id in
  let! c := unwrap oc (rerr R_ContractNotFound) in
  ensure (r_creation c =? creation_block) (rerr R_ContractDoesNotMatch) ;;;
  ensure (match r_start c with None => true | Some _ => false end) (rerr R_CannotMakeOfferOnRunningContract) ;;;
  ensure (negb (r_renter c =? who)) (rerr R_CannotRentOwnContract) ;;;
  ensure (is_manual (r_acceptance c)) (rerr R_ContractDoesNotSupportOffers) ;;;
  ensure (whitelisted (r_acceptance c) who) (rerr R_NotWhitelisted) ;;;
  let rb := default 0 (rf_tokens (r_rent_fee c)) in
  let cb := cf_amount (r_rentee_cf c) in
  let! b := gets s_bal in
  ensure (balance_check b who rb) (rerr R_NotEnoughFundsForRentFee) ;;;
  ensure (balance_check b who cb) (rerr R_NotEnoughFundsForCancellationFee) ;;;
  ensure (balance_check b who (wadd rb cb)) (rerr R_NotEnoughFundsForFees) ;;;
  check_fee_nft who (rf_nft (r_rent_fee c)) (rerr R_RentNFTNotFound)
    (rerr R_CallerDoesNotOwnRentNFT) (rerr R_RentNFTNotInValidState) ;;;
  check_fee_nft who (cf_nft (r_rentee_cf c)) (rerr R_CancellationNFTNotFound)
    (rerr R_CallerDoesNotOwnCancellationNFT) (rerr R_CancellationNFTNotInValidState) ;;;
  ensure (nlen l <? rent_accounts_limit) (rerr R_MaximumOffersReached) ;;;
  mod_rent (fun r => r <| offers ::= <[id := l ++ [who]]> |>) ;;;
  emit (Ev_ContractOfferCreated id who).

(** models rent/src/lib.rs:724-772 ([accept_rent_offer]) *)
Definition accept_rent_offer (who id rentee : N) : M unit :=
  let! oc := get_contract id in
  let! c := unwrap oc (rerr R_ContractNotFound) in
  let! oo := gets (fun s => offers (s_rent s) !! id) in
  let! l := unwrap oo (rerr R_NoOffersForThisContract) in
  ensure (r_renter c =? who) (rerr R_NotTheContractOwner) ;;;
  ensure (memN rentee l) (rerr R_NoOfferFromThisAddress) ;;;
  take_rent_and_cancellation_fee rentee c ;;;
  start_contract id rentee c ;;;
  emit (Ev_ContractStarted id rentee).

(** models rent/src/lib.rs:777-800 ([retract_rent_offer]) *)
Definition retract_rent_offer (who id : N) : M unit :=
  let! oo := gets (fun s => offers (s_rent s) !! id) in
  let! l := unwrap oo (rerr R_NoOffersForThisContract) in
  let! i := unwrap (position (N.eqb who) l) (rerr R_NoOfferFromThisAddress) in
  mod_rent (fun r => r <| offers ::= <[id := delete i l]> |>) ;;;
  emit (Ev_ContractOfferRetracted id who).

(** models rent/src/lib.rs:805-861 ([change_subscription_terms]) *)
Definition change_subscription_terms (who id fee period : N) (max_dur : option N) (changeable : bool) : M unit :=
  let md := default duration_limit max_dur in
  let! oc := get_contract id in
  let! c := unwrap oc (rerr R_ContractNotFound) in
  let active := match r_rentee c with None => false | Some _ => true end in
  ensure (who =? r_renter c) (rerr R_NotTheContractOwner) ;;;
  ensure (can_adjust (r_duration c)) (rerr R_CannotAdjustSubscriptionTerms) ;;;
  ensure (md <=? duration_limit) (rerr R_DurationExceedsMaximumLimit) ;;;
  ensure (period <=? duration_limit) (rerr R_DurationExceedsMaximumLimit) ;;;
  ensure (0 <? md) (rerr R_DurationInvalid) ;;;
  ensure (0 <? period) (rerr R_DurationInvalid) ;;;
  when (negb active) (del_offers id) ;;;
  set_contract id (c <| r_duration := set_terms_changed true (Subscription (mkSub period md changeable active)) |>
                     <| r_rent_fee := RentTokens fee |>) ;;;
  emit (Ev_ContractSubscriptionTermsChanged id period md changeable fee).

(** models rent/src/lib.rs:866-909 ([accept_subscription_terms]) *)
Definition accept_subscription_terms (who id fee period : N) (max_dur : option N) (changeable : bool) : M unit :=
  let! oc := get_contract id in
  let! c := unwrap oc (rerr R_ContractNotFound) in
  let! sub := unwrap (match r_duration c with Subscription x => Some x | Fixed _ => None end)
                (rerr R_SubscriptionDataNotFound) in
  ensure (match r_rentee c with Some r => who =? r | None => false end) (rerr R_NotTheContractRentee) ;;;
  ensure (terms_changed (r_duration c)) (rerr R_ContractTermsAlreadyAccepted) ;;;
  ensure (match r_rent_fee c with RentTokens x => x =? fee | RentNFT _ => false end &&
          (period_length sub =? period) &&
          match max_dur with None => true | Some m => max_duration sub =? m end &&
          Bool.eqb (is_changeable sub) changeable) (rerr R_ContractTermsDoNotMatch) ;;;
  set_contract id (c <| r_duration ::= set_terms_changed false |>) ;;;
  emit (Ev_ContractSubscriptionTermsAccepted id).

(** ** on_initialize (rent/src/lib.rs:284-347)

    The three loops share the action counter, and each checks it only after an action. *)

(** models the fixed loop, rent/src/lib.rs:292-304, and the available loop,
    rent/src/lib.rs:326-338 (same code up to the event); fuel is the queue length. *)
Fixpoint finish_loop (ev : N -> event) (fuel : nat) (now : N) (q : list (N * N)) (acts : N)
  : M (list (N * N) * N) :=
  match fuel with
  | O => ret (q, acts)
  | S f =>
      match q_pop now q with
      | None => ret (q, acts)
      | Some (id, q') =>
          attempt (handle_finished id) ;;;
          emit (ev id) ;;;
          if rent_actions <=? acts + 1 then ret (q', acts + 1)
          else finish_loop ev f now q' (acts + 1)
      end
  end.

(** models the subscription loop, rent/src/lib.rs:307-323; it does at most
    [max 1 rent_actions] iterations, which is the fuel. *)
Fixpoint subscription_loop (fuel : nat) (now : N) (q : list (N * N)) (acts : N)
  : M (list (N * N) * N) :=
  match fuel with
  | O => ret (q, acts)
  | S f =>
      match q_pop now q with
      | None => ret (q, acts)
      | Some (id, q') =>
          let! r := handle_subscription id now in
          let! q'' :=
            match r with
            | Some b =>
                emit (Ev_ContractSubscriptionPeriodStarted id) ;;;
                ret (default q' (q_insert rent_limit id b q'))
            | None =>
                attempt (handle_finished id) ;;;
                emit (Ev_ContractEnded id None) ;;;
                ret q'
            end in
          if rent_actions <=? acts + 1 then ret (q'', acts + 1)
          else subscription_loop f now q'' (acts + 1)
      end
  end.

(** models rent/src/lib.rs:284-347 ([on_initialize]) *)
Definition rent_on_initialize : M unit :=
  let! now := gets s_now in
  let! q := gets (fun s => queues (s_rent s)) in
  let! r1 := finish_loop (fun id => Ev_ContractEnded id None) (length (q_fixed q)) now (q_fixed q) 0 in
  let! r2 := subscription_loop (S (N.to_nat rent_actions)) now (q_sub q) (snd r1) in
  let! r3 := finish_loop Ev_ContractExpired (length (q_avail q)) now (q_avail q) (snd r2) in
  when (0 <? snd r3) (mod_rent (fun r => r <| queues := mkQueues (fst r1) (fst r2) (fst r3) |>)).

End rent.
