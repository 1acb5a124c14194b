(** Runtime parameters, chain state and the execution monad of the model. *)
From Verif Require Export Types.
Local Open Scope N_scope.

(** * Integer ranges *)

Definition u8_max : N := 255.
(** No counterpart in /repo: the range of Rust's u32. *)
Definition u32_max : N := 4294967295.
(** No counterpart in /repo: the range of Rust's u64. *)
Definition u64_max : N := 18446744073709551615.
(** No counterpart in /repo: the range of Rust's u128. *)
Definition u128_max : N := 340282366920938463463374607431768211455.

(** Rust [a + b] on u128 in a release build: wraps modulo 2^128. *)
Definition wadd (a b : N) : N := (a + b) mod (u128_max + 1).

(** Rust [a.saturating_add(b)] on u128. *)
Definition sadd (a b : N) : N := N.min (a + b) u128_max.

(** * Parameters of the runtime

    models the [#[pallet::constant]]s and associated types of every pallet's [Config]:
    nft/src/lib.rs:71-115, marketplace/src/lib.rs:71-103, auction/src/lib.rs:63-119,
    rent/src/lib.rs:77-118, transmission-protocols/src/lib.rs:62-110,
    tee/src/lib.rs:74-113, bridge/src/lib.rs:70-112, staking-rewards/src/lib.rs:63-79.
    Simplified: all pallets share one [FeesCollector]; [None] is the collector [()] that
    drops (burns) the imbalance, [Some a] resolves it into account [a] as the mocks do
    (nft/src/tests/mock.rs:296-301). *)
Inductive hook := HookAuction | HookRent | HookTrans | HookTee.

(** The parameters, see the list of references above. *)
Class Config := {
  (* pallet-balances *)
  ed : N;                       (* ExistentialDeposit of pallet-balances *)
  fees_collector : option N;
  zero_lock_clears : bool;      (* see [set_lock_b] in Balances.v *)
  (* nft *)
  nft_data_limit : N;
  coll_data_limit : N;
  coll_size_limit : N;
  shards_number : N;
  init_mint_fee : N;
  init_secret_fee : N;
  init_capsule_fee : N;
  (* marketplace *)
  init_mkt_fee : N;
  mkt_accounts_limit : N;
  mkt_data_limit : N;
  mkt_colls_limit : N;
  (* auction *)
  auction_ed : N;
  min_auction_duration : N;
  max_auction_duration : N;
  max_auction_delay : N;
  grace_period : N;
  ending_period : N;
  bidder_limit : N;
  parallel_auctions : N;
  auction_actions : N;
  auction_pot : N;
  (* rent *)
  rent_ed : N;
  rent_accounts_limit : N;
  rent_limit : N;
  rent_actions : N;
  availability_limit : N;
  duration_limit : N;
  rent_pot : N;
  (* transmission protocols *)
  init_at_block_fee : N;
  init_at_block_reset_fee : N;
  init_on_consent_fee : N;
  init_on_consent_at_block_fee : N;
  max_block_duration : N;
  consent_limit : N;
  trans_limit : N;
  trans_actions : N;
  (* tee *)
  cluster_size : N;
  uri_limit : N;
  list_limit : N;
  init_staking_amount : N;
  bonding_duration : N;
  tee_pot : N;
  init_reward_pool : N;
  history_depth : N;
  (* bridge *)
  own_chain : N;
  proposal_lifetime : N;
  init_vote_threshold : N;
  relayer_limit : N;
  init_bridge_fee : N;
  (* staking rewards *)
  staking_pot : N;
  (* ExternalOrigin of bridge / staking-rewards / mandate *)
  external_ok : origin -> bool;
  (* order in which FRAME runs the on_initialize hooks of the four pallets that have one
     (construct_runtime! order; not part of /repo) *)
  hook_order : list hook
}.

(** * Chain state *)

(** pallet-balances as the pallets use it (see Balances.v): free balances, the balance
    lock held by the tee pallet ([TEE_STAKING_ID], tee/src/lib.rs:48), one lock held by
    anything outside these pallets, and the total issuance. *)
Record balances := mkBal {
  free_m : gmap N N;
  tee_lock : gmap N N;
  other_lock : gmap N N;
  issuance : N
}.
Global Instance eta_balances : Settable _ := settable! mkBal
  <free_m; tee_lock; other_lock; issuance>.

(** models the storage of nft/src/lib.rs:117-207 *)
Record nft_st := mkNftSt {
  nfts : gmap N nft_data;
  colls : gmap N collection;
  delegated : gmap N N;
  secret_data : gmap N bytes;
  secret_shards : gmap N (list (N * N));
  capsule_data : gmap N bytes;
  capsule_shards : gmap N (list (N * N));
  next_nft : N;
  next_coll : N;
  mint_fee : N;
  secret_fee : N;
  capsule_fee : N
}.
Global Instance eta_nft_st : Settable _ := settable! mkNftSt
  <nfts; colls; delegated; secret_data; secret_shards; capsule_data; capsule_shards;
   next_nft; next_coll; mint_fee; secret_fee; capsule_fee>.

(** models the storage of marketplace/src/lib.rs:105-138 *)
Record mkt_st := mkMktSt {
  mkts : gmap N marketplace;
  sales : gmap N sale;
  next_mkt : N;
  mkt_fee : N
}.
Global Instance eta_mkt_st : Settable _ := settable! mkMktSt <mkts; sales; next_mkt; mkt_fee>.

(** models the storage of auction/src/lib.rs:186-220 *)
Record auc_st := mkAucSt {
  auctions : gmap N auction;
  commissions : gmap N (option compound_fee);
  deadlines : list (N * N);
  claims : gmap N N
}.
Global Instance eta_auc_st : Settable _ := settable! mkAucSt
  <auctions; commissions; deadlines; claims>.

(** models the storage of rent/src/lib.rs:120-146 *)
Record rent_st := mkRentSt {
  contracts : gmap N contract;
  offers : gmap N (list N);
  queues : rent_queues
}.
Global Instance eta_rent_st : Settable _ := settable! mkRentSt <contracts; offers; queues>.

(** models the storage of transmission-protocols/src/lib.rs:112-165 *)
Record trans_st := mkTransSt {
  transs : gmap N transmission;
  consents : gmap N (list N);
  t_queue : list (N * N);
  fee_at_block : N;
  fee_at_block_reset : N;
  fee_on_consent : N;
  fee_on_consent_at_block : N
}.
Global Instance eta_trans_st : Settable _ := settable! mkTransSt
  <transs; consents; t_queue; fee_at_block; fee_at_block_reset; fee_on_consent;
   fee_on_consent_at_block>.

(** models the storage of tee/src/lib.rs:120-256 *)
Record tee_st := mkTeeSt {
  regs : gmap N enclave;
  unregs : list N;
  updates : gmap N enclave;
  encs : gmap N enclave;
  addr_op : gmap N N;
  clusters : gmap N cluster;
  next_cluster : N;
  enc_cluster : gmap N N;
  servers : list (N * cluster_type);
  staking_amount : N;
  ledgers : gmap N ledger;
  reports : gmap (N * N) (list report);
  weights : weightage;
  reward_pool : N;
  claimed : gmap (N * N) N;
  assigned_era : gmap N N
}.
Global Instance eta_tee_st : Settable _ := settable! mkTeeSt
  <regs; unregs; updates; encs; addr_op; clusters; next_cluster; enc_cluster; servers;
   staking_amount; ledgers; reports; weights; reward_pool; claimed; assigned_era>.

(** models the storage of bridge/src/lib.rs:114-149 *)
Record brg_st := mkBrgSt {
  nonces : gmap N N;
  vote_threshold : N;
  relayers : list N;
  votes : gmap (N * (N * N * N)) proposal;
  bridge_fee : N
}.
Global Instance eta_brg_st : Settable _ := settable! mkBrgSt
  <nonces; vote_threshold; relayers; votes; bridge_fee>.

(** models the storage [Data] of staking-rewards/src/lib.rs:115-117 and [StakingRewardsData]
    (staking-rewards/src/lib.rs:40-44) *)
Record srw_st := mkSrwSt { session_era_payout : N; session_extra : N }.
Global Instance eta_srw_st : Settable _ := settable! mkSrwSt <session_era_payout; session_extra>.

(** No counterpart in /repo: the whole state: block number, active era (of pallet-staking), one component per
    pallet and the list of deposited events, newest first. *)
Record state := mkState {
  s_now : N;
  s_era : option N;
  s_bal : balances;
  s_nft : nft_st;
  s_mkt : mkt_st;
  s_auc : auc_st;
  s_rent : rent_st;
  s_trans : trans_st;
  s_tee : tee_st;
  s_brg : brg_st;
  s_srw : srw_st;
  s_events : list event
}.
Global Instance eta_state : Settable _ := settable! mkState
  <s_now; s_era; s_bal; s_nft; s_mkt; s_auc; s_rent; s_trans; s_tee; s_brg; s_srw; s_events>.

(** * Execution monad

    A computation returns [Ok] or an error together with the state reached; an error does
    not undo the writes done before it (that is [dispatch] in Runtime.v, for extrinsics
    only; [on_initialize] hooks are not transactional). *)
Inductive res (A : Type) := Ok (a : A) | Err (e : error).
Arguments Ok {A} a.
Arguments Err {A} e.

(** No counterpart in /repo: a computation of the model. *)
Definition M (A : Type) : Type := state -> res A * state.

(** No counterpart in /repo: Rust [Ok(a)]. *)
Definition ret {A} (a : A) : M A := fun s => (Ok a, s).
(** No counterpart in /repo: Rust [Err(e)]. *)
Definition fail {A} (e : error) : M A := fun s => (Err e, s).
(** No counterpart in /repo: Rust [m?; k]. *)
Definition bind {A B} (m : M A) (k : A -> M B) : M B := fun s =>
  match m s with
  | (Ok a, s1) => k a s1
  | (Err e, s1) => (Err e, s1)
  end.
(** No counterpart in /repo: a storage read ([get]). *)
Definition gets {A} (f : state -> A) : M A := fun s => (Ok (f s), s).
(** No counterpart in /repo: a storage write ([insert], [put], [remove], [mutate]). *)
Definition modify (f : state -> state) : M unit := fun s => (Ok tt, f s).
(** Rust [ensure!(b, e)] *)
Definition ensure (b : bool) (e : error) : M unit := fun s =>
  if b then (Ok tt, s) else (Err e, s).
(** Rust [o.ok_or(e)?] *)
Definition unwrap {A} (o : option A) (e : error) : M A := fun s =>
  match o with Some a => (Ok a, s) | None => (Err e, s) end.
(** Rust [match f() { Ok.. Err.. }] without [?]: the error becomes a value. *)
Definition catch {A} (m : M A) : M (res A) := fun s =>
  let (r, s1) := m s in (Ok r, s1).
(** Rust [_ = f();]: the error is ignored, the writes stay. *)
Definition attempt {A} (m : M A) : M unit := fun s => (Ok tt, snd (m s)).
(** Rust [f().map_err(|_| e)?] *)
Definition map_err {A} (e : error) (m : M A) : M A := fun s =>
  match m s with
  | (Ok a, s1) => (Ok a, s1)
  | (Err _, s1) => (Err e, s1)
  end.
(** [Self::deposit_event(ev)] *)
Definition emit (ev : event) : M unit := modify (fun s => s <| s_events ::= cons ev |>).

Notation "'let!' x := m 'in' k" := (bind m (fun x => k))
  (at level 200, x name, m at level 100, k at level 200, right associativity).
Notation "'let!' ' x := m 'in' k" := (bind m (fun x => k))
  (at level 200, x pattern, m at level 100, k at level 200, right associativity, only parsing).
Notation "m ;;; k" := (bind m (fun _ : unit => k))
  (at level 100, k at level 200, right associativity).

(** Run a computation only if a condition holds. *)
Definition when (b : bool) (m : M unit) : M unit := if b then m else ret tt.
(** Run a computation on the content of an option, if any (Rust [if let Some(x) = o]). *)
Definition on_some {A} (o : option A) (m : A -> M unit) : M unit :=
  match o with Some a => m a | None => ret tt end.
(** Rust [for x in l { f(x) }] *)
Fixpoint for_each {A} (l : list A) (m : A -> M unit) : M unit :=
  match l with [] => ret tt | x :: l' => m x ;;; for_each l' m end.

(** No counterpart in /repo: writes to the storage of one pallet, here pallet-balances. *)
Definition mod_bal f : M unit := modify (fun s => s <| s_bal ::= f |>).
(** A write to the storage of nft/src/lib.rs:117-207. *)
Definition mod_nft f : M unit := modify (fun s => s <| s_nft ::= f |>).
(** A write to the storage of marketplace/src/lib.rs:105-138. *)
Definition mod_mkt f : M unit := modify (fun s => s <| s_mkt ::= f |>).
(** A write to the storage of auction/src/lib.rs:186-220. *)
Definition mod_auc f : M unit := modify (fun s => s <| s_auc ::= f |>).
(** A write to the storage of rent/src/lib.rs:120-146. *)
Definition mod_rent f : M unit := modify (fun s => s <| s_rent ::= f |>).
(** A write to the storage of transmission-protocols/src/lib.rs:112-165. *)
Definition mod_trans f : M unit := modify (fun s => s <| s_trans ::= f |>).
(** A write to the storage of tee/src/lib.rs:116-244. *)
Definition mod_tee f : M unit := modify (fun s => s <| s_tee ::= f |>).
(** A write to the storage of bridge/src/lib.rs:114-149. *)
Definition mod_brg f : M unit := modify (fun s => s <| s_brg ::= f |>).
(** A write to the storage of staking-rewards/src/lib.rs:116-118. *)
Definition mod_srw f : M unit := modify (fun s => s <| s_srw ::= f |>).

(** Rust [f()?] for a pure function returning a [Result]. *)
Definition of_res {A} (r : res A) : M A := fun s => (r, s).

(** * List helpers *)

(** Rust [iter().position], used in tee/src/lib.rs:811, 836, 872, 892, 1172. *)
Fixpoint position {A} (p : A -> bool) (l : list A) : option nat :=
  match l with
  | [] => None
  | x :: l' => if p x then Some 0%nat else S <$> position p l'
  end.

(** Rust [Vec::swap_remove], used in tee/src/lib.rs:811-815, 836-838, 872-874, 892-894, 1172-1175. *)
Definition swap_remove {A} (i : nat) (l : list A) : list A :=
  match last l with
  | None => l
  | Some z => take (length l - 1) (<[i := z]> l)
  end.

(** * Sorted queues of (NFT id, block)

    models [DeadlineList] (auction/src/types.rs:244-306), [Queue] of
    rent/src/types.rs:335-405 and [Queue] of transmission-protocols/src/types.rs:189-279:
    three textual copies of the same code. *)

(** models [insert] without the bound: before the first entry with a larger block
    (auction/src/types.rs:254-262). *)
Fixpoint q_ins (x : N * N) (q : list (N * N)) : list (N * N) :=
  match q with
  | [] => [x]
  | y :: q' => if snd x <? snd y then x :: q else y :: q_ins x q'
  end.

(** models auction/src/types.rs:254-262, rent/src/types.rs:356-364,
    transmission-protocols/src/types.rs:218-226; [None] is [Err(())]. *)
Definition q_insert (limit : N) (id b : N) (q : list (N * N)) : option (list (N * N)) :=
  if nlen q <? limit then Some (q_ins (id, b) q) else None.

(** models [remove]: auction/src/types.rs:264-272, rent/src/types.rs:366-374,
    transmission-protocols/src/types.rs:229-237 (first entry with the id, if any). *)
Fixpoint q_del (id : N) (q : list (N * N)) : list (N * N) :=
  match q with
  | [] => []
  | y :: q' => if fst y =? id then q' else y :: q_del id q'
  end.

(** models [get]: rent/src/types.rs:343-350, transmission-protocols/src/types.rs:203-210. *)
Fixpoint q_get (id : N) (q : list (N * N)) : option N :=
  match q with
  | [] => None
  | y :: q' => if fst y =? id then Some (snd y) else q_get id q'
  end.

(** models [update]: auction/src/types.rs:274-282,
    transmission-protocols/src/types.rs:240-248; [insert] after a removal cannot meet the
    bound, so the [expect] is not modelled as a panic (the list just lost an element). *)
Definition q_update (id b : N) (q : list (N * N)) : list (N * N) :=
  match q_get id q with
  | Some _ => q_ins (id, b) (q_del id q)
  | None => q
  end.

(** models [pop_next]: auction/src/types.rs:293-302, rent/src/types.rs:395-404,
    transmission-protocols/src/types.rs:261-269: the popped id and the remaining queue. *)
Definition q_pop (now : N) (q : list (N * N)) : option (N * list (N * N)) :=
  match q with
  | [] => None
  | (id, b) :: q' => if b <=? now then Some (id, q') else None
  end.

(** * Fixed-point arithmetic of sp_arithmetic (not in /repo)

    [Permill]/[Perbill] times an integer: exact product divided by the accuracy, rounded
    to nearest with ties down. *)
Definition per_mul (acc p x : N) : N :=
  let q := x * p / acc in
  if acc / 2 <? (x * p) mod acc then q + 1 else q.
(** No counterpart in /repo: [Permill * x] of sp_arithmetic. *)
Definition permill_mul (p x : N) : N := per_mul 1000000 p x.
(** No counterpart in /repo: [Perbill * x] of sp_arithmetic. *)
Definition perbill_mul (p x : N) : N := per_mul 1000000000 p x.

(** [Perbill::from_rational(p, q)]: floor of p/q in parts per billion, capped at one, one
    when q is zero.  Exact for q up to 10^9 (Substrate loses precision above). *)
Definition perbill_from_rational (p q : N) : N :=
  if q =? 0 then 1000000000
  else if q <? p then 1000000000
  else p * 1000000000 / q.

(** [Permill::from_percent(x)], saturating at 100%. *)
Definition permill_from_percent (x : N) : N := N.min x 100 * 10000.
