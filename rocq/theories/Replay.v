(** The project's own unit tests, run against the model (files Replay*.v).

    These are tests, not proofs: they compare the model with what the authors of /repo assert about the code.
    Each example is named after the Rust test it follows. *)
From Verif Require Export Runtime.
Local Open Scope N_scope.

Section replay.
Context {C : Config}.

(** A test is what is asserted of a run from a state. *)
Definition test := state -> Prop.
(** [assert_ok!(call)] *)
Definition ok (o : origin) (c : call) (k : test) : test := fun s =>
  let r := dispatch o c s in fst r = Ok tt /\ k (snd r).
(** [assert_noop!(call, error)]: the state is compared by the model itself ([transactional]). *)
Definition no (o : origin) (c : call) (e : error) (k : test) : test := fun s =>
  fst (dispatch o c s) = Err e /\ k s.
(** A call whose result the test does not look at. *)
Definition any (o : origin) (c : call) (k : test) : test := fun s => k (snd (dispatch o c s)).
(** A direct write to the storage. *)
Definition upd (f : state -> state) (k : test) : test := fun s => k (f s).
(** [run_to_block(n)] of the mocks. *)
Definition blk (n : N) (k : test) : test := fun s => k (N.iter (n - s_now s) next_block s).
(** [assert_eq!], [assert!] *)
Definition chk (P : state -> Prop) (k : test) : test := fun s => P s /\ k s.
(** Values read before the execution. *)
Definition now_ (k : state -> test) : test := fun s => k s s.
Definition fin : test := fun _ => True.

(** [Balances::free_balance] *)
Definition bal (w : N) (s : state) : N := default 0 (free_m (s_bal s) !! w).
(** [iter().count()] *)
Definition cnt {A} (m : gmap N A) : N := N.of_nat (size m).
(** [System::assert_last_event] *)
Definition last_ (e : event) : test -> test := chk (fun s => head (s_events s) = Some e).
(** The same for an earlier event. *)
Definition nth_ (n : nat) (e : event) : test -> test := chk (fun s => s_events s !! n = Some e).
(** [System::assert_has_event] *)
Definition has_ (e : event) : test -> test := chk (fun s => In e (s_events s)).
(** [Balances::set_balance(root, w, a, 0)] *)
Definition set_bal (w a : N) : test -> test := upd (fun s => s <| s_bal ::= fun b =>
  b <| free_m := if a =? 0 then delete w (free_m b) else <[w := a]> (free_m b) |>
    <| issuance := issuance b - default 0 (free_m b !! w) + a |> |>).
(** Stand-ins for the result of [unwrap] on a missing entry; the tests check that it is there. *)
Definition dnft : nft_data := mkNft 0 0 [] None 0 (mkNftState false false false false false false false false false).
Definition dcoll : collection := mkColl 0 [] [] None false.
Definition dcontract : contract := mkContract None 0 None (Fixed 0) (AutoAcceptance None) false (RentTokens 0) NoFee NoFee 0.
(** [NFT::set_nft] *)
Definition edit (i : N) (f : nft_data -> nft_data) : test -> test :=
  upd (fun s => s <| s_nft ::= fun n => n <| nfts ::= alter f i |> |>).
(** [nft.state.… = …; NFT::set_nft] *)
Definition flag (i : N) (f : nft_state -> nft_state) : test -> test := edit i (fun d => d <| nstate ::= f |>).
(** [NFT::get_nft] *)
Definition nft (i : N) (s : state) : option nft_data := nfts (s_nft s) !! i.
End replay.

Notation "a >> b" := (a b) (at level 95, right associativity, only parsing).
Notation sg := Signed (only parsing).
Notation ALICE := 1.
Notation BOB := 2.
Notation CHARLIE := 3.
Notation DAVE := 4.
Notation EVE := 5.

Ltac replay := vm_compute; repeat split; repeat first [left; reflexivity | right].
