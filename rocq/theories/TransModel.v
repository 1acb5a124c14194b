(** Model of pallet transmission-protocols (transmission-protocols/src/lib.rs, types.rs). *)
From Verif Require Export RentModel.
Local Open Scope N_scope.

Section trans.
Context {C : Config}.

(** models an error of transmission-protocols/src/lib.rs:247-302. *)
Definition terr (e : trans_error) : error := Trans_err e.

(** [Transmissions::get] (transmission-protocols/src/lib.rs:137-146) *)
Definition get_trans (id : N) : M (option transmission) := gets (fun s => transs (s_trans s) !! id).
(** [Transmissions::insert] (transmission-protocols/src/lib.rs:137-146) *)
Definition set_trans (id : N) (t : transmission) : M unit := mod_trans (fun x => x <| transs ::= <[id := t]> |>).
(** [Transmissions::remove] (transmission-protocols/src/lib.rs:137-146) *)
Definition del_trans (id : N) : M unit := mod_trans (fun x => x <| transs ::= delete id |>).
(** [OnConsentData::remove] (transmission-protocols/src/lib.rs:148-157) *)
Definition del_consents (id : N) : M unit := mod_trans (fun x => x <| consents ::= delete id |>).

(** models transmission-protocols/src/types.rs:47-56 ([to_kind]) *)
Definition kind_of_protocol (p : protocol) : proto_kind :=
  match p with
  | AtBlock _ => KAtBlock
  | AtBlockWithReset _ => KAtBlockWithReset
  | OnConsent _ _ => KOnConsent
  | OnConsentAtBlock _ _ _ => KOnConsentAtBlock
  end.

(** models transmission-protocols/src/types.rs:58-66 ([get_end_block]) *)
Definition end_block (p : protocol) : option N :=
  match p with
  | AtBlock b | AtBlockWithReset b | OnConsentAtBlock _ _ b => Some b
  | OnConsent _ _ => None
  end.

(** models transmission-protocols/src/types.rs:68-76 ([get_block_to_queue]) *)
Definition block_to_queue (p : protocol) : option N :=
  match p with
  | AtBlock b | AtBlockWithReset b => Some b
  | OnConsent _ _ | OnConsentAtBlock _ _ _ => None
  end.

(** models transmission-protocols/src/types.rs:78-86 ([can_reset_timer]) *)
Definition can_reset (p : protocol) : bool :=
  match p with AtBlockWithReset _ => true | _ => false end.

(** models transmission-protocols/src/types.rs:108-117 ([get_consent_data]); also
    [can_add_consent] (88-96), [get_consent_list] (98-106), [get_threshold] (119-127). *)
Definition consent_data (p : protocol) : option (list N * N) :=
  match p with
  | AtBlock _ | AtBlockWithReset _ => None
  | OnConsent l t | OnConsentAtBlock l t _ => Some (l, t)
  end.

(** models transmission-protocols/src/types.rs:142-148 ([is_cancellable]) *)
Definition is_cancellable (c : cancellation) (now : N) : bool :=
  match c with CancelNone => false | UntilBlock b => now <=? b | Anytime => true end.

(** models transmission-protocols/src/lib.rs:654-661 ([get_protocol_fee]) *)
Definition protocol_fee (t : trans_st) (k : proto_kind) : N :=
  match k with
  | KAtBlock => fee_at_block t
  | KAtBlockWithReset => fee_at_block_reset t
  | KOnConsent => fee_on_consent t
  | KOnConsentAtBlock => fee_on_consent_at_block t
  end.

(** The duplicate check of transmission-protocols/src/lib.rs:361-373: the list built by
    dropping repeated accounts has the same length. *)
Fixpoint no_dup (l : list N) : bool :=
  match l with [] => true | x :: l' => negb (memN x l') && no_dup l' end.

(** models transmission-protocols/src/lib.rs:640-651 ([transmit_nft]) *)
Definition transmit_nft (id : N) : M unit :=
  let! ot := get_trans id in
  let! t := unwrap ot (terr T_TransmissionNotFound) in
  let! o := get_nft id in
  let! d := unwrap o (terr T_NFTNotFound) in
  set_nft id (put_transmission false (d <| owner := t_recipient t |>)) ;;;
  del_trans id.

(** models transmission-protocols/src/lib.rs:309-421 ([set_transmission_protocol]) *)
Definition set_transmission_protocol (who id recipient : N) (p : protocol) (c : cancellation) : M unit :=
  let! now := gets s_now in
  match c with
  | UntilBlock b => ensure (now <? b) (terr T_CannotCancelTransmissionInThePast)
  | _ => ret tt
  end ;;;
  let! o := get_nft id in
  let! d := unwrap o (terr T_NFTNotFound) in
  ensure (owner d =? who) (terr T_NotTheNFTOwner) ;;;
  ensure (negb (who =? recipient)) (terr T_InvalidRecipient) ;;;
  ensure (negb (is_listed (nstate d))) (terr T_CannotSetTransmissionForListedNFTs) ;;;
  ensure (negb (is_delegated (nstate d))) (terr T_CannotSetTransmissionForDelegatedNFTs) ;;;
  ensure (negb (is_rented (nstate d))) (terr T_CannotSetTransmissionForRentedNFTs) ;;;
  ensure (negb (soulbound_locked d)) (terr T_CannotSetTransmissionForNotCreatedSoulboundNFTs) ;;;
  ensure (negb (is_syncing_secret (nstate d))) (terr T_CannotSetTransmissionForSyncingSecretNFTs) ;;;
  ensure (negb (is_syncing_capsule (nstate d))) (terr T_CannotSetTransmissionForSyncingCapsules) ;;;
  ensure (negb (is_transmission (nstate d))) (terr T_CannotSetTransmissionForNFTsInTransmission) ;;;
  on_some (end_block p) (fun b =>
    ensure (now <? b) (terr T_CannotSetTransmissionInThePast) ;;;
    ensure (N.min (b - now) u32_max <=? max_block_duration) (terr T_TransmissionIsInTooMuchTime)) ;;;
  on_some (consent_data p) (fun lt =>
    ensure (no_dup (fst lt)) (terr T_DuplicatesInConsentList) ;;;
    ensure (0 <? snd lt) (terr T_ThresholdTooLow) ;;;
    ensure (snd lt <=? consent_limit) (terr T_ThresholdTooHigh) ;;;
    ensure (snd lt <=? nlen (fst lt)) (terr T_InvalidConsentList)) ;;;
  let! q := gets (fun s => t_queue (s_trans s)) in
  let! q' :=
    match block_to_queue p with
    | Some b =>
        ensure (nlen q + 1 <=? trans_limit) (terr T_SimultaneousTransmissionLimitReached) ;;;
        unwrap (q_insert trans_limit id b q) (terr T_SimultaneousTransmissionLimitReached)
    | None => ret q
    end in
  let! fee := gets (fun s => protocol_fee (s_trans s) (kind_of_protocol p)) in
  pay_fee who fee ;;;
  set_trans id (mkTrans recipient p c) ;;;
  set_nft id (put_transmission true d) ;;;
  mod_trans (fun x => x <| t_queue := q' |>) ;;;
  emit (Ev_ProtocolSet id recipient p c).

(** models transmission-protocols/src/lib.rs:426-473 ([remove_transmission_protocol]) *)
Definition remove_transmission_protocol (who id : N) : M unit :=
  let! now := gets s_now in
  let! o := get_nft id in
  let! d := unwrap o (terr T_NFTNotFound) in
  ensure (owner d =? who) (terr T_NotTheNFTOwner) ;;;
  ensure (is_transmission (nstate d)) (terr T_NFTIsNotInTransmission) ;;;
  let! ot := get_trans id in
  let! t := unwrap ot (terr T_TransmissionNotFound) in
  ensure (is_cancellable (t_cancellation t) now) (terr T_ProtocolIsNotCancellable) ;;;
  set_nft id (put_transmission false d) ;;;
  match kind_of_protocol (t_protocol t) with
  | KAtBlock | KAtBlockWithReset => mod_trans (fun x => x <| t_queue ::= q_del id |>)
  | KOnConsent => del_consents id
  | KOnConsentAtBlock => mod_trans (fun x => x <| t_queue ::= q_del id |>) ;;; del_consents id
  end ;;;
  del_trans id ;;;
  emit (Ev_ProtocolRemoved id).

(** models transmission-protocols/src/lib.rs:478-518 ([reset_timer]) *)
Definition reset_timer (who id b : N) : M unit :=
  let! now := gets s_now in
  let! o := get_nft id in
  let! d := unwrap o (terr T_NFTNotFound) in
  ensure (owner d =? who) (terr T_NotTheNFTOwner) ;;;
  ensure (is_transmission (nstate d)) (terr T_NFTIsNotInTransmission) ;;;
  let! ot := get_trans id in
  let! t := unwrap ot (terr T_TransmissionNotFound) in
  ensure (can_reset (t_protocol t)) (terr T_ProtocolTimerCannotBeReset) ;;;
  ensure (now <? b) (terr T_CannotSetTransmissionInThePast) ;;;
  ensure (N.min (b - now) u32_max <=? max_block_duration) (terr T_TransmissionIsInTooMuchTime) ;;;
  mod_trans (fun x => x <| t_queue ::= q_update id b |>) ;;;
  set_trans id (t <| t_protocol := AtBlockWithReset b |>) ;;;
  emit (Ev_TimerReset id b).

(** models transmission-protocols/src/lib.rs:523-610 ([add_consent]) *)
Definition add_consent (who id : N) : M unit :=
  let! now := gets s_now in
  let! o := get_nft id in
  let! d := unwrap o (terr T_NFTNotFound) in
  ensure (is_transmission (nstate d)) (terr T_NFTIsNotInTransmission) ;;;
  let! ot := get_trans id in
  let! t := unwrap ot (terr T_TransmissionNotFound) in
  let! q := gets (fun s => t_queue (s_trans s)) in
  let! lt := unwrap (consent_data (t_protocol t)) (terr T_ProtocolDoesNotAcceptConsent) in
  match kind_of_protocol (t_protocol t) with
  | KOnConsentAtBlock =>
      ensure (match q_get id q with None => true | Some _ => false end) (terr T_ConsentAlreadyReachedThreshold)
  | _ => ret tt
  end ;;;
  ensure (memN who (fst lt)) (terr T_ConsentNotAllowed) ;;;
  let! oc := gets (fun s => consents (s_trans s) !! id) in
  let l := default [] oc in
  ensure (negb (memN who l)) (terr T_AlreadyAddedConsent) ;;;
  ensure (nlen l <? consent_limit) (terr T_ConsentListFull) ;;;
  if nlen (l ++ [who]) <? snd lt
  then
    mod_trans (fun x => x <| consents ::= <[id := l ++ [who]]> |>) ;;;
    emit (Ev_ConsentAdded id who)
  else
    let! immediate :=
      match end_block (t_protocol t) with
      | Some b =>
          if b <=? now then ret true
          else
            ensure (nlen q + 1 <=? trans_limit) (terr T_SimultaneousTransmissionLimitReached) ;;;
            let! q' := unwrap (q_insert trans_limit id b q) (terr T_SimultaneousTransmissionLimitReached) in
            mod_trans (fun x => x <| t_queue := q' |>) ;;;
            ret false
      | None => ret true
      end in
    del_consents id ;;;
    when immediate (transmit_nft id) ;;;
    emit (Ev_ConsentAdded id who) ;;;
    emit (Ev_ThresholdReached id) ;;;
    when immediate (emit (Ev_Transmitted id)).

(** models transmission-protocols/src/lib.rs:615-632 ([set_protocol_fee]) *)
Definition set_protocol_fee (k : proto_kind) (fee : N) : M unit :=
  mod_trans (fun x =>
    match k with
    | KAtBlock => x <| fee_at_block := fee |>
    | KAtBlockWithReset => x <| fee_at_block_reset := fee |>
    | KOnConsent => x <| fee_on_consent := fee |>
    | KOnConsentAtBlock => x <| fee_on_consent_at_block := fee |>
    end) ;;;
  emit (Ev_ProtocolFeeSet k fee).

(** models the loop of transmission-protocols/src/lib.rs:176-195; fuel is the queue length. *)
Fixpoint trans_loop (fuel : nat) (now : N) (q : list (N * N)) (acts : N) : M (list (N * N) * N) :=
  match fuel with
  | O => ret (q, acts)
  | S f =>
      match q_pop now q with
      | None => ret (q, acts)
      | Some (id, q') =>
          let! r := catch (transmit_nft id) in
          let! acts' :=
            match r with
            | Ok _ => emit (Ev_Transmitted id) ;;; ret (acts + 1)
            | Err _ => emit (Ev_TransmissionError id) ;;; ret acts
            end in
          if trans_actions <=? acts' then ret (q', acts')
          else trans_loop f now q' acts'
      end
  end.

(** models transmission-protocols/src/lib.rs:167-202 ([on_initialize]) *)
Definition trans_on_initialize : M unit :=
  let! now := gets s_now in
  let! q := gets (fun s => t_queue (s_trans s)) in
  let! r := trans_loop (length q) now q 0 in
  when (0 <? snd r) (mod_trans (fun x => x <| t_queue := fst r |>)).

End trans.
