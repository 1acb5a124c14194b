(** Vocabulary of the transmission properties. *)
From Verif Require Export Spec.
Local Open Scope N_scope.

Section spec.
Context {C : Config}.

(** The block a protocol names, if it names one. *)
Definition block_of (p : protocol) : option N :=
  match p with
  | AtBlock b => Some b
  | AtBlockWithReset b => Some b
  | OnConsent _ _ => None
  | OnConsentAtBlock _ _ b => Some b
  end.
(** The accounts asked for their consent and how many of them are needed. *)
Definition asks (p : protocol) (l : list N) (k : N) : Prop :=
  p = OnConsent l k \/ exists b, p = OnConsentAtBlock l k b.
(** A protocol that only waits for its block. *)
Definition timed (p : protocol) (b : N) : Prop := p = AtBlock b \/ p = AtBlockWithReset b.

(** The agreed cancellation period at block [now]. *)
Definition may_cancel (c : cancellation) (now : N) : Prop :=
  match c with CancelNone => False | UntilBlock b => now <= b | Anytime => True end.

(** NFT [i] is under transmission [t]; it waits in the queue for block [b]. *)
Definition under (s : state) (i : N) (t : transmission) : Prop := transs (s_trans s) !! i = Some t.
Definition waits (s : state) (i b : N) : Prop := (i, b) ∈ t_queue (s_trans s).
(** NFT [i] is with [w] and not under transmission. *)
Definition given_to (s : state) (i w : N) : Prop :=
  transs (s_trans s) !! i = None /\
  exists d, nfts (s_nft s) !! i = Some d /\ owner d = w /\ is_transmission (nstate d) = false.

(** The state after some steps. *)
Definition after (s : state) (acts : list action) : state := fold_left step acts s.

(** The steps [acts1] end with the call that puts NFT [i] under transmission [t], and the
    transmission is the same all along [acts2]. *)
Definition since (s0 : state) (acts1 acts2 : list action) (i : N) (t : transmission) : Prop :=
  (exists acts0 w, acts1 = acts0 ++ [Extrinsic (Signed w) (C_set_transmission_protocol i (t_recipient t) (t_protocol t) (t_cancellation t))] /\
     transs (s_trans (after s0 acts0)) !! i = None) /\
  forall p q, acts2 = p ++ q -> under (after s0 (acts1 ++ p)) i t.
(** Among the steps [acts2] is a successful consent of [w], signed by [w]. *)
Definition consented (s0 : state) (acts1 acts2 : list action) (i w : N) : Prop :=
  exists p q s', acts2 = p ++ Extrinsic (Signed w) (C_add_consent i) :: q /\
    dispatch (Signed w) (C_add_consent i) (after s0 (acts1 ++ p)) = (Ok tt, s').

(** NFTs due at block [now] are all in [l], and [l] fits in one block. *)
Definition all_waiting_fit (s : state) (l : list N) : Prop :=
  (forall i b, waits s i b -> b <= s_now s + 1 -> i ∈ l) /\ nlen l <= trans_actions.
End spec.
