(** Vocabulary: how an engagement of an NFT can end. *)
From Verif Require Export SpecWait.
Local Open Scope N_scope.

Section spec.
Context {C : Config}.

(** Step [a] is taken to end the engagement that NFT [i] with data [d] has in state [s]: a block passes,
    the owner takes the NFT off sale, recalls it from a delegate or calls its transmission off, or one of the
    accounts listed in its transmission gives their consent. *)
Definition helps (s : state) (i : N) (d : nft_data) (a : action) : Prop :=
  a = NextBlock \/
  a = Extrinsic (Signed (owner d)) (C_unlist_nft i) \/
  a = Extrinsic (Signed (owner d)) (C_delegate_nft i None) \/
  a = Extrinsic (Signed (owner d)) (C_remove_transmission_protocol i) \/
  exists t l k w, under s i t /\ asks (t_protocol t) l k /\ w ∈ l /\ a = Extrinsic (Signed w) (C_add_consent i).
End spec.
