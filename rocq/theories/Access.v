(** Proofs about who may do what, and of the transfer rule. *)
From Verif Require Import Tactics Spec.
Local Open Scope N_scope.

Section access.
Context {C : Config}.

Lemma admin_denied s who c :
  root_call c \/ (external_call c /\ external_ok (Signed who) = false) ->
  exists e, dispatch (Signed who) c s = (Err e, s).
Proof.
  intros Hc. destruct (dispatch_cases (Signed who) c s) as [(s'&_&H&_)|?]; [exfalso|done].
  destruct Hc as [Hc|[Hc He]]; destruct c; try done; cbn [exec_call] in H; unfold external in H;
    rewrite He in H; done.
Qed.

Lemma managed_owner s s' who c i :
  managed_nft c = Some i -> exec_call (Signed who) c s = (Ok tt, s') ->
  owner_of s i = Some who.
Proof.
  unfold owner_of.
  intros Hc H. destruct c; try discriminate Hc; cbn in Hc; injection Hc as ->;
    cbn [exec_call signed] in H.
  all: minv H.
  all: subst; st_cbn; match goal with U : nfts _ !! ?i = Some _ |- context [nfts _ !! ?i] => rewrite U end; cbn; congruence.
Qed.

Lemma manage_denied s who c i :
  managed_nft c = Some i -> owner_of s i <> Some who ->
  exists e, dispatch (Signed who) c s = (Err e, s).
Proof.
  intros Hc Ho. destruct (dispatch_cases (Signed who) c s) as [(s'&_&H&_)|?]; [|done].
  exfalso. eapply Ho, managed_owner; done.
Qed.
End access.
