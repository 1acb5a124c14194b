(** Property theorems: who may call what. *)
From Verif Require Import Spec Access Demo.
Local Open Scope N_scope.

Section props.
Context {C : Config}.

(** C72: an administrative call sent by an ordinary signed account fails and changes nothing
    (for calls reserved to the configured external origin: unless that account is it). *)
Theorem C72_governance_needs_governance s who c :
  root_call c \/ (external_call c /\ external_ok (Signed who) = false) ->
  exists e, dispatch (Signed who) c s = (Err e, s).
Proof. exact (admin_denied s who c). Qed.

(** C73: a call that manages an NFT fails, without effect, for everybody but its owner. *)
Theorem C73_only_the_owner_manages s who c i :
  managed_nft c = Some i -> owner_of s i <> Some who ->
  exists e, dispatch (Signed who) c s = (Err e, s).
Proof. exact (manage_denied s who c i). Qed.

End props.

Print Assumptions C72_governance_needs_governance.
Print Assumptions C73_only_the_owner_manages.

(** Concrete cases. *)
Section cases.
Local Existing Instance demo1.

Example C72_case :
  root_call (C_set_staking_amount 7) /\
  dispatch (Signed 1) (C_set_staking_amount 7) demo_init = (Err BadOrigin, demo_init) /\
  external_call (C_mandate (C_set_staking_amount 7)) /\ external_ok (Signed 1) = false /\
  staking_amount (s_tee (step demo_init (Extrinsic (OtherOrigin 1) (C_mandate (C_set_staking_amount 7))))) = 7.
Proof. vm_compute. auto. Qed.

(** NFT 0 belongs to account 1; account 2 cannot list it, account 1 can. *)
Example C73_case :
  let s := demo [Extrinsic (Signed 1) (C_create_nft [] 100000 None false);
                 Extrinsic (Signed 1) (C_create_marketplace Public)] in
  owner_of s 0 = Some 1 /\
  fst (dispatch (Signed 2) (C_list_nft 0 0 500) s) = Err (Market_err M_NotTheNFTOwner) /\
  fst (dispatch (Signed 1) (C_list_nft 0 0 500) s) = Ok tt.
Proof. vm_compute. auto. Qed.
End cases.
