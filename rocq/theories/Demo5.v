(** The demo chain with existential deposit 5. *)
From Verif Require Export Demo.
Local Open Scope N_scope.

Definition demo5 : Config := demo_config 5.

Lemma demo5_ok : @config_ok demo5.
Proof.
  split; try done.
  repeat constructor; set_solver.
Qed.
Lemma demo5_init_genesis : @genesis demo5 (@demo_init demo5).
Proof.
  exists 1, (Some 20), rich, ∅. split; [done|]. split; [|split; [|done]].
  - apply map_Forall_to_list. apply (bool_decide_unpack _). vm_compute. exact I.
  - vm_compute. done.
Qed.
Definition run5 (l : list action) : state := @demo demo5 l.
Lemma run5_reachable l : forallb action_okb l = true -> @reachable demo5 (run5 l).
Proof.
  intros Hl. apply (@run_reachable demo5); [|by apply actions_ok].
  apply (@reach_init demo5), demo5_init_genesis.
Qed.
