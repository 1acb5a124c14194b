(** An over-approximation of the reachable states that also contains the states between the
    block hooks; invariants are proved by induction over it. *)
From Verif Require Export Tactics.
Local Open Scope N_scope.

Section sreach.
Context {C : Config}.

Definition is_mandate (c : call) : bool := match c with C_mandate _ => true | _ => false end.

Inductive sreach : state -> Prop :=
| sr_init s : genesis s -> sreach s
| sr_call s o c s' :
    sreach s -> action_ok (Extrinsic o c) -> wf_call c = true -> is_mandate c = false ->
    exec_call o c s = (Ok tt, s') -> sreach s'
| sr_event s ev : sreach s -> sreach (s <| s_events ::= cons ev |>)
| sr_tick s : sreach s -> sreach (s <| s_now ::= fun n => n + 1 |>)
| sr_hook s h : sreach s -> sreach (snd (run_hook h s))
| sr_env s e s' :
    sreach s -> action_ok (Env e) -> run_env e s = (Ok tt, s') -> sreach s'.

Lemma sreach_exec c : forall o s s',
  sreach s -> action_ok (Extrinsic o c) -> wf_call c = true ->
  exec_call o c s = (Ok tt, s') -> sreach s'.
Proof.
  induction c; intros oo s s' Hs Ha Hw He;
    try (by eapply (sr_call _ oo); [exact Hs|exact Ha|exact Hw|done|exact He]).
  cbn [exec_call] in He. unfold external in He. destruct (external_ok oo); [|done].
  apply bind_catch in He as (r & s1 & He1 & He2).
  assert (Hs1 : sreach s1).
  { destruct (transactional_cases (exec_call Root c) s) as [(s2&Hok&Ht)|(e&s2&_&Ht)];
      rewrite Ht in He1; injection He1 as <- <-; [|done].
    by eapply (IHc Root); [exact Hs| |exact Hw|exact Hok]. }
  apply modify_ok in He2. subst s'. by constructor.
Qed.

Lemma sreach_hooks l s : sreach s -> sreach (fold_left (fun s h => snd (run_hook h s)) l s).
Proof. revert s. induction l as [|h l IH]; intros s Hs; [done|]. by apply IH, sr_hook. Qed.

Lemma sreach_step s a : sreach s -> action_ok a -> sreach (step s a).
Proof.
  intros Hs Ha. destruct a as [o c| |e]; cbn [step].
  - destruct (dispatch_cases o c s) as [(s'&Hw&He&->)|[e ->]]; [|done].
    by eapply sreach_exec.
  - by apply sreach_hooks, sr_tick.
  - destruct (transactional_cases (run_env e) s) as [(s2&Hok&->)|(x&s2&_&->)]; [|done].
    by eapply sr_env.
Qed.

Lemma reachable_sreach s : reachable s -> sreach s.
Proof. induction 1; [by apply sr_init|by apply sreach_step]. Qed.

End sreach.
