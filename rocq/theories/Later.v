(** Small steps of the chain, and two-state properties over later histories. *)
From Verif Require Export Spec Frame.
Local Open Scope N_scope.

Section later.
Context {C : Config}.

Inductive sstep (s : state) : state -> Prop :=
| ss_call o c s' :
    action_ok (Extrinsic o c) -> wf_call c = true -> is_mandate c = false ->
    exec_call o c s = (Ok tt, s') -> sstep s s'
| ss_event ev : sstep s (s <| s_events ::= cons ev |>)
| ss_tick : sstep s (s <| s_now ::= fun n => n + 1 |>)
| ss_hook h : sstep s (snd (run_hook h s))
| ss_env e s' : action_ok (Env e) -> run_env e s = (Ok tt, s') -> sstep s s'.

Lemma sreach_sstep s s' : sreach s -> sstep s s' -> sreach s'.
Proof.
  intros Hs [o c s2 ? ? ? ?| | | |e s2 ? ?].
  - by eapply (sr_call s o c).
  - by constructor.
  - by constructor.
  - by constructor.
  - by eapply (sr_env s e).
Qed.

Lemma ssteps_exec c : forall o s s',
  action_ok (Extrinsic o c) -> wf_call c = true -> exec_call o c s = (Ok tt, s') -> rtc sstep s s'.
Proof.
  induction c; intros oo s s' Ha Hw He;
    try (apply rtc_once; by eapply (ss_call _ oo); [exact Ha|exact Hw|done|exact He]).
  cbn [exec_call] in He. unfold external in He. destruct (external_ok oo); [|done].
  apply bind_catch in He as (r & s1 & He1 & He2).
  assert (Hs1 : rtc sstep s s1).
  { destruct (transactional_cases (exec_call Root c) s) as [(s2&Hok&Ht)|(e&s2&_&Ht)];
      rewrite Ht in He1; injection He1 as <- <-; [|done].
    by eapply (IHc Root); [|exact Hw|exact Hok]. }
  apply modify_ok in He2. subst s'. eapply rtc_r; [exact Hs1|]. constructor.
Qed.

Lemma ssteps_hooks l s : rtc sstep s (fold_left (fun s h => snd (run_hook h s)) l s).
Proof.
  revert s. induction l as [|h l IH]; intros s; [done|].
  eapply rtc_l; [apply (ss_hook s h)|apply IH].
Qed.

Lemma step_ssteps s a : action_ok a -> rtc sstep s (step s a).
Proof.
  intros Ha. destruct a as [o c| |e]; cbn [step].
  - destruct (dispatch_cases o c s) as [(s'&Hw&He&->)|[e ->]]; [|done]. by eapply ssteps_exec.
  - eapply rtc_l; [apply ss_tick|apply ssteps_hooks].
  - destruct (transactional_cases (run_env e) s) as [(s2&Hok&->)|(x&s2&_&->)]; [|done].
    apply rtc_once. by eapply ss_env.
Qed.

Lemma later_ssteps s s' : later s s' -> rtc sstep s s'.
Proof. induction 1; [done|]. etrans; [done|]. by apply step_ssteps. Qed.

Lemma later_reachable s s' : reachable s -> later s s' -> reachable s'.
Proof. intros Hs. induction 1; [done|]. by constructor. Qed.
Lemma reachable_later s : reachable s -> exists s0, genesis s0 /\ later s0 s.
Proof.
  induction 1 as [s Hs|s a Hs [s0 [? ?]] Ha]; [by exists s; split; [|constructor]|].
  exists s0. split; [done|]. by constructor.
Qed.

(** A two-state property that every small step has and that composes holds of any later
    history. *)
Lemma ssteps_rel (R : state -> state -> Prop) :
  (forall s, R s s) -> (forall s1 s2 s3, R s1 s2 -> R s2 s3 -> R s1 s3) ->
  (forall s s', sreach s -> sstep s s' -> R s s') ->
  forall s s', sreach s -> rtc sstep s s' -> R s s'.
Proof.
  intros Hr Ht Hstep s s' Hs H. induction H as [|s1 s2 s3 H12 H23 IH]; [done|].
  eapply Ht; [by apply Hstep|]. apply IH. by eapply sreach_sstep.
Qed.
Lemma later_rel (R : state -> state -> Prop) :
  (forall s, R s s) -> (forall s1 s2 s3, R s1 s2 -> R s2 s3 -> R s1 s3) ->
  (forall s s', sreach s -> sstep s s' -> R s s') ->
  forall s s', reachable s -> later s s' -> R s s'.
Proof.
  intros Hr Ht Hstep s s' Hs H. eapply ssteps_rel; eauto; [by apply reachable_sreach|by apply later_ssteps].
Qed.
(** The same for a state predicate that later steps keep. *)
Lemma later_stable (P : state -> Prop) :
  (forall s s', sreach s -> sstep s s' -> P s -> P s') ->
  forall s s', reachable s -> later s s' -> P s -> P s'.
Proof.
  intros Hstep s s' Hs H. change ((fun s s' => P s -> P s') s s'). eapply later_rel; eauto.
Qed.
Lemma ssteps_sreach s s' : sreach s -> rtc sstep s s' -> sreach s'.
Proof. intros Hs H. induction H; [done|]. apply IHrtc. by eapply sreach_sstep. Qed.

End later.
