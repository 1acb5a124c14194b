(** Lists: [swap_remove] and [position]. *)
From Verif Require Export State.
Local Open Scope N_scope.

Lemma swap_remove_perm {A} (l : list A) (p : nat) (x : A) :
  l !! p = Some x -> x :: swap_remove p l ≡ₚ l.
Proof.
  intros Hp. unfold swap_remove. destruct l as [|z l0 _] using rev_ind; [done|].
  rewrite last_snoc, app_length. cbn [length].
  replace (length l0 + 1 - 1)%nat with (length l0) by lia.
  destruct (decide (p < length l0)%nat) as [Hlt|Hge].
  - rewrite insert_app_l by done. rewrite take_app_alt by (by rewrite insert_length).
    rewrite lookup_app_l in Hp by done. apply take_drop_middle in Hp as Hl.
    rewrite <- Hl at 2. rewrite insert_take_drop by done.
    rewrite <- app_assoc. cbn [app]. etrans; [|apply Permutation_middle]. apply perm_skip.
    apply Permutation_app_head. apply Permutation_cons_append.
  - assert (p = length l0) as ->.
    { apply lookup_lt_Some in Hp. rewrite app_length in Hp. cbn in Hp. lia. }
    rewrite insert_app_r_alt by lia. rewrite take_app_alt by done.
    rewrite lookup_app_r in Hp by lia. rewrite Nat.sub_diag in Hp. injection Hp as ->.
    by rewrite <- Permutation_cons_append.
Qed.

Lemma position_lookup {A} f (l : list A) p : position f l = Some p -> exists x, l !! p = Some x /\ f x = true.
Proof.
  revert p. induction l as [|y l IH]; intros p H; [done|]. cbn in H. destruct (f y) eqn:E.
  - injection H as <-. exists y. done.
  - destruct (position f l) as [q|]; [|done]. injection H as <-. by apply IH.
Qed.
Lemma position_None {A} f (l : list A) x : position f l = None -> x ∈ l -> f x = false.
Proof.
  induction l as [|y l IH]; intros H Hx; [by apply elem_of_nil in Hx|]. cbn in H. destruct (f y) eqn:E; [done|].
  destruct (position f l); [done|]. apply elem_of_cons in Hx as [->|Hx]; auto.
Qed.
Lemma position_eqb (l : list N) i p : position (N.eqb i) l = Some p -> l !! p = Some i.
Proof. intros H. apply position_lookup in H as (x&Hx&E). apply N.eqb_eq in E as ->. done. Qed.
Lemma position_elem (l : list N) i : i ∈ l -> is_Some (position (N.eqb i) l).
Proof.
  intros H. destruct (position (N.eqb i) l) eqn:E; [eauto|].
  pose proof (position_None _ _ _ E H) as F. by rewrite N.eqb_refl in F.
Qed.

Lemma nlen_perm {A} (l l' : list A) : l ≡ₚ l' -> nlen l = nlen l'.
Proof. intros H. unfold nlen. by rewrite H. Qed.
Lemma nlen_cons {A} (x : A) l : nlen (x :: l) = nlen l + 1.
Proof. unfold nlen. cbn [length]. lia. Qed.
