(** Vocabulary of the TEE properties. *)
From Verif Require Export SpecTrans.
Local Open Scope N_scope.

Section spec.
Context {C : Config}.

(** Action [a] runs call [c] with origin [o]: it is that extrinsic, or a mandate around it. *)
Inductive runs : action -> origin -> call -> Prop :=
| runs_self o c : runs (Extrinsic o c) o c
| runs_mandate o c o' c' : runs (Extrinsic Root c) o' c' -> runs (Extrinsic o (C_mandate c)) o' c'.

(** Operator [op] has an assigned enclave with address [addr]. *)
Definition enclave_at (s : state) (op addr : N) : Prop :=
  exists e, encs (s_tee s) !! op = Some e /\ e_addr e = addr.
Definition assigned (s : state) (op : N) : Prop := exists addr, enclave_at s op addr.
(** Operator [op] waits for an assignment, has asked to change the enclave, has asked to leave. *)
Definition waiting (s : state) (op : N) : Prop := is_Some (regs (s_tee s) !! op).
Definition updating (s : state) (op : N) : Prop := is_Some (updates (s_tee s) !! op).
Definition leaving (s : state) (op : N) : Prop := op ∈ unregs (s_tee s).

(** The operators that cluster [c] lists, in order, and their slots. *)
Definition cluster_ops (s : state) (c : N) : option (list N) := (fun cl => map fst (cl_enclaves cl)) <$> clusters (s_tee s) !! c.
Definition cluster_slots (s : state) (c : N) : option (list N) := (fun cl => map snd (cl_enclaves cl)) <$> clusters (s_tee s) !! c.
Definition exists_cluster (s : state) (c : N) : Prop := is_Some (clusters (s_tee s) !! c).
(** The cluster recorded for an operator. *)
Definition cluster_of (s : state) (op : N) : option N := enc_cluster (s_tee s) !! op.

(** The address [addr] may submit shards in the name of operator [op]: it is mapped to the
    operator, and the operator has a cluster. *)
Definition accepted (s : state) (addr op : N) : Prop :=
  addr_op (s_tee s) !! addr = Some op /\ is_Some (cluster_of s op).

(** The stake of an operator according to the pallet, and the amount its lock freezes. *)
Definition staked (s : state) (op : N) : option N := l_staked <$> ledgers (s_tee s) !! op.
Definition locked (s : state) (op : N) : option N := tee_lock (s_bal s) !! op.
(** The stake is being released; since when. *)
Definition unbonding (s : state) (op since : N) : Prop :=
  exists l, ledgers (s_tee s) !! op = Some l /\ l_unlocking l = true /\ l_unbonded_at l = since.
Definition bonded (s : state) (op : N) : Prop := exists l, ledgers (s_tee s) !! op = Some l /\ l_unlocking l = false.

(** The number of operators with an enclave. *)
Definition operators (s : state) : N := N.of_nat (size (encs (s_tee s))).
(** The reports stored for an operator and era. *)
Definition reports_of (s : state) (era op : N) : list report := default [] (reports (s_tee s) !! (era, op)).
(** [r] is the best percentage score (out of 10000, at most 10000) that the reports [l] give with the weights [w]. *)
Definition best (l : list report) (f : report -> N) (m : N) : Prop :=
  (forall r, r ∈ l -> f r <= m) /\ (m = 0 \/ exists r, r ∈ l /\ f r = m).
Definition score (w : weightage) (l : list report) (p : N) : Prop :=
  exists m1 m2 m3 m4 m5, best l rp1 m1 /\ best l rp2 m2 /\ best l rp3 m3 /\ best l rp4 m4 /\ best l rp5 m5 /\
    p = N.min 10000 (m1 * w1 w + m2 * w2 w + m3 * w3 w + m4 * w4 w + m5 * w5 w).

(** What each operator gets of the pool: the pool divided by the number of operators, rounded
    to the nearest unit (upper bound), where the fraction is first rounded down to parts per
    billion (lower bound). *)
Definition paid_share (s : state) (share : N) : Prop :=
  share <= reward_pool (s_tee s) /\ 2 * operators s * share <= 2 * reward_pool (s_tee s) + operators s /\
  2000000000 * reward_pool (s_tee s) <= 2000000000 * operators s * share + 1000000000 * operators s + 2 * operators s * reward_pool (s_tee s).
(** The rewards on record for era [e], summed over the operators [ws]. *)
Definition era_total (s : state) (e : N) (ws : list N) : N :=
  fold_right N.add 0 (map (fun w => default 0 (claimed (s_tee s) !! (e, w))) ws).

(** Action [a] starts the unbonding of [w], who is assigned: [w] asks to leave, or root removes
    the enclave. *)
Definition starts_unbonding (s : state) (a : action) (w : N) : Prop :=
  assigned s w /\ (a = Extrinsic (Signed w) C_unregister_enclave \/ runs a Root (C_force_remove_enclave w)).

(** [who] is registered as a metrics server for public clusters. *)
Definition public_server (s : state) (who : N) : Prop := (who, ClPublic) ∈ servers (s_tee s).
End spec.
