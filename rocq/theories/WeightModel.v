(** The weight the block hooks return: the numbers [read] and [write] they pass to
    [T::DbWeight::get().reads_writes] (a weight linear in both).  Each hook is written once
    more with the two counters; WeightFacts.v shows that the rest is the hook of Runtime.v.
    The counters are u64 in the code and unbounded here. *)
From Verif Require Export Runtime.
Local Open Scope N_scope.

Section weight.
Context {C : Config}.

(** models auction/src/lib.rs:134-180 with the counters: [read] grows by the bidders left after
    the highest bid was taken (line 153) and by 3, [write] by 2 (lines 173-174); not on
    [continue]. *)
Fixpoint auction_loop_w (fuel : nat) (now : N) (dl : list (N * N)) (actions : N) (rw : N * N) : M (list (N * N) * (N * N)) :=
  match fuel with
  | O => ret (dl, rw)
  | S f =>
      match q_pop now dl with
      | None => ret (dl, rw)
      | Some (id, dl') =>
          let! oa := get_auction id in
          let bidders := match oa with Some a => nlen (a_bidders a) - 1 | None => 0 end in
          let! done := settle_one id in
          let actions' := if done : bool then actions + 1 else actions in
          let rw' := if done : bool then (fst rw + bidders + 3, snd rw + 2) else rw in
          if done && (auction_actions <=? actions')
          then ret (dl', rw')
          else auction_loop_w f now dl' actions' rw'
      end
  end.

(** models auction/src/lib.rs:124-184 with the counters ([read] starts at 1). *)
Definition auction_weight : M (N * N) :=
  let! now := gets s_now in
  let! dl := gets (fun s => deadlines (s_auc s)) in
  let! r := auction_loop_w (length dl) now dl 0 (1, 0) in
  mod_auc (fun x => x <| deadlines := fst r |>) ;;;
  ret (snd r).

(** models rent/src/lib.rs:292-304 ([w] = 4) and 326-338 ([w] = 5) with the counters. *)
Fixpoint finish_loop_w (ev : N -> event) (w : N) (fuel : nat) (now : N) (q : list (N * N)) (acts : N) (rw : N * N)
  : M (list (N * N) * N * (N * N)) :=
  match fuel with
  | O => ret (q, acts, rw)
  | S f =>
      match q_pop now q with
      | None => ret (q, acts, rw)
      | Some (id, q') =>
          attempt (handle_finished id) ;;;
          emit (ev id) ;;;
          if rent_actions <=? acts + 1 then ret (q', acts + 1, (fst rw + 3, snd rw + w))
          else finish_loop_w ev w f now q' (acts + 1) (fst rw + 3, snd rw + w)
      end
  end.

(** models rent/src/lib.rs:307-323 with the counters. *)
Fixpoint subscription_loop_w (fuel : nat) (now : N) (q : list (N * N)) (acts : N) (rw : N * N)
  : M (list (N * N) * N * (N * N)) :=
  match fuel with
  | O => ret (q, acts, rw)
  | S f =>
      match q_pop now q with
      | None => ret (q, acts, rw)
      | Some (id, q') =>
          let! r := handle_subscription id now in
          let! q'' :=
            match r with
            | Some b =>
                emit (Ev_ContractSubscriptionPeriodStarted id) ;;;
                ret (default q' (q_insert rent_limit id b q'))
            | None =>
                attempt (handle_finished id) ;;;
                emit (Ev_ContractEnded id None) ;;;
                ret q'
            end in
          if rent_actions <=? acts + 1 then ret (q'', acts + 1, (fst rw + 3, snd rw + 2))
          else subscription_loop_w f now q'' (acts + 1) (fst rw + 3, snd rw + 2)
      end
  end.

(** models rent/src/lib.rs:284-347 with the counters ([read] starts at 1; one write for the
    queues if anything was done). *)
Definition rent_weight : M (N * N) :=
  let! now := gets s_now in
  let! q := gets (fun s => queues (s_rent s)) in
  let! r1 := finish_loop_w (fun id => Ev_ContractEnded id None) 4 (length (q_fixed q)) now (q_fixed q) 0 (1, 0) in
  let! r2 := subscription_loop_w (S (N.to_nat rent_actions)) now (q_sub q) (snd (fst r1)) (snd r1) in
  let! r3 := finish_loop_w Ev_ContractExpired 5 (length (q_avail q)) now (q_avail q) (snd (fst r2)) (snd r2) in
  when (0 <? snd (fst r3)) (mod_rent (fun r => r <| queues := mkQueues (fst (fst r1)) (fst (fst r2)) (fst (fst r3)) |>)) ;;;
  ret (if 0 <? snd (fst r3) then (fst (snd r3), snd (snd r3) + 1) else snd r3).

(** models transmission-protocols/src/lib.rs:175-195 with the counters. *)
Fixpoint trans_loop_w (fuel : nat) (now : N) (q : list (N * N)) (acts : N) (rw : N * N) : M (list (N * N) * N * (N * N)) :=
  match fuel with
  | O => ret (q, acts, rw)
  | S f =>
      match q_pop now q with
      | None => ret (q, acts, rw)
      | Some (id, q') =>
          let! r := catch (transmit_nft id) in
          let! acts' :=
            match r with
            | Ok _ => emit (Ev_Transmitted id) ;;; ret (acts + 1)
            | Err _ => emit (Ev_TransmissionError id) ;;; ret acts
            end in
          let rw' := match r with Ok _ => (fst rw + 2, snd rw + 2) | Err _ => rw end in
          if trans_actions <=? acts' then ret (q', acts', rw')
          else trans_loop_w f now q' acts' rw'
      end
  end.

(** models transmission-protocols/src/lib.rs:167-202 with the counters ([read] starts at 2). *)
Definition trans_weight : M (N * N) :=
  let! now := gets s_now in
  let! q := gets (fun s => t_queue (s_trans s)) in
  let! r := trans_loop_w (length q) now q 0 (2, 0) in
  when (0 <? snd (fst r)) (mod_trans (fun x => x <| t_queue := fst (fst r) |>)) ;;;
  ret (if 0 <? snd (fst r) then (fst (snd r), snd (snd r) + 1) else snd r).

(** models tee/src/lib.rs:260-283 with the counters: one read if there is an active era, never
    a write. *)
Definition tee_weight : M (N * N) :=
  let! now := gets s_now in
  let! oe := gets s_era in
  match oe with
  | None => emit (Ev_FailedToGetActiveEra now) ;;; ret (0, 0)
  | Some active => when (history_depth <=? active) (clear_old_era (active - history_depth)) ;;; ret (1, 0)
  end.

Definition hook_weight (h : hook) : M (N * N) :=
  match h with
  | HookAuction => auction_weight
  | HookRent => rent_weight
  | HookTrans => trans_weight
  | HookTee => tee_weight
  end.
End weight.
