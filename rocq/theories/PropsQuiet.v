(** Property theorems: what happens if nobody acts.  The terms are in SpecOwed.v and SpecAssets.v. *)
From Verif Require Import SpecAssets QuietFacts Demo PropsAuction PropsRent.
Local Open Scope N_scope.

Section props.
Context {C : Config}.

(** C122: if nobody acts, then from some block on there is no auction, no rent contract and no
    transmission waiting for its block. *)
Theorem C122_everything_ends s : config_ok -> ed <= 1 -> reachable s ->
  exists n, forall m, (n <= m)%nat ->
    auctions (s_auc (blocks_pass m s)) = ∅ /\ contracts (s_rent (blocks_pass m s)) = ∅ /\ t_queue (s_trans (blocks_pass m s)) = [].
Proof. exact (fact_quiet s). Qed.

(** Every NFT is then free but for what waits for a buyer or for consents: no NFT is rented, those
    listed have been on sale for a fixed price all the time, and those still under transmission
    need consents. *)
Theorem C122_nfts_come_free s : config_ok -> ed <= 1 -> reachable s -> exists n, forall m, (n <= m)%nat ->
  forall i d, nfts (s_nft (blocks_pass m s)) !! i = Some d ->
    is_rented (nstate d) = false /\
    (is_listed (nstate d) = true -> is_Some (sales (s_mkt s) !! i)) /\
    (is_transmission (nstate d) = true -> exists t l k, under (blocks_pass m s) i t /\ asks (t_protocol t) l k).
Proof. exact (fact_free_again s). Qed.

(** C123: all money comes home: if only blocks pass, and the account then claims its refund if it
    has one, its balance is all it has, and is all it had but for what it spent on NFTs
    it won and on rent. *)
Theorem C123_money_comes_home s w : config_ok -> ed <= 1 -> reachable s -> w ∉ pots ->
  exists n cl x, (cl = [] \/ cl = [Extrinsic (Signed w) C_claim]) /\ spends w s (replicate n NextBlock) x /\
    let t := after s (replicate n NextBlock ++ cl) in assets s w <= free (s_bal t) w + x /\ assets t w = free (s_bal t) w.
Proof. exact (fact_home s w). Qed.
End props.

Local Existing Instance demo1.

(** Two auctions, and three rent contracts, that end by themselves. *)
Definition alive (s : state) : nat * nat := (size (auctions (s_auc s)), size (contracts (s_rent s))).
Example C122_case :
  config_ok /\ ed <= 1 /\
  map (fun n => alive (blocks_pass n (demo auction_demo2))) [0; 2; 3; 40]%nat = [(2, 0); (1, 0); (0, 0); (0, 0)]%nat /\
  map (fun n => alive (blocks_pass n (demo rent_running))) [0; 10; 20; 40]%nat = [(0, 3); (0, 2); (0, 0); (0, 0)]%nat.
Proof. split; [apply demo1_ok|]. split; [vm_compute; discriminate|]. split; vm_compute; reflexivity. Qed.

Definition rented (s : state) (i : N) : option bool := (fun d => is_rented (nstate d)) <$> nfts (s_nft s) !! i.
Definition listed (s : state) (i : N) : option bool := (fun d => is_listed (nstate d)) <$> nfts (s_nft s) !! i.
Example C122_free_case :
  rented (demo rent_running) 0 = Some true /\ rented (blocks_pass 20 (demo rent_running)) 0 = Some false /\
  listed (demo auction_demo2) 0 = Some true /\ listed (blocks_pass 4 (demo auction_demo2)) 0 = Some false.
Proof. vm_compute. auto. Qed.

(** Account 4 has bid 300 and is outbid: it has 9700 and, after claiming, all 10000 again.
    Account 2 has 9643 and deposits of 207; it pays three periods of 30 and has the rest, 9760. *)
Example C123_case :
  4 ∉ pots /\ 2 ∉ pots /\
  (let s := demo auction_demo2 in let t := after s (replicate 4 NextBlock ++ [Extrinsic (Signed 4) C_claim]) in
   (free (s_bal s) 4, assets s 4) = (9700, 10000) /\ (free (s_bal t) 4, assets t 4) = (10000, 10000)) /\
  (let s := demo rent_running in let t := blocks_pass 20 s in
   (free (s_bal s) 2, assets s 2) = (9643, 9850) /\ (free (s_bal t) 2, assets t 2) = (9760, 9760)).
Proof. split; [by apply memN_not_elem|]. split; [by apply memN_not_elem|]. split; vm_compute; auto. Qed.

Print Assumptions C122_everything_ends.
Print Assumptions C122_nfts_come_free.
Print Assumptions C123_money_comes_home.
