(** Specification vocabulary: what the property theorems talk about, written without the
    helpers of the model. *)
From Verif Require Export Runtime.
Local Open Scope N_scope.

Section spec.
Context {C : Config}.

(** Administrative calls, by the origin that may send them. *)
Definition root_call (c : call) : Prop :=
  match c with
  | C_set_nft_mint_fee _ | C_set_secret_nft_mint_fee _ | C_set_capsule_mint_fee _
  | C_set_marketplace_mint_fee _ | C_set_protocol_fee _ _
  | C_assign_enclave _ _ _ | C_remove_registration _ | C_reject_update _
  | C_approve_enclave_unregistration _ | C_force_remove_enclave _
  | C_approve_update_enclave _ | C_force_update_enclave _ _ _
  | C_create_cluster _ | C_update_cluster _ _ | C_remove_cluster _
  | C_register_metrics_server _ _ | C_unregister_metrics_server _
  | C_force_update_metrics_server_type _ _ | C_set_report_params_weightage _
  | C_set_staking_amount _ | C_set_daily_reward_pool _
  | C_update_operator_assigned_era _ _ => True
  | _ => False
  end.
Definition external_call (c : call) : Prop :=
  match c with
  | C_set_threshold _ | C_add_chain _ | C_set_relayers _ | C_set_deposit_nonce _ _
  | C_set_bridge_fee _ | C_set_session_extra_reward_payout _ | C_mandate _ => True
  | _ => False
  end.

(** The NFT a call manages, for the calls reserved to its owner. *)
Definition managed_nft (c : call) : option N :=
  match c with
  | C_burn_nft i | C_transfer_nft i _ | C_delegate_nft i _ | C_set_royalty i _
  | C_add_nft_to_collection i _ | C_add_secret i _ | C_convert_to_capsule i _
  | C_set_capsule_offchaindata i _ | C_notify_enclave_key_update i
  | C_list_nft i _ _ | C_unlist_nft i | C_create_auction i _ _ _ _ _
  | C_create_contract i _ _ _ _ _ _ | C_set_transmission_protocol i _ _ _
  | C_remove_transmission_protocol i | C_reset_timer i _ => Some i
  | _ => None
  end.

(** The owner of an NFT. *)
Definition owner_of (s : state) (i : N) : option N := owner <$> nfts (s_nft s) !! i.

(** No engagement: not listed, delegated, rented, under transmission or syncing. *)
Definition unengaged (d : nft_data) : Prop :=
  is_listed (nstate d) = false /\ is_delegated (nstate d) = false /\
  is_rented (nstate d) = false /\ is_transmission (nstate d) = false /\
  is_syncing_secret (nstate d) = false /\ is_syncing_capsule (nstate d) = false.

(** The calls that mint an NFT, with its data, royalty, collection and soulbound flag. *)
Definition mint_args (c : call) : option (bytes * N * option N * bool) :=
  match c with
  | C_create_nft d r co sb | C_create_secret_nft d _ r co sb | C_create_capsule d _ r co sb => Some (d, r, co, sb)
  | _ => None
  end.

(** The six engagements of an NFT. *)
Definition engagement_flags (d : nft_data) : list bool :=
  [is_listed (nstate d); is_delegated (nstate d); is_rented (nstate d); is_transmission (nstate d);
   is_syncing_secret (nstate d); is_syncing_capsule (nstate d)].

(** The enclave address [addr] belongs to an operator assigned to some cluster, all recorded
    shards [l] come from other operators of that cluster, and with this operator the required
    number of shards is reached. *)
Definition completes_shards (s : state) (l : list (N * N)) (addr : N) : Prop :=
  exists op cl : N, addr_op (s_tee s) !! addr = Some op /\ enc_cluster (s_tee s) !! op = Some cl /\
    Forall (fun x => fst x = cl) l /\ NoDup (op :: map snd l) /\ nlen l + 1 = shards_number.

(** A soulbound NFT in the hands of somebody else than its creator. *)
Definition bound_to_owner (d : nft_data) : Prop :=
  is_soulbound (nstate d) = true /\ creator d <> owner d.

(** Nothing differs between two states but the NFTs and the event log. *)
Definition only_nfts_differ (s s' : state) : Prop :=
  exists m ev, s' = s <| s_nft ::= fun n => n <| nfts := m |> |> <| s_events := ev |>.

(** Nothing at all differs but the event log. *)
Definition only_events_differ (s s' : state) : Prop :=
  exists ev, s' = s <| s_events := ev |>.

(** The NFT [i] is a security deposit that contract [k] holds (the rentee's deposit is held
    only while there is a rentee). *)
Definition secures (k : contract) (i : N) : Prop :=
  r_renter_cf k = FeeNFT i \/ (r_rentee k <> None /\ r_rentee_cf k = FeeNFT i).

(** The ways in which one call [c] of origin [o] may move NFT [i] from an owner to another:
    the owner signs; a buyer pays for an NFT on sale or auction; a consent triggers the
    transmission to its recipient; a deposit leaves the rent pallet for a party of the
    contract; the owner's rent offer is accepted by the renter. *)
Definition moved_by_call (s : state) (o : origin) (c : call) (i from to : N) : Prop :=
  o = Signed from \/
  (o = Signed to /\ (exists p, c = C_buy_nft i p) /\ is_Some (sales (s_mkt s) !! i)) \/
  (o = Signed to /\ (exists p, c = C_buy_it_now i p) /\ is_Some (auctions (s_auc s) !! i)) \/
  (exists who t, o = Signed who /\ c = C_add_consent i /\ transs (s_trans s) !! i = Some t /\ t_recipient t = to) \/
  (exists who id k, o = Signed who /\ (c = C_cancel_contract id \/ c = C_revoke_contract id) /\
     contracts (s_rent s) !! id = Some k /\ secures k i /\ from = rent_pot /\
     (to = r_renter k \/ r_rentee k = Some to)) \/
  (exists id k l, c = C_accept_rent_offer id from /\ contracts (s_rent s) !! id = Some k /\
     o = Signed (r_renter k) /\ offers (s_rent s) !! id = Some l /\ from ∈ l).

(** The same for the work done at the start of a block: the highest bidder of an ended
    auction, the recipient of a transmission, a party of a finished contract. *)
Definition moved_by_hook (s : state) (i from to : N) : Prop :=
  (exists a amt, auctions (s_auc s) !! i = Some a /\ last (a_bidders a) = Some (to, amt)) \/
  (exists t, transs (s_trans s) !! i = Some t /\ t_recipient t = to) \/
  (exists id k, contracts (s_rent s) !! id = Some k /\ secures k i /\ from = rent_pot /\
     (to = r_renter k \/ r_rentee k = Some to)).

(** The same for one step of the chain. *)
Definition moved_by (s : state) (a : action) (i from to : N) : Prop :=
  match a with
  | Extrinsic o c => moved_by_call s o c i from to
  | NextBlock => moved_by_hook s i from to
  | Env _ => False
  end.

(** [later s s']: [s'] is reached from [s] by some valid steps of the chain. *)
Inductive later (s : state) : state -> Prop :=
| later_refl : later s s
| later_step s' a : later s s' -> action_ok a -> later s (step s' a).

(** The amount [v] if account [a] is account [x], and nothing otherwise. *)
Definition at_acc (x a v : N) : N := if decide (a = x) then v else 0.

(** [y] is [p] millionths of [x], rounded to the nearest integer, halves down. *)
Definition permill_share (p x y : N) : Prop :=
  2 * 1000000 * y < 2 * (x * p) + 1000000 /\ 2 * (x * p) <= 2 * 1000000 * y + 1000000.

(** [y] is what fee [f] (none, flat, or a percentage) asks for a price [x]. *)
Definition fee_share (f : option compound_fee) (x y : N) : Prop :=
  match f with
  | None => y = 0
  | Some (Flat z) => y = z
  | Some (Percentage p) => permill_share p x y
  end.

(** The published fees of a minting call, one by one. *)
Definition published_fees (s : state) (c : call) : option (list N) :=
  match c with
  | C_create_nft _ _ _ _ => Some [mint_fee (s_nft s)]
  | C_create_secret_nft _ _ _ _ _ => Some [mint_fee (s_nft s); secret_fee (s_nft s)]
  | C_create_capsule _ _ _ _ _ => Some [mint_fee (s_nft s); capsule_fee (s_nft s)]
  | C_add_secret _ _ => Some [secret_fee (s_nft s)]
  | C_convert_to_capsule _ _ => Some [capsule_fee (s_nft s)]
  | _ => None
  end.
(** The sum of a list of amounts. *)
Definition sum_of (l : list N) : N := fold_right N.add 0 l.

(** What a [ConfigOp] asks of a field. *)
Definition field_after {A} (op : config_op A) (old new : option A) : Prop :=
  match op with Noop => new = old | SetTo v => new = Some v | RemoveIt => new = None end.

(** Who a marketplace lets list an NFT of collection [co]. *)
Definition admits (m : marketplace) (who : N) (co : option N) : Prop :=
  let named := (exists l, m_accounts m = Some l /\ who ∈ l) \/
               (exists k l, co = Some k /\ m_collections m = Some l /\ k ∈ l) in
  match m_kind m with Public => ~ named | Private => named end.

End spec.
