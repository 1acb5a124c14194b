(** Why calls of pallet nft are refused. *)
From Verif Require Export ErrCalc RuleNft.
Local Open Scope N_scope.

Section errs.
Context {C : Config}.
Implicit Types (s : state).

Lemma mint_err s w d r co sb e s' : 0 < ed -> binv s -> cinv s -> create_nft w d r co sb s = (Err e, s') ->
  (pay_fee_b w (mint_fee (s_nft s)) (s_bal s) = Err e) \/ justified e (no_mint s w co).
Proof.
  intros Hed Hb Hc H. unfold create_nft in H. estep H. estep H; [by left|]. right. destruct co as [k|].
  - einv H; st_cbn_in U; unfold no_mint, no_room, not_own_coll; try say.
    + because. eexists. split; [done|]. unfold full. destruct (c_limit x) as [l|]; cbn in E1; eauto.
    + because. st_cbn_in E2. lia.
    + exfalso. apply N.ltb_lt, (room_iff s k x Hc U) in E1. lia.
  - einv H. unfold no_mint. because. st_cbn_in E. lia.
Qed.
Lemma check_no b w x y : balance_check b w (wadd x y) = false -> ~ affords_b b w (x + y).
Proof.
  unfold balance_check, can_withdraw, affords_b. assert (wadd x y <= x + y) as Hw by (apply N.mod_le; lia).
  intros H [H1|H1].
  - assert (wadd x y = 0) as E by lia. rewrite E in H. rewrite (proj2 (N.ltb_ge _ _)) in H by lia. done.
  - destruct (_ <? _) eqn:E; [lia|]. destruct (_ =? _); [done|]. cbn [orb] in H. lia.
Qed.
Lemma shard_err s w i (l : option (list (N * N))) full e x : ensure_enclave (s_tee s) w = Some x ->
  (forall y, l = Some y -> shards_ok y) -> shard_step full (fst x) (snd x) l = Err e ->
  justified e (no_shard s w i full (default [] l)).
Proof.
  intros Hx Hl H. destruct x as [c op]. apply enclave_iff in Hx. cbn [fst snd] in *. unfold shard_step in H.
  destruct l as [l|]; cbn [from_option id].
  - specialize (Hl l eq_refl) as (Hne&_&_&c0&Hf). destruct l as [|[c1 o1] l]; [done|].
    destruct (c =? c1) eqn:Ec; cbn [negb] in H.
    2:{ injection H as <-. apply N.eqb_neq in Ec. because. exists op, c, c1, o1. split_and!; [done|by left|congruence]. }
    destruct (_ <? shards_number) eqn:En; cbn [negb] in H; [|injection H as <-; apply N.ltb_ge in En; by because].
    destruct (existsb _ _) eqn:Ex; [|by destruct (nlen _ =? _)]. injection H as <-. because. exists op, c. split; [done|].
    apply existsb_exists in Ex as ([c2 o2]&Hin&[E1%N.eqb_eq E2%N.eqb_eq]%andb_true_iff). cbn in E1, E2. subst. by apply elem_of_list_In.
  - destruct (_ <? 1) eqn:E; [|by destruct (_ =? _)]. injection H as <-. apply N.ltb_lt in E. because. unfold nlen. cbn. lia.
Qed.

Lemma fact_nft_err s w c e s' : 0 < ed -> reachable s -> fees_collector <> Some w -> wf_call c = true -> is_nft_call c ->
  dispatch (Signed w) c s = (Err e, s') -> justified e (nft_table s w c).
Proof.
  intros Hed Hs Hcol Hw Hc H. pose proof (reachable_binv s Hs) as Hb. pose proof (reachable_inv1 s Hs) as H1.
  pose proof (reachable_cinv s Hs) as Hci. apply err_dispatch in H as [_ [s1 H]]; [|done].
  destruct c; try done; cbn [exec_call signed root] in H; try (injection H as <- <-; by because); cbn [nft_table].
  - apply mint_err in H as [H|H]; [..|done|done|done]; [|by apply justified_app_r].
    apply fee_poor in H as [? ?]; [|done|done]. apply justified_app_l. by apply poor_intro.
  - unfold burn_nft in H. estep H. do 6 (estep H; [say|]). estep H; [|exfalso; einv H].
    exfalso. assert (coll_of s id = Some o) as Hk by (unfold coll_of; rewrite U; done).
    apply (ci_ref s Hci) in Hk as (cd&Hcd&Hin). destruct (position_elem _ _ Hin) as [p Hp]. einv H; congruence.
  - unfold transfer_nft in H. einv H; try say. because. eexists. split; [done|]. by apply soulbound_locked_iff.
  - unfold delegate_nft in H. einv H; say.
  - unfold set_royalty in H. einv H; say.
  - unfold create_collection in H. einv H; say.
  - unfold burn_collection in H. einv H; try say. because. eexists. split; [done|]. intros Hn. by rewrite Hn in E0.
  - unfold close_collection in H. einv H; say.
  - unfold limit_collection in H. einv H; say.
  - unfold add_nft_to_collection in H. einv H; try say.
    + because. eexists. split; [done|]. unfold full. destruct (c_limit x) as [l|]; cbn in E1; eauto.
    + exfalso. apply N.ltb_lt, (room_iff s _ x Hci U) in E1. lia.
  - unfold add_secret in H. einv H; try say. apply fee_poor in T as [? ?]; [|done|done]. do 2 apply justified_app_r. by apply poor_intro.
  - unfold create_secret_nft in H. estep H. estep H; [because; by apply check_no|].
    apply justified_cons. apply err_bind in H as [H|([]&s2&H&H2)].
    + apply mint_err in H as [H|H]; [..|done|done|done]; [|by apply justified_app_r].
      apply fee_poor in H as [He Ha]; [|done|done]. apply justified_app_l. apply poor_intro; [done|].
      unfold affords in *. lia.
    + apply create_needs in H as (b&Hp&Eb&_&En&Ef&_&Ei); [|done..]. apply justified_app_l.
      assert (nfts (s_nft s2) !! (next_nft (s_nft s2) - 1) = Some (mkNft w w data coll royalty (default_state soulbound))) as Hd.
      { rewrite Ei, En. replace (next_nft (s_nft s) + 1 - 1) with (next_nft (s_nft s)) by lia. by rewrite lookup_insert. }
      unfold add_secret in H2. estep H2. estep H2. estep H2; [congruence|].
      rewrite Hd in U. injection U as <-. einv H2; try done.
      rewrite Ef, Eb in T. apply poor_intro.
      * unfold pay_fee_b in T. destruct (withdraw_b w _ true b) eqn:Ew; [done|]. injection T as <-. by eapply withdraw_err.
      * intros Ha. apply (two_fees w _ _ (s_bal s) Hed Hb Hcol) in Ha as (b1&b2&P1&P2). congruence.
  - unfold add_secret_shard in H. estep H. estep H; [because; intros op cl Ho; apply (enclave_iff _ w (cl, op)) in Ho; congruence|].
    estep H. estep H; [say|]. estep H; [say|]. estep H; [say|]. estep H. destruct (view s _ x0 H1 U0) as (_&_&Hsh&_).
    estep H; [|einv H]. apply justified_app_r. by eapply shard_err.
  - unfold convert_to_capsule in H. einv H; try say. apply fee_poor in T as [? ?]; [|done|done]. do 2 apply justified_app_r. by apply poor_intro.
  - unfold create_capsule in H. estep H. estep H; [because; by apply check_no|].
    apply justified_cons. apply err_bind in H as [H|([]&s2&H&H2)].
    + apply mint_err in H as [H|H]; [..|done|done|done]; [|by apply justified_app_r].
      apply fee_poor in H as [He Ha]; [|done|done]. apply justified_app_l. apply poor_intro; [done|].
      unfold affords in *. lia.
    + apply create_needs in H as (b&Hp&Eb&_&En&_&Ef&Ei); [|done..]. apply justified_app_l.
      assert (nfts (s_nft s2) !! (next_nft (s_nft s2) - 1) = Some (mkNft w w data coll royalty (default_state soulbound))) as Hd.
      { rewrite Ei, En. replace (next_nft (s_nft s) + 1 - 1) with (next_nft (s_nft s)) by lia. by rewrite lookup_insert. }
      unfold convert_to_capsule in H2. estep H2. estep H2. estep H2; [congruence|].
      rewrite Hd in U. injection U as <-. einv H2; try done.
      rewrite Ef, Eb in T. apply poor_intro.
      * unfold pay_fee_b in T. destruct (withdraw_b w _ true b) eqn:Ew; [done|]. injection T as <-. by eapply withdraw_err.
      * intros Ha. apply (two_fees w _ _ (s_bal s) Hed Hb Hcol) in Ha as (b1&b2&P1&P2). congruence.
  - unfold set_capsule_offchaindata in H. einv H; say.
  - unfold add_capsule_shard in H. estep H. estep H; [because; intros op cl Ho; apply (enclave_iff _ w (cl, op)) in Ho; congruence|].
    estep H. estep H; [say|]. estep H; [say|]. estep H; [say|]. estep H. destruct (view s _ x0 H1 U0) as (_&_&_&Hsh).
    estep H; [|einv H]. apply justified_app_r. by eapply shard_err.
  - unfold notify_enclave_key_update in H. einv H; say.
  - unfold set_collection_offchaindata in H. einv H; say.
Qed.

(** Whenever a line of the table is true the call is refused. *)
Lemma no_room_spec s w k e : justified e (no_room s w k) -> ~ with_coll s w k has_room.
Proof.
  intros (P&H&HP) (c&Hc&Hw&Hcl&H1&H2). each_line H.
  - congruence.
  - destruct HP as (c'&?&?). congruence.
  - destruct HP as (c'&?&?). congruence.
  - destruct HP as (c'&?&[?|(l&Hl&?)]); assert (c' = c) as -> by congruence; [lia|]. specialize (H2 l Hl). lia.
Qed.
Lemma no_mint_spec s w co e : justified e (no_mint s w co) -> ~ can_mint s w co.
Proof.
  intros (P&H&HP) [H1 H2]. unfold no_mint in H. apply in_app_or in H as [H|[[= <- <-]|[]]]; [|lia].
  destruct co as [k|]; [|done]. apply (no_room_spec s w k e); [by exists P|auto].
Qed.
Lemma no_shard_spec s w i full l e : justified e (no_shard s w i full l) -> nfts (s_nft s) !! i = None \/ ~ can_add_shard s w l.
Proof.
  intros (P&H&HP). each_line H; auto; right; intros (op&cl&Ho&Hc&Hl&Hn).
  - by apply (HP op cl).
  - destruct HP as (op'&cl'&c&o&[Ho' Hc']&Hin&Hne). destruct (Hl _ _ Hin). congruence.
  - lia.
  - destruct HP as (op'&cl'&[Ho' Hc']&Hin). destruct (Hl _ _ Hin). congruence.
Qed.
Lemma fact_nft_refused s w c e : 0 < ed -> reachable s -> fees_collector <> Some w -> wf_call c = true -> is_nft_call c ->
  justified e (nft_table s w c) -> exists e', dispatch (Signed w) c s = (Err e', s).
Proof.
  intros Hed Hs Hcol Hw Hc H. destruct (dispatch_cases (Signed w) c s) as [(s'&_&_&Hd)|[e' Hd]]; [|by exists e'].
  exfalso. assert (nft_rule s w c) as Hr by (apply fact_nft_rule; eauto). clear Hd.
  destruct c; try done; cbn [nft_table nft_rule] in H, Hr; try (destruct H as (P&H&HP); each_line H; clash).
  - destruct Hr as [Hr1 Hr2]. apply justified_app in H as [H|H]; [by apply poor_spec in H|by apply no_mint_spec in H].
  - destruct Hr as [Hr1 Hr2]. destruct H as (P&H&HP). each_line H; [|lia]. destruct HP as (x&Hx&?). specialize (Hr2 x Hx). lia.
  - destruct Hr as [Hr1 Hr2]. apply justified_app in H as [H|H]; [by apply no_room_spec in H|].
    destruct H as (P&H&HP). each_line H; clash.
  - destruct Hr as [Hr1 Hr2]. apply justified_inv in H as [[_ H]|H]; [done|].
    apply justified_app in H as [H|H]; [by apply poor_spec in H|by apply no_mint_spec in H].
  - destruct Hr as (d&Hd&Hy&Hr). destruct (view s _ d (reachable_inv1 s Hs) Hd) as (Hsec&_). specialize (Hsec Hy).
    apply justified_app in H as [H|H].
    + destruct H as (P&H&HP). each_line H; clash.
    + apply no_shard_spec in H as [H|H]; [congruence|done].
  - destruct Hr as [Hr1 Hr2]. apply justified_inv in H as [[_ H]|H]; [done|].
    apply justified_app in H as [H|H]; [by apply poor_spec in H|by apply no_mint_spec in H].
  - destruct Hr as (d&Hd&Hy&Hr). destruct (view s _ d (reachable_inv1 s Hs) Hd) as (_&Hsec&_). specialize (Hsec Hy).
    apply justified_app in H as [H|H].
    + destruct H as (P&H&HP). each_line H; clash.
    + apply no_shard_spec in H as [H|H]; [congruence|done].
Qed.
End errs.
