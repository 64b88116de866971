(** Facts about the further parts of the Rust client. *)
From Coq Require Import ZArith List Bool Lia ZifyBool.
From Verif Require ExitFacts.
From Verif Require Import Base Nodes OrderTree BookSide Heap Market OpenOrders Order Book Instructions BaseFacts
  SpecBook SpecOrder SpecFees Steps StepFacts SpecLedger SpecEvents Ledger LedgerMoves LedgerOrder LedgerInv SpecSystem SystemFacts Solvency SpecControl SystemProofs SpecLive LiveIx
  Program SpecProgram ProgFacts IndexFacts ProgramProofs Ts TsSend ChainData SpecChain ChainTrack ChainInv ChainProofs RClient SpecRust.
Import ListNotations.
Open Scope Z_scope.

(** ** Sizes *)
Lemma reachable_cfg s : reachable s -> cfg_sound (m_cfg (w_mkt (s_w s))).
Proof. intros Hr. destruct (reachable_inv s Hr) as (cl & ct & P & HI). exact (mk_cfg _ (ld_mkt _ _ _ (iv_led _ _ _ _ _ _ HI))). Qed.

Lemma taker_lots s q r : reachable s -> 0 <= q -> let m := w_mkt (s_w s) in rc_quote_lots_taker m q = Ok r ->
  r = q / c_qls (m_cfg m) + q * c_taker_fee (m_cfg m) / (1000000 + c_taker_fee (m_cfg m)).
Proof.
  intros Hr Hq m H. destruct (reachable_cfg s Hr) as [C1 _ _ C4 _]. fold m in C1, C4. unfold rc_quote_lots_taker, taker_fee, qls in H. unfold FEES_SCALE in *.
  apply bind_ok in H as (u & _ & H). apply bind_ok in H as (f & Ef & H). apply chk_ok in Ef as [-> _]. apply chk_ok in H as [-> _].
  f_equal. apply Z.quot_div_nonneg; [apply Z.mul_nonneg_nonneg; lia|lia].
Qed.
Lemma maker_lots s q r : reachable s -> 0 <= q -> let m := w_mkt (s_w s) in rc_quote_lots_maker m q = Ok r ->
  r = q / c_qls (m_cfg m) + q * Z.max 0 (c_maker_fee (m_cfg m)) / 1000000.
Proof.
  intros Hr Hq m H. destruct (reachable_cfg s Hr) as [C1 _ C3 _ _]. fold m in C1, C3. unfold rc_quote_lots_maker, maker_fees_floor, unsigned_maker_fees_floor, maker_fee, qls in H. unfold FEES_SCALE in *.
  apply bind_ok in H as (f & Ef & H). apply chk_ok in H as [-> _]. f_equal.
  destruct (0 <? c_maker_fee (m_cfg m)) eqn:E.
  - apply bind_ok in Ef as (a & Ea & Ef). apply chk_ok in Ea as [-> _]. apply bind_ok in Ef as (n & En & Ef). apply chk_ok in En as [-> _]. apply chk_ok in Ef as [-> _].
    rewrite Z.max_r by lia. rewrite Z.abs_eq by lia. apply Z.quot_div_nonneg; [apply Z.mul_nonneg_nonneg; lia|lia].
  - injection Ef as <-. rewrite Z.max_l by lia. rewrite Z.mul_0_r. reflexivity.
Qed.
Lemma lots_within l q : 0 < l -> largest_within l q (q / l).
Proof. intros H. unfold largest_within. pose proof (Z.div_mod q l). pose proof (Z.mod_pos_bound q l). nia. Qed.
Lemma lots_beyond l q f : 0 < l -> 1 <= f -> q < (q / l + f) * l.
Proof. intros H Hf. pose proof (Z.div_mod q l). pose proof (Z.mod_pos_bound q l). nia. Qed.

Lemma no_fee_within s q : reachable s -> 0 <= q -> let m := w_mkt (s_w s) in
  (forall r, rc_quote_lots_taker m q = Ok r -> q * c_taker_fee (m_cfg m) < 1000000 + c_taker_fee (m_cfg m) -> largest_within (c_qls (m_cfg m)) q r) /\
  (forall r, rc_quote_lots_maker m q = Ok r -> q * c_maker_fee (m_cfg m) < 1000000 -> largest_within (c_qls (m_cfg m)) q r).
Proof.
  intros Hr Hq m. destruct (reachable_cfg s Hr) as [C1 _ C3 C4 _]. fold m in C1, C3, C4. unfold FEES_SCALE in *. split; intros r H Hf.
  - rewrite (taker_lots s q r Hr Hq H). fold m. rewrite (Z.div_small (q * _)) by (split; [apply Z.mul_nonneg_nonneg; lia|lia]). rewrite Z.add_0_r. apply lots_within. lia.
  - rewrite (maker_lots s q r Hr Hq H). fold m. rewrite (Z.div_small (q * _)). { rewrite Z.add_0_r. apply lots_within. lia. }
    destruct (Z.max_spec 0 (c_maker_fee (m_cfg m))) as [[? ->]|[? ->]]; [split; [apply Z.mul_nonneg_nonneg; lia|lia]|lia].
Qed.
Lemma fee_beyond s q : reachable s -> 0 <= q -> let m := w_mkt (s_w s) in
  (forall r, rc_quote_lots_taker m q = Ok r -> 1000000 + c_taker_fee (m_cfg m) <= q * c_taker_fee (m_cfg m) -> q < r * c_qls (m_cfg m)) /\
  (forall r, rc_quote_lots_maker m q = Ok r -> 1000000 <= q * c_maker_fee (m_cfg m) -> q < r * c_qls (m_cfg m)).
Proof.
  intros Hr Hq m. destruct (reachable_cfg s Hr) as [C1 _ C3 C4 _]. fold m in C1, C3, C4. unfold FEES_SCALE in *. split; intros r H Hf.
  - rewrite (taker_lots s q r Hr Hq H). fold m. apply lots_beyond; [lia|]. apply Z.div_le_lower_bound; lia.
  - rewrite (maker_lots s q r Hr Hq H). fold m. apply lots_beyond; [lia|]. apply Z.div_le_lower_bound; [lia|].
    destruct (Z.max_spec 0 (c_maker_fee (m_cfg m))) as [[? ->]|[? ->]]; [lia|]. exfalso. nia.
Qed.
Lemma base_within s b : reachable s -> let m := w_mkt (s_w s) in largest_within (c_bls (m_cfg m)) b (rc_base_lots m b).
Proof. intros Hr m. destruct (reachable_cfg s Hr) as [_ C2 _ _ _]. fold m in C2. apply lots_within. lia. Qed.
Lemma base_short_le s d size r : reachable s -> let m := w_mkt (s_w s) in
  rc_base_lots_usd m d size = Ok r -> r * c_bls (m_cfg m) <= size * d.
Proof.
  intros Hr m H. unfold rc_base_lots_usd in H. apply bind_ok in H as (b & Eb & H). apply chk_ok in Eb as [-> _]. injection H as <-.
  exact (proj1 (base_within s (size * d) Hr)).
Qed.

(** ** Instructions *)
Lemma admin_blocks s c e ut v : c_open_orders_admin (m_cfg (w_mkt (s_w s))) <> 0 ->
  (forall g r, exec e s (rc_place c ut v g) <> Ok r) /\ (forall g r, exec e s (rc_place_pegged c ut v g) <> Ok r).
Proof.
  intros Ha. assert (G : forall u, place_constraints s (mkPlaceCtx (rc_owner c) (rc_account c) 0 ut v []) <> Ok u).
  { intros u E. unfold place_constraints in E. cbn [px_acct px_signer px_admin px_user_token px_vault] in E.
    do 4 (apply bind_ok in E as (? & _ & E)). apply bind_ok in E as (? & E & _). apply require_ok in E. lia. }
  split; intros g r; unfold exec, rc_place, rc_place_pegged; (destruct (s_closed s && _); [discriminate|]); unfold exec_open; cbv zeta.
  - destruct (check_place_args g); [|discriminate]. cbn [bind]. destruct (place_constraints s _) as [u0|]; [destruct (G u0 eq_refl)|discriminate].
  - destruct (check_peg_args g); [|discriminate]. cbn [bind]. destruct (place_constraints s _) as [u0|]; [destruct (G u0 eq_refl)|discriminate].
Qed.
Lemma consumes_nothing e s limit s' out : reachable s -> exec e s (rc_consume (w_mkt (s_w s)) limit) = Ok (s', out) -> s' = s.
Proof. intros Hr. apply strangers_consume_nothing; [exact Hr|]. intros ev _ []. Qed.

(** What stays when orders are taken off. *)
Lemma taken_keeps w gone w' k : taken_off_all w gone w' -> forall a, acct_get k (w_accts w) = Some a ->
  exists a', acct_get k (w_accts w') = Some a' /\ a_owner a' = a_owner a /\ a_delegate a' = a_delegate a /\ p_penalty (a_pos a') = p_penalty (a_pos a).
Proof.
  induction 1 as [w|w s t l w1 r w2 H _ IH]; intros a Ha; [eauto 6|].
  destruct (to_acct _ _ _ _ _ H) as (b & Hb & E). destruct (Z.eq_dec k (lf_owner l)) as [->|Hn].
  - rewrite Ha in Hb. injection Hb as <-. destruct (IH (cancelled (w_mkt w) a (lf_slot l) (lf_qty l))) as (a' & A1 & A2 & A3 & A4).
    { rewrite E. exact (get_set_same _ _ _ _ Ha). }
    exists a'. split; [exact A1|]. rewrite A2, A3, A4. unfold cancelled, freed, cancelled_pos. destruct (order_at a (lf_slot l)) as [oo|]; [|auto]. destruct (oo_side oo); auto.
  - apply IH. rewrite E, get_set_other by exact Hn. exact Ha.
Qed.

(** What one account can take out is within what the vaults hold. *)
Lemma free_within s k a : reachable s -> acct_get k (w_accts (s_w s)) = Some a ->
  exists vb vq, s_tok s (c_base_vault (m_cfg (w_mkt (s_w s)))) = Some vb /\ s_tok s (c_quote_vault (m_cfg (w_mkt (s_w s)))) = Some vq /\
  p_base_free (a_pos a) <= t_amount vb /\ p_quote_free (a_pos a) + p_rebates (a_pos a) + p_locked_fees (a_pos a) <= t_amount vq.
Proof.
  intros Hr Ha. destruct (reachable_solvent s Hr) as [(vb & Vb & _ & _ & B) (vq & Vq & _ & _ & Q) FB FQ].
  destruct (reachable_inv s Hr) as (cl & ct & P & HI). pose proof (iv_led _ _ _ _ _ _ HI) as HL.
  pose proof (mk_avail _ (ld_mkt _ _ _ HL)) as Hav. unfold u64_ok in Hav.
  assert (Hp : forall j b, acct_get j (w_accts (s_w s)) = Some b -> 0 <= p_base_free (a_pos b) /\ 0 <= p_quote_free (a_pos b) + p_rebates (a_pos b) + p_locked_fees (a_pos b)).
  { intros j b Hb. destruct (ac_pos _ _ _ _ (ld_acct _ _ _ HL _ _ Hb)) as [P1 P2 P3 P4 _ _ _ _]. unfold u64_ok in *. lia. }
  exists vb, vq. split; [exact Vb|]. split; [exact Vq|]. split.
  - pose proof (asum_del_le p_base_free k a _ (ld_keys _ _ _ HL) Ha (fun j b H => proj1 (Hp j b H))) as G.
    unfold asum in G. unfold accounts_sum in FB. lia.
  - pose proof (asum_del_le (fun p => p_quote_free p + p_rebates p + p_locked_fees p) k a _ (ld_keys _ _ _ HL) Ha (fun j b H => proj2 (Hp j b H))) as G.
    unfold asum in G. cbv beta in G. unfold accounts_sum in FQ. lia.
Qed.

(** Cancelling everything and settling, for the owner. *)
Lemma cancel_then_settle e s k a so ub uq limit : reachable s -> s_closed s = false -> acct_get k (w_accts (s_w s)) = Some a ->
  0 <= limit < 256 -> p_bids_base (a_pos a) + p_asks_base (a_pos a) < 2 ^ 63 -> p_penalty (a_pos a) * 500 <= 18446744073709551615 ->
  let c := m_cfg (w_mkt (s_w s)) in
  has_room (s_tok s) ub (c_base_mint c) (a_owner a) (c_base_vault c) -> has_room (s_tok s) uq (c_quote_mint c) (a_owner a) (c_quote_vault c) ->
  exists s1 s2, exec e s (ICancelAll (a_owner a) k so limit) = Ok (s1, ONone) /\ exec e s1 (ISettle (a_owner a) k ub uq None) = Ok (s2, ONone).
Proof.
  intros Hr Hc Ha Hl Hb Hp c (xb & vb & B1 & B2 & B3 & B4 & B5) (xq & vq & Q1 & Q2 & Q3 & Q4 & Q5).
  destruct (cancel_all_allowed e s (a_owner a) k so limit a Hr Hc Ha (or_introl eq_refl) Hl Hb) as (s1 & gone & E & T & Et & _).
  exists s1. assert (Hr1 : reachable s1) by exact (reach_step e s _ s1 _ Hr E).
  destruct (taken_keeps _ _ _ k T a Ha) as (a1 & A1 & A2 & A3 & A4).
  assert (Em : w_mkt (s_w s1) = w_mkt (s_w s)). { clear - T. revert T. generalize (s_w s), (s_w s1). intros w w' T. induction T as [|w sd t l w1 r w2 H _ IH]; [reflexivity|]. rewrite IH. exact (to_mkt _ _ _ _ _ H). }
  assert (Ec : s_closed s1 = false).
  { rewrite (ExitFacts.cancel_all_closed e s _ _ _ _ _ _ E). exact Hc. }
  destruct (free_within s1 k a1 Hr1 A1) as (vb' & vq' & Vb & Vq & Fb & Fq). rewrite Em, Et in *. fold c in Vb, Vq. rewrite B4 in Vb. injection Vb as <-. rewrite Q4 in Vq. injection Vq as <-.
  destruct (settle_possible e s1 (ISettle (a_owner a) k ub uq None) k ub uq None a1 Hr1 Ec) as (s2 & E2).
  - left. exists (a_owner a). reflexivity.
  - exact A1.
  - cbn. left. congruence.
  - rewrite Em, Et. fold c. exists xb. split; [exact B1|]. split; [exact B2|lia].
  - rewrite Em, Et. fold c. exists xq. split; [exact Q1|]. split; [exact Q2|lia].
  - exact I.
  - rewrite A4. exact Hp.
  - rewrite Et, A2. intros x [H|H]; [rewrite B1 in H|rewrite Q1 in H]; injection H as <-; assumption.
  - exists s2. split; [exact E|exact E2].
Qed.

Lemma ts_cancel_all_works e s k a so ub uq : reachable s -> s_closed s = false -> acct_get k (w_accts (s_w s)) = Some a ->
  p_bids_base (a_pos a) + p_asks_base (a_pos a) < 2 ^ 63 -> p_penalty (a_pos a) * 500 <= 18446744073709551615 ->
  let c := m_cfg (w_mkt (s_w s)) in
  has_room (s_tok s) ub (c_base_mint c) (a_owner a) (c_base_vault c) -> has_room (s_tok s) uq (c_quote_mint c) (a_owner a) (c_quote_vault c) ->
  exists s', ts_send (mkTsClient (a_owner a) None) e s (ts_cancel_all_orders (mkTsClient (a_owner a) None) k a so ub uq None) = Ok s'.
Proof.
  intros Hr Hc Ha Hb Hp c H1 H2. destruct (cancel_then_settle e s k a so ub uq 24 Hr Hc Ha ltac:(lia) Hb Hp H1 H2) as (s1 & s2 & E1 & E2).
  exists s2. unfold ts_send, ts_cancel_all_orders, ts_cancel_all, ts_settle, ts_signatures. cbn [tc_delegate tc_wallet forallb fst mem_key existsb].
  unfold mem_key. cbn [existsb]. rewrite Z.eqb_refl. cbn [orb andb require bind ts_run]. rewrite E1. cbn [bind]. rewrite E2. reflexivity.
Qed.
Lemma rc_works e s c a ub uq : reachable s -> s_closed s = false -> acct_get (rc_account c) (w_accts (s_w s)) = Some a -> rc_owner c = a_owner a ->
  p_bids_base (a_pos a) + p_asks_base (a_pos a) < 2 ^ 63 -> p_penalty (a_pos a) * 500 <= 18446744073709551615 ->
  let g := m_cfg (w_mkt (s_w s)) in
  has_room (s_tok s) ub (c_base_mint g) (a_owner a) (c_base_vault g) -> has_room (s_tok s) uq (c_quote_mint g) (a_owner a) (c_quote_vault g) ->
  exists s1 s2 a2, exec e s (rc_cancel_all c None 24) = Ok (s1, ONone) /\ exec e s1 (rc_settle c ub uq None) = Ok (s2, ONone) /\
    (forall sd t l, In (t, l) (orders (s_w s2) sd) -> lf_owner l <> rc_account c) /\
    acct_get (rc_account c) (w_accts (s_w s2)) = Some a2 /\ p_base_free (a_pos a2) = 0 /\ p_quote_free (a_pos a2) = 0.
Proof.
  intros Hr Hc Ha Ho Hb Hp g H1 H2. destruct (cancel_then_settle e s _ a None ub uq 24 Hr Hc Ha ltac:(lia) Hb Hp H1 H2) as (s1 & s2 & E1 & E2).
  exists s1, s2. unfold rc_cancel_all, rc_settle. rewrite Ho.
  assert (Hr1 : reachable s1) by exact (reach_step e s _ s1 _ Hr E1).
  destruct (cancel_all_allowed e s (a_owner a) _ None 24 a Hr Hc Ha (or_introl eq_refl) ltac:(lia) Hb) as (s1' & gone & E & _ & _ & _ & _ & Hall).
  rewrite E1 in E. injection E as <-.
  destruct (settle_exact e s1 (ISettle (a_owner a) (rc_account c) ub uq None) (rc_account c) ub uq None s2 ONone Hr1 E2) as (a1 & Ha1 & Hst).
  { left. eexists. reflexivity. }
  destruct (st_rest _ _ _ _ _ _ _ Hst) as (B1 & B2 & _). eexists. split; [exact E1|]. split; [exact E2|]. split.
  - intros sd t l Hl Hk. rewrite (same_orders _ _ sd B1 B2) in Hl. exact (Hall ltac:(lia) sd t l Hl (conj Hk (conj I I))).
  - split; [exact (st_acct _ _ _ _ _ _ _ Hst)|]. split; reflexivity.
Qed.

(** Budgets in dollars. *)
Lemma dollars s n : reachable s -> 1 <= n -> let m := w_mkt (s_w s) in
  (forall r, rc_quote_lots_taker_usd m n = Ok r ->
     (c_taker_fee (m_cfg m) = 0 -> largest_within (c_qls (m_cfg m)) (n * 1000000) r) /\
     (2 <= c_taker_fee (m_cfg m) -> n * 1000000 < r * c_qls (m_cfg m))) /\
  (forall r, rc_quote_lots_maker_usd m n = Ok r ->
     (c_maker_fee (m_cfg m) <= 0 -> largest_within (c_qls (m_cfg m)) (n * 1000000) r) /\
     (1 <= c_maker_fee (m_cfg m) -> n * 1000000 < r * c_qls (m_cfg m))).
Proof.
  intros Hr Hn m. destruct (no_fee_within s (n * 1000000) Hr ltac:(lia)) as [N1 N2]. destruct (fee_beyond s (n * 1000000) Hr ltac:(lia)) as [B1 B2].
  fold m in N1, N2, B1, B2. change (10 ^ 6) with 1000000 in *.
  split; intros r H; unfold rc_quote_lots_taker_usd, rc_quote_lots_maker_usd in H; apply bind_ok in H as (q & Hq & H); apply chk_u64_ok in Hq as [Hq _];
    change (10 ^ 6) with 1000000 in Hq; subst q; split; intros Hf.
  - apply N1; [exact H|rewrite Hf; lia].
  - apply B1; [exact H|]. clear - Hf Hn. nia.
  - apply N2; [exact H|]. clear - Hf Hn. nia.
  - apply B2; [exact H|]. clear - Hf Hn. nia.
Qed.

(** Placing, cancelling and depositing. *)
Lemma rc_places e s c ut v g oracle a : reachable s -> trading e s oracle -> fair_place g ->
  spacious (s_w s) (pa_max_base g) (pa_max_quote g) (pa_limit g) -> (may_rest (pa_type g) = true -> side_room (s_w s) (pa_side g)) ->
  may_place s (mkPlaceCtx (rc_owner c) (rc_account c) 0 ut v []) (pa_side g) (pa_max_base g) (pa_max_quote g) a ->
  pa_self_trade g <> AbortTransaction -> pa_type g <> POPostOnlySlide -> pa_type g <> POFillOrKill ->
  exists s' out, exec e s (rc_place c ut v g) = Ok (s', out).
Proof.
  exact (plain_goes e s _ g oracle a).
Qed.
Lemma rc_cancels e s c sd t l a : reachable s -> s_closed s = false -> In (t, l) (orders (s_w s) sd) -> lf_owner l = rc_account c ->
  acct_get (rc_account c) (w_accts (s_w s)) = Some a -> rc_owner c = a_owner a -> m_seq (w_mkt (s_w s)) < 2 ^ 63 ->
  exists s', exec e s (rc_cancel c (lf_key l)) = Ok (s', ONone) /\ taken_off (s_w s) sd t l (s_w s') /\ s_tok s' = s_tok s.
Proof.
  intros Hr Hc Hl Ho Ha Hw Hq. rewrite <- Ho in Ha. destruct (cancel_allowed e s (a_owner a) sd t l a Hr Hc Hl Ha (or_introl eq_refl) Hq) as (s' & E & T & Et & _).
  exists s'. unfold rc_cancel. rewrite Hw, <- Ho. auto.
Qed.

(** ** Finding or creating an account *)
Lemma accounts_of_in addr p o : preachable addr p -> forall k a, In (k, a) (accounts_of p o) <-> exists m, account_in p m k a /\ a_owner a = o.
Proof.
  intros Hr k a. pose proof (preachable_inv _ _ Hr) as Hp. unfold accounts_of. rewrite in_flat_map. split.
  - intros ([m x] & I & H). apply filter_In in H as [H Ho]. cbn [snd fst] in *. apply (al_get_key _ _ _ (pv_keys _ Hp)) in I.
    exists m. split; [|lia]. assert (Hm : market_in p m = Some (mkSys (fst x) (p_tok p) (snd x))) by (unfold market_in; rewrite I; reflexivity).
    eexists. split; [exact Hm|]. cbn [s_w]. pose proof (market_alone _ _ _ _ Hr Hm) as R. destruct (reachable_inv _ R) as (cl & ct & P & HI).
    apply acct_in_get; [exact (ld_keys _ _ _ (iv_led _ _ _ _ _ _ HI))|exact H].
  - intros (m & (s & Hm & Ha) & Ho). unfold market_in in Hm. destruct (al_get m (p_mkts p)) as [x|] eqn:E; [|discriminate Hm]. injection Hm as <-.
    cbn [s_w] in Ha. exists (m, x). split; [|apply filter_In; split; [exact (acct_get_in _ _ _ Ha)|cbn [snd]; lia]].
    clear - E. revert E. induction (p_mkts p) as [|[k' y] l IH]; cbn [al_get]; [discriminate|]. destruct (m =? k') eqn:Ek; [|right; auto].
    intros E. injection E as ->. apply Z.eqb_eq in Ek as ->. left. reflexivity.
Qed.
Lemma max_number l : (forall k a, In (k, a) l -> 0 <= a_num a) -> l = [] \/
  exists k a, In (k, a) l /\ fold_right Z.max 0 (map (fun ka : Z * ooa => a_num (snd ka)) l) = a_num a /\ forall k' a', In (k', a') l -> a_num a' <= a_num a.
Proof.
  induction l as [|[k a] l IH]; [left; reflexivity|]. intros Hn. right. cbn [map fold_right snd].
  destruct IH as [->|(k1 & a1 & I1 & E1 & M1)]; [intros k0 a0 I0; apply (Hn k0); right; assumption| |].
  - exists k, a. split; [left; reflexivity|]. split; [cbn; pose proof (Hn k a (or_introl eq_refl)); lia|]. intros k' a' [E|[]]. injection E as _ <-. lia.
  - rewrite E1. destruct (Z.leb_spec (a_num a1) (a_num a)).
    + exists k, a. split; [left; reflexivity|]. split; [lia|]. intros k' a' [E|I0]; [injection E as _ <-; lia|specialize (M1 k' a' I0); lia].
    + exists k1, a1. split; [right; exact I1|]. split; [lia|]. intros k' a' [E|I0]; [injection E as _ <-; lia|exact (M1 k' a' I0)].
Qed.
Lemma next_number l : (forall k a, In (k, a) l -> 0 <= a_num a) ->
  (l = [] /\ rc_next_number l = 0) \/
  (exists k a, In (k, a) l /\ rc_next_number l = a_num a + 1 /\ forall k' a', In (k', a') l -> a_num a' <= a_num a).
Proof.
  intros Hn. destruct (max_number l Hn) as [->|(k & a & H & E & M)]; [left; auto|]. right. exists k, a. split; [exact H|]. split; [|exact M].
  unfold rc_next_number. destruct l; [destruct H|]. rewrite E. reflexivity.
Qed.

Lemma create_at_what addr e p k m o d nl p' : addresses_differ addr -> preachable addr p -> create_at addr e p k m o d nl = Ok p' ->
  opened addr p p' m k o d.
Proof.
  intros Hd Hr H. unfold create_at in H. apply bind_ok in H as (x & Ex & H). apply al_load_ok in Ex. apply bind_ok in H as (u & Ek & H). apply require_ok in Ek.
  apply bind_ok in H as ([p1 out] & E & H). injection H as <-. apply Z.eqb_eq in Ek.
  destruct (creates_what _ _ _ _ _ _ _ _ _ Hd Hr E) as (y & a & Ey & A1 & A2 & A3 & A4 & A5 & A6 & A7 & A8). rewrite Ex in Ey. injection Ey as <-.
  rewrite <- Ek in A2, A8. constructor.
  - intros m' b Hb. apply A8. eauto.
  - exists a. split; [exact A2|]. split; [exact A3|]. split; [exact A4|]. split; [rewrite A5; exact Ek|]. split; [unfold counted; rewrite A1, A5; reflexivity|]. split; [exact A6|exact A7].
  - intros m' k' b Hk. cbn [pexec] in E. apply bind_ok in E as (? & _ & E). apply bind_ok in E as (y & Ey & E). apply al_load_ok in Ey. rewrite Ex in Ey. injection Ey as <-.
    apply bind_ok in E as (? & _ & E). apply bind_ok in E as (? & _ & E). cbv zeta in E.
    apply bind_ok in E as (? & _ & E). apply bind_ok in E as (s & Em & E). apply load_market_in in Em. apply bind_ok in E as (? & _ & E).
    apply bind_ok in E as ([s' o'] & E & H). injection H as <- _. apply exec_create in E as (_ & _ & _ & _ & ->). rewrite <- Ek.
    apply market_in_get in Em as [Em Et]. unfold account_in, market_in. cbn [p_mkts p_set_mkt p_set_idx p_tok]. rewrite al_get_set, Em.
    cbn [s_set_w s_tok]. rewrite Et. destruct (Z.eqb_spec m' m) as [->|Hm]; [|reflexivity]. rewrite Em. cbn [option_map fst snd s_w s_set_w s_closed s_tok].
    assert (G : forall b0, acct_get k' ((k, b0) :: w_accts (s_w s)) = acct_get k' (w_accts (s_w s))) by (intros b0; cbn [acct_get]; replace (k' =? k) with false by lia; reflexivity).
    split; intros (s0 & E0 & H0); injection E0 as <-; eexists; (split; [reflexivity|]); cbn [s_w w_set_accts w_accts] in *; [rewrite G in H0|rewrite G]; exact H0.
Qed.

Lemma numbers_known addr p o : addresses_differ addr -> preachable addr p -> forall k a, In (k, a) (accounts_of p o) ->
  k = addr o (a_num a) /\ exists x, al_get o (p_idx p) = Some x /\ 1 <= a_num a <= ix_counter x /\ ix_counter x <= 4294967295.
Proof.
  intros Hd Hr k a H. apply (accounts_of_in addr p o Hr) in H as (m & Ha & <-). exact (proj2 (indexers_right addr p Hd Hr) m k a Ha).
Qed.
Lemma not_found addr p o (named : Z -> bool) : preachable addr p -> (forall k, owns p o k -> named k = false) ->
  find (fun ka : Z * ooa => named (fst ka)) (accounts_of p o) = None.
Proof.
  intros Hr Hn. destruct (find _ _) as [[k a]|] eqn:E; [|reflexivity]. exfalso. apply find_some in E as [I E]. cbn [fst] in E.
  apply (accounts_of_in addr p o Hr) in I as (m & Ha & Ho). rewrite (Hn k) in E; [discriminate E|exists m, a; auto].
Qed.
Lemma rc_creates addr e p named m o nl : addresses_differ addr -> preachable addr p -> is_authority p o = false ->
  (forall k, owns p o k -> named k = false) ->
  (exists p' k, rc_find_or_create addr e p named m o nl = Ok (p', k)) <->
  (exists x s, al_get o (p_idx p) = Some x /\ (length (ix_addrs x) < 256)%nat /\ ix_counter x < 4294967295 /\
     market_in p m = Some s /\ s_closed s = false /\ nl <= 32 /\
     exists m' k a, account_in p m' k a /\ a_owner a = o /\ a_num a = ix_counter x).
Proof.
  intros Hd Hr Ha Hn. unfold rc_find_or_create. cbv zeta. rewrite (not_found addr p o named Hr Hn).
  pose proof (numbers_known addr p o Hd Hr) as Hk.
  assert (Hpos : forall k a, In (k, a) (accounts_of p o) -> 0 <= a_num a) by (intros k a I0; destruct (Hk k a I0) as (_ & x & _ & G & _); lia).
  pose proof (next_number _ Hpos) as HN. split.
  - intros (p' & k & H). apply bind_ok in H as (u & Eu & H). apply massert_ok in Eu. apply bind_ok in H as (p1 & E & H).
    unfold create_at in E. apply bind_ok in E as (x & Ex & E). apply al_load_ok in Ex. apply bind_ok in E as (u2 & Ek & E). apply require_ok in Ek. apply Z.eqb_eq in Ek.
    apply bind_ok in E as ([p2 out] & E & _). destruct (proj1 (creates_iff addr e p m o 0 nl Hd Hr Ha) (ex_intro _ p2 (ex_intro _ out E))) as (y & s & Ey & B1 & B2 & B3 & B4 & B5).
    rewrite Ex in Ey. injection Ey as <-. exists x, s. repeat (split; [assumption|]).
    pose proof (x_cnt _ _ _ (preachable_xok _ _ Hd Hr) _ _ Ex) as Hc. unfold u32_max in Eu.
    destruct HN as [[_ HN]|(k0 & a & I0 & HN & M)].
    + rewrite HN in Ek. apply (proj1 Hd) in Ek as [_ Ek]; lia.
    + rewrite HN in Ek, Eu. destruct (Hk _ _ I0) as (_ & y & Ey & G & _). apply (proj1 Hd) in Ek as [_ Ek]; [|lia|lia].
      apply (accounts_of_in addr p o Hr) in I0 as (m' & A1 & A2). exists m', k0, a. split; [exact A1|]. split; [exact A2|lia].
  - intros (x & s & Ex & B1 & B2 & B3 & B4 & B5 & m' & k & a & A1 & A2 & A3).
    assert (I0 : In (k, a) (accounts_of p o)) by (apply (accounts_of_in addr p o Hr); eauto).
    destruct HN as [[HN _]|(k0 & a0 & I1 & HN & M)]; [rewrite HN in I0; destruct I0|].
    destruct (Hk _ _ I1) as (_ & y & Ey & G & _). rewrite Ex in Ey. injection Ey as <-. specialize (M _ _ I0).
    assert (En : rc_next_number (accounts_of p o) = ix_counter x + 1) by lia. rewrite En.
    replace (ix_counter x + 1 <=? u32_max) with true by (unfold u32_max; lia). unfold massert. cbn [bind].
    destruct (proj2 (creates_iff addr e p m o 0 nl Hd Hr Ha)) as (p' & out & E); [exists x, s; auto 8|].
    unfold create_at, al_load. rewrite Ex. cbn [bind]. rewrite Z.eqb_refl. cbn [require bind]. rewrite E. cbn [bind]. eexists. eexists. reflexivity.
Qed.
Lemma rc_created addr e p named m o nl p' k : addresses_differ addr -> preachable addr p -> (forall k, owns p o k -> named k = false) ->
  rc_find_or_create addr e p named m o nl = Ok (p', k) -> opened addr p p' m k o 0.
Proof.
  intros Hd Hr Hn H. unfold rc_find_or_create in H. cbv zeta in H. rewrite (not_found addr p o named Hr Hn) in H.
  apply bind_ok in H as (u & _ & H). apply bind_ok in H as (p1 & E & H). injection H as <- <-. exact (create_at_what _ _ _ _ _ _ _ _ _ Hd Hr E).
Qed.
Lemma rc_found addr e p named m o nl k0 : preachable addr p -> owns p o k0 -> named k0 = true ->
  exists k, rc_find_or_create addr e p named m o nl = Ok (p, k) /\ owns p o k /\ named k = true.
Proof.
  intros Hr (m0 & a0 & A1 & A2) Hn. unfold rc_find_or_create. cbv zeta.
  destruct (find _ _) as [[k a]|] eqn:E.
  - exists k. split; [reflexivity|]. apply find_some in E as [I0 E]. apply (accounts_of_in addr p o Hr) in I0 as (m' & B1 & B2). split; [exists m', a; auto|exact E].
  - exfalso. assert (I0 : In (k0, a0) (accounts_of p o)) by (apply (accounts_of_in addr p o Hr); eauto). apply (List.find_none _ _ E) in I0. cbn in I0. congruence.
Qed.

(** The TypeScript client's way. *)
Lemma ts_creates addr e p m o d nl : addresses_differ addr -> preachable addr p -> is_authority p o = false ->
  (exists p' k, ts_create addr e p m o d nl = Ok (p', k)) <->
  (exists s, market_in p m = Some s /\ s_closed s = false /\ nl <= 32 /\
     forall x, al_get o (p_idx p) = Some x -> (length (ix_addrs x) < 256)%nat /\ ix_counter x < 4294967295).
Proof.
  intros Hd Hr Ha. unfold ts_create. destruct (al_get o (p_idx p)) as [x|] eqn:Ex.
  - split.
    + intros (p' & k & H). apply bind_ok in H as (p1 & E & _). unfold create_at in E. apply bind_ok in E as (x' & _ & E). apply bind_ok in E as (u & _ & E). apply bind_ok in E as ([p2 out] & E & _).
      destruct (proj1 (creates_iff addr e p m o d nl Hd Hr Ha) (ex_intro _ p2 (ex_intro _ out E))) as (y & s & Ey & B1 & B2 & B3 & B4 & B5).
      rewrite Ex in Ey. injection Ey as <-. exists s. repeat (split; [assumption|]). intros y Ey. injection Ey as <-. auto.
    + intros (s & B3 & B4 & B5 & B). destruct (B x eq_refl) as [B1 B2].
      destruct (proj2 (creates_iff addr e p m o d nl Hd Hr Ha)) as (p' & out & E); [exists x, s; auto 8|].
      cbv zeta. unfold create_at, al_load. rewrite Ex. cbn [bind]. rewrite Z.eqb_refl. cbn [require bind]. rewrite E. cbn [bind]. eexists. eexists. reflexivity.
  - set (p1 := mkProg (p_mkts p) ((o, mkIdx 0 []) :: p_idx p) (p_tok p)).
    assert (E1 : pexec addr e p (PCreateIndexer o) = Ok (p1, ONone)) by (cbn [pexec]; rewrite Ha, Ex; reflexivity).
    assert (Hr1 : preachable addr p1) by exact (pr_step addr e p _ p1 _ Hr E1).
    assert (Ex1 : al_get o (p_idx p1) = Some (mkIdx 0 [])) by (cbn [p1 p_idx al_get]; rewrite Z.eqb_refl; reflexivity).
    rewrite E1. cbn [bind]. pose proof (creates_iff addr e p1 m o d nl Hd Hr1 Ha) as C. split.
    + intros (p' & k & H). apply bind_ok in H as (p2 & E & _). unfold create_at in E. apply bind_ok in E as (x' & _ & E). apply bind_ok in E as (u & _ & E). apply bind_ok in E as ([p3 out] & E & _).
      destruct (proj1 C (ex_intro _ p3 (ex_intro _ out E))) as (y & s & _ & _ & _ & B3 & B4 & B5). exists s. repeat (split; [assumption|]). discriminate.
    + intros (s & B3 & B4 & B5 & _). destruct (proj2 C) as (p' & out & E); [exists (mkIdx 0 []), s; cbn; repeat split; try assumption; lia|].
      cbv zeta. unfold create_at, al_load. rewrite Ex1. cbn [bind ix_counter]. change (0 + 1) with 1. rewrite Z.eqb_refl. cbn [require bind]. rewrite E. cbn [bind]. eexists. eexists. reflexivity.
Qed.
Lemma ts_created addr e p m o d nl p' k : addresses_differ addr -> preachable addr p -> ts_create addr e p m o d nl = Ok (p', k) ->
  opened addr p p' m k o d.
Proof.
  intros Hd Hr H. unfold ts_create in H. destruct (al_get o (p_idx p)) as [x|] eqn:Ex; cbv zeta in H.
  - apply bind_ok in H as (p1 & E & H). injection H as <- <-. exact (create_at_what _ _ _ _ _ _ _ _ _ Hd Hr E).
  - apply bind_ok in H as ([p1 out] & E1 & H). apply bind_ok in H as (p2 & E & H). injection H as <- <-.
    destruct (create_at_what _ _ _ _ _ _ _ _ _ Hd (pr_step _ _ _ _ _ _ Hr E1) E) as [O1 O2 O3].
    cbn [pexec] in E1. apply bind_ok in E1 as (? & _ & E1). apply bind_ok in E1 as (? & _ & E1). injection E1 as <- _. constructor; [exact O1|exact O2|exact O3].
Qed.

(** ** Fetching *)
Lemma heard_fed k min answers : forall h c c', fed h c -> refresh_until c k min answers = Ok (Some c') ->
  fed (h ++ heard c k min answers) c' /\ exists w, In w answers /\ min <= wr_slot w /\ In w (writes_of k (heard c k min answers)).
Proof.
  induction answers as [|w r IH]; intros h c c' Hf H; cbn [refresh_until heard] in *; [discriminate H|].
  destruct (update_from_rpc c k w) as [c1|] eqn:E; [|discriminate H]. cbn [bind] in H. pose proof (fed_rpc h c k w c1 Hf E) as Hf1.
  assert (Hw : forall l, In w (writes_of k (rpc_stub c w ++ [NWrite k w] ++ l))).
  { intros l. unfold writes_of. rewrite !flat_map_app. apply in_or_app. right. apply in_or_app. left. cbn. rewrite Z.eqb_refl. left. reflexivity. }
  destruct (min <=? wr_slot w) eqn:Em.
  - injection H as <-. rewrite app_nil_r. split; [exact Hf1|]. exists w. split; [left; reflexivity|]. split; [lia|]. specialize (Hw []). rewrite app_nil_r in Hw. exact Hw.
  - destruct (IH _ _ _ Hf1 H) as (F & v & V1 & V2 & V3). split; [rewrite <- !app_assoc in F; exact F|].
    exists v. split; [right; exact V1|]. split; [exact V2|]. unfold writes_of in *. rewrite !flat_map_app. apply in_or_app. right. apply in_or_app. right. exact V3.
Qed.
Lemma newest_bounds P l w x : newest P l w -> In x l -> P x -> wr_slot x <= wr_slot w.
Proof.
  intros (_ & l1 & l2 & -> & H1 & H2) I0 Hp. apply in_app_or in I0 as [I0|[->|I0]]; [exact (H1 x I0 Hp)|lia|specialize (H2 x I0 Hp); lia].
Qed.
Lemma refreshed h c k min ws c' : fed h c -> refresh_until c k min ws = Ok (Some c') ->
  let h' := h ++ heard c k min ws in
  fed h' c' /\ exists w, In w ws /\ min <= wr_slot w /\
  (orderly h' -> counts h' (wr_slot w) -> exists v, account_and_slot c' k = Some v /\ min <= wr_slot v /\ newest (fun x => counts h' (wr_slot x)) (writes_of k h') v).
Proof.
  intros Hf H h'. destruct (heard_fed k min ws h c c' Hf H) as (F & w & W1 & W2 & W3). fold h' in F. split; [exact F|].
  exists w. split; [exact W1|]. split; [exact W2|]. intros Ho Hc. pose proof (answers h' c' k F Ho) as A.
  assert (W : In w (writes_of k h')) by (unfold h', writes_of; rewrite flat_map_app; apply in_or_app; right; exact W3).
  destruct (account_and_slot c' k) as [v|]; [|exfalso; exact (A w W Hc)].
  exists v. split; [reflexivity|]. split; [|exact A]. pose proof (newest_bounds _ _ _ _ A W Hc). lia.
Qed.

Lemma orderly_prefix l : forall h, orderly (h ++ l) -> orderly h.
Proof.
  induction l as [|n l IH]; intros h H; [rewrite app_nil_r in H; exact H|].
  apply (orderly_inv h n). apply IH. rewrite <- app_assoc. exact H.
Qed.
Lemma fetched h c k w c' r : fed h c -> fetch_fresh c k w = Ok (c', r) -> let h' := h ++ rpc_stub c w ++ [NWrite k w] in orderly h' ->
  fed h' c' /\ r = account_and_slot c' k /\
  (counts h' (wr_slot w) -> exists v, r = Some v /\ wr_slot w <= wr_slot v /\ newest (fun x => counts h' (wr_slot x)) (writes_of k h') v) /\
  (head_in h < wr_slot w -> counts h' (wr_slot w)).
Proof.
  intros Hf H h' Ho. unfold fetch_fresh in H. apply bind_ok in H as (c1 & E & H). injection H as <- <-. pose proof (fed_rpc h c k w c1 Hf E) as F. fold h' in F.
  split; [exact F|]. split; [reflexivity|]. split.
  - intros Hc. pose proof (answers h' c1 k F Ho) as A.
    assert (W : In w (writes_of k h')) by (unfold h', writes_of; rewrite !flat_map_app; apply in_or_app; right; apply in_or_app; right; cbn; rewrite Z.eqb_refl; left; reflexivity).
    destruct (account_and_slot c1 k) as [v|]; [|exfalso; exact (A w W Hc)].
    exists v. split; [reflexivity|]. split; [exact (newest_bounds _ _ _ _ A W Hc)|exact A].
  - intros Hh. assert (Hoh : orderly h) by exact (orderly_prefix _ _ Ho). assert (Eb : cd_best c = head_in h) by exact (t_best _ _ (fed_tracks h c Hf Hoh)).
    unfold h', rpc_stub in *. replace (cd_best c <? wr_slot w) with true in * by lia. left.
    split; [eexists; split; [apply in_or_app; right; left; reflexivity|reflexivity]|]. left.
    replace (head_in _) with (wr_slot w); [constructor|]. rewrite app_assoc, !head_in_snoc. cbn [sd_parent sd_slot]. destruct (Z.ltb_spec (head_in h) (wr_slot w)); lia.
Qed.
