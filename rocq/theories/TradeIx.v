(** What the sender of an order pays and gets, by instruction. *)
From Coq Require Import ZArith List Bool Lia ZifyBool.
From Verif Require Import Base Nodes OrderTree BookSide Heap Market OpenOrders Order Book Instructions
  BaseFacts TreeRep TreeFacts SpecBook BookSideFacts SpecFees SpecOrder MatchFacts MatchBook FeeFacts OrderFacts PlaceFacts BookSpecProofs OrderSpecProofs OrderClaims
  Steps StepFacts SpecSystem TokenFacts SystemFacts Solvency ControlFacts LifeFacts IdFacts AuthFacts SpecInstr SpecTrade TradeFacts.
Import ListNotations.
Open Scope Z_scope.

(** ** The account behind an order that only takes *)
Lemma effects_spare o taker owner rem now k w acts w' : effects o taker owner rem now w acts w' ->
  (forall a, In a acts -> lf_owner (im_leaf (act_item a)) <> k) -> acct_get k (w_accts w') = acct_get k (w_accts w).
Proof.
  induction 1 as [w|w a w1 r w2 He _ IH]; intros Hk; [reflexivity|]. rewrite IH by (intros b Hb; apply Hk; right; exact Hb).
  specialize (Hk a (or_introl eq_refl)). destruct He as [w i q b b' m' _ _ _|w i q h _|w i w' Hd|w i b b' _ _ _]; cbn [act_item] in Hk.
  - cbn [w_set_acct w_set_accts w_set_mkt w_accts]. apply acct_get_set_other. congruence.
  - reflexivity.
  - destruct Hd; [|reflexivity]. cbn [w_set_acct w_set_accts w_set_mkt w_accts]. apply acct_get_set_other. congruence.
  - cbn [w_set_acct w_set_accts w_set_mkt w_accts]. apply acct_get_set_other. congruence.
Qed.

Definition credited (sd : side) (r : order_amounts) (p p' : position) : Prop :=
  match sd with
  | Bid => p_base_free p' = p_base_free p + oa_base_taken r /\ p_quote_free p' = p_quote_free p
  | Ask => p_base_free p' = p_base_free p /\ p_quote_free p' = p_quote_free p + (oa_quote_taken r - oa_taker_fees r)
  end /\ p_rebates p' = p_rebates p + oa_referrer r.

Lemma taker_account w o oracle k now limit rem w' r a :
  sound_call w o (Some k) k -> post_target o = None -> stranger w (invert_side (o_side o)) (Some k) ->
  acct_get k (w_accts w) = Some a -> new_order w o oracle (Some k) k now limit rem = Ok (w', r) ->
  exists a', acct_get k (w_accts w') = Some a' /\ credited (o_side o) r (a_pos a) (a_pos a').
Proof.
  intros Hsc Hpt Hst Ha H. pose proof Hsc as [Hc Hsd Hso Htk]. pose proof Hso as [Hb0 Hq0 _].
  destruct (sc_other_fits _ _ _ _ Hsc) as (T & Hf & _).
  destruct (new_order_inv _ _ _ _ _ _ _ _ _ _ _ Hf Htk Hc Hb0 Hq0 H)
    as (price & pd & maxq & acts & ms & lf & w2 & bt & qt & tf & ra & rq & mf & b2 & T2 & Hpl & Hfin).
  destruct (placed_numbers _ _ _ _ _ _ _ _ _ _ _ _ _ _ _ _ _ _ _ _ _ _ _ _ Hsc Hf Hpl)
    as (Haf & Eb & Eq & Hb & Hq & Hbl & Hql & Ebt & Eqt & Bbt & Bqt & Etf & Erq & Ecfg & Eseq & Ebk & Hef & Hqu).
  pose proof Hpl as [_ _ _ _ _ Htr Hset _ _ _ _ _].
  pose proof (lt_sub _ _ _ _ _ _ _ _ _ _ _ Htr) as Hsub.
  pose proof (lt_amounts _ _ _ _ _ _ Htk _ _ _ _ _ Htr) as (_ & _ & A3 & _).
  cbn [start_ms ms_dec] in A3. rewrite Z.add_0_l in A3.
  pose proof (own_quote_bounds _ _ _ _ _ Haf) as [Hown _].
  assert (E1 : acct_get k (w_accts (ms_w ms)) = Some a).
  { rewrite (effects_spare _ _ _ _ _ k _ _ _ Hef); [exact Ha|]. intros b Hb' Eo.
    pose proof (merged_on_book _ _ _ _ _ (ft_ok _ _ _ Hf) Hsub) as Hon. rewrite Forall_forall in Hon. specialize (Hon b Hb').
    unfold on_book in Hon. apply oitems_leaf in Hon. apply (in_orders _ _ _ _ _ _ Hf eq_refl) in Hon. exact (Hst _ _ Hon Eo). }
  assert (Ecm : m_cfg (w_mkt (ms_w ms)) = m_cfg (w_mkt w)) by exact (proj1 (proj2 (proj2 (effects_rest _ _ _ _ _ _ _ _ Hef)))).
  assert (Hfr : w' = w_set_book w2 (invert_side (o_side o)) b2 /\ r = mkAmounts None 0 0 bt qt tf 0 ra).
  { destruct Hfin as [_|t w4 pb pq mfees _ Ht _ _]; [split; reflexivity|exfalso].
    destruct (lt_target _ _ _ _ _ _ _ _ _ _ _ Htr) as [E|E]; [cbn [start_ms ms_target] in E|]; congruence. }
  destruct Hfr as [-> ->].
  assert (Ew : w_accts (w_set_book w2 (invert_side (o_side o)) b2) = w_accts w2) by (destruct (o_side o); reflexivity). rewrite Ew.
  apply settle_taker_inv in Hset; [|rewrite Ecm; exact Hc|exact Hq|lia]. cbv zeta in Hset.
  destruct Hset as (K1 & K2 & K3 & K4 & _ & _ & K5 & K6 & K7 & _ & K8).
  unfold credited. cbn [oa_base_taken oa_quote_taken oa_taker_fees oa_referrer].
  destruct ((0 <? maxq - ms_quote ms) || (0 <? o_max_base o - ms_base ms)) eqn:Ed.
  - destruct K8 as (m1 & _ & a0 & a' & m' & G1 & G2 & ->). rewrite E1 in G1. injection G1 as <-.
    exists a'. split; [cbn [w_set_acct w_set_accts w_set_mkt w_accts]; eapply acct_get_set_same; exact E1|].
    unfold execute_taker in G2. cbv zeta in G2. apply bind_ok in G2 as (p1 & X & G2).
    apply bind_ok in G2 as (tv & Y1 & G2). apply bind_ok in G2 as (rb & Y2 & G2). apply chk_u64_ok in Y2 as [-> _].
    apply bind_ok in G2 as (mr & _ & G2). injection G2 as <- _.
    destruct (o_side o).
    + apply bind_ok in X as (b & X1 & X). apply chk_u64_ok in X1 as [-> _]. injection X as <-. cbn. split; [split; reflexivity|reflexivity].
    + apply bind_ok in X as (b & X1 & X). apply chk_u64_ok in X1 as [-> _]. apply bind_ok in X as (c & X1 & X). apply chk_u64_ok in X1 as [-> _]. injection X as <-. cbn. split; [split; reflexivity|reflexivity].
  - subst w2. exists a. split; [exact E1|].
    assert (Z1 : maxq - ms_quote ms = 0) by lia. assert (Z2 : o_max_base o - ms_base ms = 0) by lia.
    assert (Hd0 : ms_dec ms = 0) by lia.
    rewrite Z1, Hd0 in K5, K6. rewrite Z1 in K4. rewrite Z2 in K3. rewrite Z.mul_0_l in *. cbn [Z.sub Z.mul] in K5, K6.
    assert (Et : tf = 0). { rewrite K5. unfold taker_pays, fee_up. rewrite Z.mul_0_l. reflexivity. }
    cbn in K6. subst ra qt bt tf. rewrite Et. destruct (o_side o); lia.
Qed.

(** ** Instructions *)
Lemma transfer_wallet t d from to auth t' v : token_transfer t d from to auth = Ok t' -> t v <> None -> 0 <= d ->
  match t' v with Some y => t_amount y | None => 0 end =
  match t v with Some y => t_amount y | None => 0 end + ((if v =? to then d else 0) - (if v =? from then d else 0)).
Proof.
  intros H Hv Hd. pose proof (transfer_effect _ _ _ _ _ _ H v) as G. destruct (t v) as [x|]; [|contradiction].
  destruct G as [-> _]. cbn [t_amount]. unfold moved. rewrite Z.max_r by lia. reflexivity.
Qed.
Lemma transfer_there t d from to auth t' v : token_transfer t d from to auth = Ok t' -> t v <> None -> t' v <> None.
Proof. intros H Hv. pose proof (transfer_effect _ _ _ _ _ _ H v) as G. destruct (t v); [|contradiction]. destruct G as [-> _]. discriminate. Qed.

Lemma take_types g o : order_of_take_args g = Ok o -> post_target o = None /\ o_side o = ta_side g /\
  o_max_base o = ta_max_base g /\ o_max_quote o = ta_max_quote g.
Proof.
  unfold order_of_take_args. intros H. apply bind_ok in H as (u & _ & H). apply bind_ok in H as (ps & E & H). injection H as <-.
  cbn [o_side o_max_base o_max_quote]. split; [|auto]. unfold post_target. cbn [o_params].
  destruct (ta_type g); try discriminate E; injection E as <-; reflexivity.
Qed.

(** A direct take order: the money that moves. *)
Lemma take_money e s x g s' out : reachable s -> exec e s (IPlaceTake x g) = Ok (s', out) ->
  owns s (tx_signer x) (tx_user_base x) -> owns s (tx_signer x) (tx_user_quote x) ->
  exists o oracle w1 r, order_of_take_args g = Ok o /\ oracle_input (w_mkt (s_w s)) e = Ok oracle /\
    sound_call (s_w s) o None (tx_signer x) /\
    new_order (s_w s) o oracle None (tx_signer x) (e_now e) (ta_limit g) (tx_rem x) = Ok (w1, r) /\
    (forall sd, w_book (s_w s') sd = w_book w1 sd) /\
    in_wallet s' (tx_user_base x) - in_wallet s (tx_user_base x) = match ta_side g with Bid => oa_base_taken r | Ask => - oa_base_taken r end /\
    in_wallet s' (tx_user_quote x) - in_wallet s (tx_user_quote x) =
      match ta_side g with
      | Bid => - (oa_quote_taken r + (oa_taker_fees r - oa_referrer r))
      | Ask => oa_quote_taken r - (oa_taker_fees r - oa_referrer r)
      end.
Proof.
  intros Hr H Ob Oq. pose proof (reachable_sound _ Hr) as Hs. pose proof (reachable_funded _ Hr) as [[V1 V2] [Fb Fq]].
  unfold exec in H. destruct (s_closed s && needs_market (IPlaceTake x g)); [discriminate H|]. unfold exec_open in H. cbv zeta in H.
  apply bind_ok in H as (u1 & Ec & H). apply check_take_ok in Ec as [Ec _].
  apply bind_ok in H as (u2 & Ek & H). apply bind_ok in H as (u3 & Ea & H). apply neq_of_require in Ea.
  apply bind_ok in H as (o & Eo & H). unfold lift_s in H. apply bind_ok in H as (s1 & E & H). injection H as <- _.
  pose proof (order_of_take_sane _ _ Ec Eo) as Hps. destruct (take_types _ _ Eo) as (_ & Esd & _).
  unfold place_take_ix in E. cbv zeta in E. apply bind_ok in E as (u4 & R1 & E). apply bind_ok in E as (u5 & R2 & E). apply require_ok in R1, R2.
  apply bind_ok in E as (u6 & _ & E). apply bind_ok in E as (now & En & E).
  assert (now = e_now e) as -> by (unfold now_u64 in En; apply bind_ok in En as (? & _ & En); congruence).
  apply bind_ok in E as (oracle & Eor & E). apply bind_ok in E as (u7 & _ & E). apply bind_ok in E as ([w1 r] & Hn & E).
  assert (Hsc : sound_call (s_w s) o None (tx_signer x)).
  { apply sound_call_of; [exact Hs| |right; reflexivity]. constructor; [lia|lia|exact Hps]. }
  exists o, oracle, w1, r. split; [exact Eo|]. split; [exact Eor|]. split; [exact Hsc|]. split; [exact Hn|].
  (* the accounts differ *)
  unfold take_constraints in Ek. cbv zeta in Ek. apply bind_ok in Ek as (u8 & _ & Ek). apply bind_ok in Ek as (u9 & M1 & M2).
  unfold check_mint in M1, M2. apply bind_ok in M1 as (ab & Xb & M1). apply tok_load_ok in Xb. apply bind_ok in M1 as (vb & Yb & M1). apply tok_load_ok in Yb. apply require_ok in M1.
  apply bind_ok in M2 as (aq & Xq & M2). apply tok_load_ok in Xq. apply bind_ok in M2 as (vq & Yq & M2). apply tok_load_ok in Yq. apply require_ok in M2.
  destruct Fb as (fb & Gb & Gbo & Gbm & _). destruct Fq as (fq & Gq & Gqo & Gqm & _).
  destruct Ob as (ob & Kb & Kbo). destruct Oq as (oq & Kq & Kqo).
  set (ub := tx_user_base x) in *. set (uq := tx_user_quote x) in *. set (c := m_cfg (w_mkt (s_w s))) in *.
  set (vb' := c_base_vault c) in *. set (vq' := c_quote_vault c) in *.
  assert (N1 : ub <> vb') by (intros F; rewrite F in *; congruence). assert (N2 : ub <> vq') by (intros F; rewrite F in *; congruence).
  assert (N3 : uq <> vb') by (intros F; rewrite F in *; congruence). assert (N4 : uq <> vq') by (intros F; rewrite F in *; congruence).
  assert (N5 : ub <> uq). { intros F. rewrite F in *. rewrite Xb in Xq. injection Xq as <-. rewrite Yb in Gb. injection Gb as <-. rewrite Yq in Gq. injection Gq as <-. lia. }
  apply bind_ok in E as (reb & Xr & E). apply chk_u64_ok in Xr as [-> Rr].
  assert (Hbt : 0 <= oa_base_taken r /\ 0 <= oa_quote_taken r).
  { destruct (new_order_full _ _ _ _ _ _ _ _ _ _ Hsc Hn) as (T & T0 & pr & pd & mq & acts & ms & lf & w2 & bt & qt & tf & ra & rq & mf & b2 & T2 & T3 & gone & put & Hf & _ & Hpl & _ & R5 & R6 & _).
    pose proof (placed_numbers _ _ _ _ _ _ _ _ _ _ _ _ _ _ _ _ _ _ _ _ _ _ _ _ Hsc Hf Hpl) as Hnum. cbv zeta in Hnum.
    destruct Hnum as (_ & _ & _ & _ & _ & Q1 & Q2 & Q3 & Q4 & _). rewrite R5, R6, Q3, Q4.
    pose proof (sc_cfg _ _ _ _ Hsc) as [C1 C2 _ _ _]. unfold bls, qls. split; apply Z.mul_nonneg_nonneg; lia. }
  rewrite Esd in E. unfold in_wallet. destruct (ta_side g).
  - apply bind_ok in E as (q & Xq1 & E). apply chk_u64_ok in Xq1 as [-> Rq]. do 2 (apply bind_ok in E as (? & _ & E)).
    apply bind_ok in E as (t1 & T1 & E). apply bind_ok in E as (t2 & T2 & E). injection E as <-. cbn [s_w s_tok].
    split; [intros []; reflexivity|].
    assert (L1 : s_tok s ub <> None) by congruence. assert (L2 : s_tok s uq <> None) by congruence.
    pose proof (transfer_there _ _ _ _ _ _ _ T1 L1) as L3. pose proof (transfer_there _ _ _ _ _ _ _ T1 L2) as L4.
    rewrite (transfer_wallet _ _ _ _ _ _ ub T2 L3), (transfer_wallet _ _ _ _ _ _ uq T2 L4) by lia.
    rewrite (transfer_wallet _ _ _ _ _ _ ub T1 L1), (transfer_wallet _ _ _ _ _ _ uq T1 L2) by lia.
    rewrite !Z.eqb_refl. rewrite (proj2 (Z.eqb_neq ub vb') N1), (proj2 (Z.eqb_neq ub vq') N2), (proj2 (Z.eqb_neq uq vb') N3), (proj2 (Z.eqb_neq uq vq') N4),
      (proj2 (Z.eqb_neq ub uq) N5), (proj2 (Z.eqb_neq uq ub) (not_eq_sym N5)). split; lia.
  - apply bind_ok in E as (q & Xq1 & E). apply chk_u64_ok in Xq1 as [-> Rq]. do 2 (apply bind_ok in E as (? & _ & E)).
    apply bind_ok in E as (t1 & T1 & E). apply bind_ok in E as (t2 & T2 & E). injection E as <-. cbn [s_w s_tok].
    split; [intros []; reflexivity|].
    assert (L1 : s_tok s ub <> None) by congruence. assert (L2 : s_tok s uq <> None) by congruence.
    pose proof (transfer_there _ _ _ _ _ _ _ T1 L1) as L3. pose proof (transfer_there _ _ _ _ _ _ _ T1 L2) as L4.
    rewrite (transfer_wallet _ _ _ _ _ _ ub T2 L3), (transfer_wallet _ _ _ _ _ _ uq T2 L4) by lia.
    rewrite (transfer_wallet _ _ _ _ _ _ ub T1 L1), (transfer_wallet _ _ _ _ _ _ uq T1 L2) by lia.
    rewrite !Z.eqb_refl. rewrite (proj2 (Z.eqb_neq ub vb') N1), (proj2 (Z.eqb_neq ub vq') N2), (proj2 (Z.eqb_neq uq vb') N3), (proj2 (Z.eqb_neq uq vq') N4),
      (proj2 (Z.eqb_neq ub uq) N5), (proj2 (Z.eqb_neq uq ub) (not_eq_sym N5)). split; lia.
Qed.

Lemma args_types now g o : takes_only (pa_type g) = true -> order_of_args now g = Ok (Some o) ->
  post_target o = None /\ o_side o = pa_side g.
Proof.
  unfold order_of_args. intros Ht H. apply bind_ok in H as (u & _ & H). destruct (tif_from_expiry now (pa_expiry g)); [|discriminate H].
  apply bind_ok in H as (ps & E & H). injection H as <-. cbn [o_side]. split; [|reflexivity]. unfold post_target. cbn [o_params].
  unfold params_of in E. destruct (pa_type g); try discriminate Ht; injection E as <-; reflexivity.
Qed.

(** An order through an account that only takes: the money that moves. *)
Lemma place_money e s x g s' out : reachable s -> takes_only (pa_type g) = true ->
  stranger (s_w s) (invert_side (pa_side g)) (Some (px_acct x)) ->
  exec e s (IPlaceOrder x g) = Ok (s', out) ->
  exists oo, order_of_args (e_now e) g = Ok oo /\
  match oo with
  | None => s' = s
  | Some o => exists oracle w1 r, oracle_input (w_mkt (s_w s)) e = Ok oracle /\
    sound_call (s_w s) o (Some (px_acct x)) (px_acct x) /\
    new_order (s_w s) o oracle (Some (px_acct x)) (px_acct x) (e_now e) (pa_limit g) (px_rem x) = Ok (w1, r) /\
    (forall sd, w_book (s_w s') sd = w_book w1 sd) /\
    purse_base s' x (pa_side g) - purse_base s x (pa_side g) = match pa_side g with Bid => oa_base_taken r | Ask => - oa_base_taken r end /\
    purse_quote s' x (pa_side g) - purse_quote s x (pa_side g) =
      match pa_side g with Bid => - (oa_quote_taken r + oa_taker_fees r) | Ask => oa_quote_taken r - oa_taker_fees r end /\
    for_referrer s' (px_acct x) - for_referrer s (px_acct x) = oa_referrer r
  end.
Proof.
  intros Hr Ht Hst H. pose proof (reachable_sound _ Hr) as Hs. pose proof (reachable_funded _ Hr) as [[V1 V2] [Fb Fq]].
  unfold exec in H. destruct (s_closed s && needs_market (IPlaceOrder x g)); [discriminate H|]. unfold exec_open in H. cbv zeta in H.
  apply bind_ok in H as (u1 & Ec & H). apply check_place_ok in Ec as [Ec _].
  apply bind_ok in H as (u2 & Ek & H). apply unit_ok in Ek. apply bind_ok in H as (now & En & H).
  assert (now = e_now e) as -> by (unfold now_u64 in En; apply bind_ok in En as (? & _ & En); congruence).
  apply bind_ok in H as (oo & Eo & H). exists oo. split; [exact Eo|]. destruct oo as [o|]; [|injection H as <- _; reflexivity].
  unfold lift_id in H. apply bind_ok in H as ([s1 id] & E & H). injection H as <- _.
  pose proof (order_of_args_sane _ _ _ Ec Eo) as Hps. destruct (args_types _ _ _ Ht Eo) as (Hpt & Esd).
  destruct (place_ix_inv _ _ _ _ _ _ _ E) as (R1 & R2 & Ev & _ & oracle & w1 & r & w2 & d & t & _ & Eor & Hn & Hlk & Htr & -> & _).
  assert (Hsc : sound_call (s_w s) o (Some (px_acct x)) (px_acct x)).
  { apply sound_call_of; [exact Hs| |left; reflexivity]. constructor; [lia|lia|exact Hps]. }
  exists oracle, w1, r. split; [exact Eor|]. split; [exact Hsc|]. split; [exact Hn|].
  unfold place_constraints in Ek. cbv zeta in Ek. apply bind_ok in Ek as (a & Ea & Ek). apply acct_load_ok in Ea.
  apply bind_ok in Ek as (u3 & _ & Ek). apply bind_ok in Ek as (u4 & N & Ek). apply neq_of_require in N.
  apply bind_ok in Ek as (u5 & M & _). unfold check_mint in M. apply bind_ok in M as (au & Xu & M). apply tok_load_ok in Xu.
  rewrite <- Esd in Hst.
  destruct (taker_account _ _ _ _ _ _ _ _ _ _ Hsc Hpt Hst Ea Hn) as (a1 & Ea1 & Hcr).
  destruct (lock_funds_inv _ _ _ _ _ _ _ Hlk) as (b & m' & p' & Eb & (D0 & D1 & pen & _ & D2) & ->).
  rewrite Ea1 in Eb. injection Eb as <-.
  split; [intros []; reflexivity|].
  assert (Hput : oa_posted_base r = 0 /\ oa_posted_quote r = 0 /\ oa_maker_fees r = 0).
  { destruct (take_only_types _ _ _ _ _ _ _ _ _ _ Hsc Hn Hpt) as (items & acts & Hex & _).
    pose proof (ex_put _ _ _ _ _ _ _ _ _ _ _ _ _ Hex) as (_ & P1 & P2 & P3). auto. }
  destruct Hput as (P1 & P2 & P3).
  unfold purse_base, purse_quote, free_base, free_quote, for_referrer, in_wallet. cbn [s_w s_tok w_set_acct w_set_accts w_set_mkt w_accts].
  rewrite (acct_get_set_same _ _ _ _ Ea1), Ea. cbn [a_set_pos a_pos].
  assert (L : s_tok s (px_user_token x) <> None) by congruence.
  rewrite (transfer_wallet _ _ _ _ _ _ (px_user_token x) Htr L) by exact D0. rewrite Z.eqb_refl.
  (* paying from the vault itself moves nothing *)
  assert (Hv : (if px_user_token x =? px_vault x then d else 0) = 0).
  { destruct (Z.eqb_spec (px_user_token x) (px_vault x)) as [F|]; [|reflexivity]. destruct (Z.eq_dec d 0) as [|Hd]; [assumption|exfalso].
    pose proof (transfer_effect _ _ _ _ _ _ Htr (px_user_token x)) as G. rewrite Xu in G. destruct G as [_ G]. destruct (G ltac:(lia) eq_refl) as [G1 _].
    unfold vault_by_side in Ev. destruct Fb as (fb & Gb & Gbo & _). destruct Fq as (fq & Gq & Gqo & _).
    destruct (o_side o); rewrite <- Ev in F; rewrite F in Xu; congruence. }
  rewrite Hv. unfold credited in Hcr. rewrite Esd in *. unfold cost_of in D1, D2. destruct (pa_side g).
  - destruct D2 as [_ ->]. destruct Hcr as [[B1 B2] B3].
    cbn [p_set_penalty p_set_quote_free p_base_free p_quote_free p_rebates]. lia.
  - destruct D2 as [_ ->]. destruct Hcr as [[B1 B2] B3].
    cbn [p_set_penalty p_set_base_free p_base_free p_quote_free p_rebates]. lia.
Qed.

Lemma own_side_kept w o oracle tk ow now limit rem w' r : sound_call w o tk ow -> post_target o = None ->
  new_order w o oracle tk ow now limit rem = Ok (w', r) -> orders w' (o_side o) = orders w (o_side o).
Proof.
  intros Hsc Hpt H. destruct (new_order_full _ _ _ _ _ _ _ _ _ _ Hsc H) as (T & T0 & pr & pd & mq & acts & ms & lf & w2 & bt & qt & tf & ra & rq & mf & b2 & T2 & T3 & gone & put &
    Hf & Hf0 & Hpl & Hex & _ & _ & _ & _ & _ & _ & Hf3 & HP & _).
  pose proof Hsc as [Hc Hsd Hso Htk]. pose proof Hso as [Hb0 Hq0 _].
  destruct (new_order_inv _ _ _ _ _ _ _ _ _ _ _ Hf Htk Hc Hb0 Hq0 H)
    as (price' & pd' & maxq' & acts' & ms' & lf' & w2' & bt' & qt' & tf' & ra' & rq' & mf' & b2' & T2' & Hpl' & Hfin).
  destruct (placed_numbers _ _ _ _ _ _ _ _ _ _ _ _ _ _ _ _ _ _ _ _ _ _ _ _ Hsc Hf Hpl')
    as (_ & _ & _ & _ & _ & _ & _ & _ & _ & _ & _ & _ & _ & _ & _ & Ebk & _).
  pose proof Hpl' as [_ _ _ _ _ Htr _ _ _ _ _ _].
  destruct Hfin as [_|t w4 pb pq mfees _ Ht _ _].
  2:{ exfalso. destruct (lt_target _ _ _ _ _ _ _ _ _ _ _ Htr) as [E|E]; [cbn [start_ms ms_target] in E|]; congruence. }
  unfold orders. assert (E : w_book (w_set_book w2' (invert_side (o_side o)) b2') (o_side o) = w_book w (o_side o)).
  { rewrite <- Ebk. destruct (o_side o); reflexivity. }
  rewrite E. reflexivity.
Qed.
Lemma orders_of_books w w' sd : w_book w sd = w_book w' sd -> orders w sd = orders w' sd.
Proof. intros E. unfold orders. rewrite E. reflexivity. Qed.
Lemma two_sides (P : side -> Prop) s : P s -> P (invert_side s) -> forall sd, P sd.
Proof. destruct s; intros H1 H2 []; assumption. Qed.

Lemma direct_same e s x1 x2 g s1 s2 out1 out2 : reachable s ->
  exec e s (IPlaceTake x1 g) = Ok (s1, out1) -> exec e s (IPlaceTake x2 g) = Ok (s2, out2) ->
  owns s (tx_signer x1) (tx_user_base x1) -> owns s (tx_signer x1) (tx_user_quote x1) ->
  owns s (tx_signer x2) (tx_user_base x2) -> owns s (tx_signer x2) (tx_user_quote x2) ->
  in_wallet s1 (tx_user_base x1) - in_wallet s (tx_user_base x1) = in_wallet s2 (tx_user_base x2) - in_wallet s (tx_user_base x2) /\
  in_wallet s1 (tx_user_quote x1) - in_wallet s (tx_user_quote x1) = in_wallet s2 (tx_user_quote x2) - in_wallet s (tx_user_quote x2) /\
  forall sd, orders (s_w s1) sd = orders (s_w s2) sd.
Proof.
  intros Hr H1 H2 O1 O2 O3 O4.
  destruct (take_money _ _ _ _ _ _ Hr H1 O1 O2) as (o & oracle & w1 & r1 & Eo & Eor & C1 & N1 & B1 & M1 & M2).
  destruct (take_money _ _ _ _ _ _ Hr H2 O3 O4) as (o' & oracle' & w2 & r2 & Eo' & Eor' & C2 & N2 & B2 & M3 & M4).
  rewrite Eo in Eo'. injection Eo' as <-. rewrite Eor in Eor'. injection Eor' as <-.
  destruct (take_types _ _ Eo) as (Hpt & Esd & _).
  destruct (same_trade _ _ o o _ _ _ _ _ _ _ _ _ _ _ _ _ (conj eq_refl (conj eq_refl (conj eq_refl eq_refl))) C1 C2 eq_refl eq_refl I I N1 N2) as [[D1 D2 D3 D4 _ _ _ _] Ho].
  split; [rewrite M1, M3, D1; reflexivity|]. split; [rewrite M2, M4, D2, D3, D4; reflexivity|].
  apply (two_sides _ (o_side o)).
  - rewrite (orders_of_books _ w1 _ (B1 _)), (orders_of_books _ w2 _ (B2 _)).
    rewrite (own_side_kept _ _ _ _ _ _ _ _ _ _ C1 Hpt N1), (own_side_kept _ _ _ _ _ _ _ _ _ _ C2 Hpt N2). reflexivity.
  - rewrite (orders_of_books _ w1 _ (B1 _)), (orders_of_books _ w2 _ (B2 _)). exact Ho.
Qed.

Lemma through_same e s x1 x2 g s1 s2 out1 out2 : reachable s -> takes_only (pa_type g) = true ->
  stranger (s_w s) (invert_side (pa_side g)) (Some (px_acct x1)) -> stranger (s_w s) (invert_side (pa_side g)) (Some (px_acct x2)) ->
  exec e s (IPlaceOrder x1 g) = Ok (s1, out1) -> exec e s (IPlaceOrder x2 g) = Ok (s2, out2) ->
  purse_base s1 x1 (pa_side g) - purse_base s x1 (pa_side g) = purse_base s2 x2 (pa_side g) - purse_base s x2 (pa_side g) /\
  purse_quote s1 x1 (pa_side g) - purse_quote s x1 (pa_side g) = purse_quote s2 x2 (pa_side g) - purse_quote s x2 (pa_side g) /\
  forall sd, orders (s_w s1) sd = orders (s_w s2) sd.
Proof.
  intros Hr Ht S1 S2 H1 H2.
  destruct (place_money _ _ _ _ _ _ Hr Ht S1 H1) as (oo & Eo & Q1). destruct (place_money _ _ _ _ _ _ Hr Ht S2 H2) as (oo' & Eo' & Q2).
  rewrite Eo in Eo'. injection Eo' as <-. destruct oo as [o|].
  2:{ subst s1 s2. split; [lia|]. split; [lia|]. reflexivity. }
  destruct Q1 as (oracle & w1 & r1 & Eor & C1 & N1 & B1 & M1 & M2 & _). destruct Q2 as (oracle' & w2 & r2 & Eor' & C2 & N2 & B2 & M3 & M4 & _).
  rewrite Eor in Eor'. injection Eor' as <-. destruct (args_types _ _ _ Ht Eo) as (Hpt & Esd). rewrite <- Esd in S1, S2.
  destruct (same_trade _ _ o o _ _ _ _ _ _ _ _ _ _ _ _ _ (conj eq_refl (conj eq_refl (conj eq_refl eq_refl))) C1 C2 eq_refl eq_refl S1 S2 N1 N2) as [[D1 D2 D3 D4 _ _ _ _] Ho].
  split; [rewrite M1, M3, D1; reflexivity|]. split; [rewrite M2, M4, D2, D3; reflexivity|].
  apply (two_sides _ (o_side o)).
  - rewrite (orders_of_books _ w1 _ (B1 _)), (orders_of_books _ w2 _ (B2 _)).
    rewrite (own_side_kept _ _ _ _ _ _ _ _ _ _ C1 Hpt N1), (own_side_kept _ _ _ _ _ _ _ _ _ _ C2 Hpt N2). reflexivity.
  - rewrite (orders_of_books _ w1 _ (B1 _)), (orders_of_books _ w2 _ (B2 _)). exact Ho.
Qed.

Lemma direct_or_through e s x1 x2 g1 g2 s1 s2 out1 out2 : reachable s ->
  exec e s (IPlaceTake x1 g1) = Ok (s1, out1) -> exec e s (IPlaceOrder x2 g2) = Ok (s2, out2) ->
  ta_side g1 = pa_side g2 /\ ta_price g1 = pa_price g2 /\ ta_max_base g1 = pa_max_base g2 /\ ta_max_quote g1 = pa_max_quote g2 /\
    ta_type g1 = pa_type g2 /\ ta_limit g1 = pa_limit g2 -> pa_expiry g2 = 0 ->
  owns s (tx_signer x1) (tx_user_base x1) -> owns s (tx_signer x1) (tx_user_quote x1) ->
  stranger (s_w s) (invert_side (pa_side g2)) (Some (px_acct x2)) ->
  in_wallet s1 (tx_user_base x1) - in_wallet s (tx_user_base x1) = purse_base s2 x2 (pa_side g2) - purse_base s x2 (pa_side g2) /\
  in_wallet s1 (tx_user_quote x1) - in_wallet s (tx_user_quote x1) =
    purse_quote s2 x2 (pa_side g2) - purse_quote s x2 (pa_side g2) + (for_referrer s2 (px_acct x2) - for_referrer s (px_acct x2)) /\
  forall sd, orders (s_w s1) sd = orders (s_w s2) sd.
Proof.
  intros Hr H1 H2 (G1 & G2 & G3 & G4 & G5 & G6) Ge O1 O2 Hst.
  destruct (take_money _ _ _ _ _ _ Hr H1 O1 O2) as (o & oracle & w1 & r1 & Eo & Eor & C1 & N1 & B1 & M1 & M2).
  destruct (take_types _ _ Eo) as (Hpt & Esd & _).
  assert (Ht : takes_only (pa_type g2) = true).
  { unfold order_of_take_args in Eo. apply bind_ok in Eo as (u & _ & Eo). apply bind_ok in Eo as (ps & E & _). rewrite G5 in E. destruct (pa_type g2); try discriminate E; reflexivity. }
  destruct (place_money _ _ _ _ _ _ Hr Ht Hst H2) as (oo & Eo' & Q2).
  assert (Ho' : exists o', oo = Some o' /\ alike o' o).
  { unfold order_of_args in Eo'. unfold tif_from_expiry in Eo'. rewrite Ge in Eo'. cbn [Z.eqb negb] in Eo'.
    apply bind_ok in Eo' as (u & _ & Eo'). apply bind_ok in Eo' as (ps & E & Eo'). injection Eo' as <-. eexists. split; [reflexivity|].
    unfold order_of_take_args in Eo. apply bind_ok in Eo as (u' & _ & Eo). apply bind_ok in Eo as (ps' & E' & Eo). injection Eo as <-.
    unfold alike. cbn [o_side o_max_base o_max_quote o_params]. rewrite G1, G3, G4. split; [reflexivity|]. split; [reflexivity|]. split; [reflexivity|].
    rewrite G5, G2 in E'. unfold params_of in E. destruct (pa_type g2); try discriminate Ht; congruence. }
  destruct Ho' as (o' & -> & Hal). destruct Q2 as (oracle' & w2 & r2 & Eor' & C2 & N2 & B2 & M3 & M4 & M5).
  rewrite Eor in Eor'. injection Eor' as <-. destruct (args_types _ _ _ Ht Eo') as (Hpt' & Esd').
  rewrite <- Esd', (proj1 Hal) in Hst. rewrite <- G6 in N2.
  destruct (same_trade _ _ o o' _ _ _ _ _ _ _ _ _ _ _ _ _ Hal C1 C2 eq_refl eq_refl I Hst N1 N2) as [[D1 D2 D3 D4 _ _ _ _] Ho].
  rewrite M1, M2, M3, M4, M5, G1, D1, D2, D3, D4. split; [reflexivity|]. split; [destruct (pa_side g2); lia|].
  apply (two_sides _ (o_side o)).
  - rewrite (orders_of_books _ w1 _ (B1 _)), (orders_of_books _ w2 _ (B2 _)).
    rewrite (own_side_kept _ _ _ _ _ _ _ _ _ _ C1 Hpt N1). rewrite <- (proj1 Hal). rewrite (own_side_kept _ _ _ _ _ _ _ _ _ _ C2 Hpt' N2). reflexivity.
  - rewrite (orders_of_books _ w1 _ (B1 _)), (orders_of_books _ w2 _ (B2 _)). exact Ho.
Qed.
