(** What the sender of an order pays and gets, in tokens, against the limits in the order. *)
From Coq Require Import ZArith List Bool Lia ZifyBool.
From Verif Require Import Base Nodes OrderTree BookSide Heap Market OpenOrders Order Book Instructions
  BaseFacts SpecBook SpecFees SpecOrder MatchFacts MatchBook FeeFacts OrderFacts PlaceFacts OrderSpecProofs OrderClaims
  Steps StepFacts TokenFacts SpecSystem SystemFacts Solvency ControlFacts IdFacts FeeGap MultiFacts SpecTrade TradeFacts TradeIx SpecDeal.
Import ListNotations.
Open Scope Z_scope.

Lemma fee_up_mono rate a b : 0 <= rate -> a <= b -> fee_up rate a <= fee_up rate b.
Proof.
  intros Hr Hab. unfold fee_up. assert (H : - (b * rate) / 1000000 <= - (a * rate) / 1000000); [|lia].
  apply Z.div_le_mono; [lia|]. assert (a * rate <= b * rate) by (apply Z.mul_le_mono_nonneg_r; assumption). lia.
Qed.
(** What is left after the fee grows with the amount. *)
Lemma net_mono rate a b : 0 <= rate <= 1000000 -> a <= b -> a - fee_up rate a <= b - fee_up rate b.
Proof.
  intros Hr Hab. unfold fee_up.
  assert (E : forall x, x - - (- (x * rate) / 1000000) = (x * 1000000 - x * rate) / 1000000).
  { intros x. replace (x * 1000000 - x * rate) with (- (x * rate) + x * 1000000) by lia.
    rewrite Z.div_add by lia. lia. }
  rewrite !E. apply Z.div_le_mono; [lia|].
  replace (a * 1000000 - a * rate) with (a * (1000000 - rate)) by lia.
  replace (b * 1000000 - b * rate) with (b * (1000000 - rate)) by lia.
  apply Z.mul_le_mono_nonneg_r; lia.
Qed.

Lemma fills_bound (up : bool) o price tk owner p acts : Forall (act_fact o price tk owner) acts ->
  (forall i q, In (AFill i q) acts -> if up then im_price i <= p else p <= im_price i) ->
  if up then quote_lots acts <= base_lots acts * p else base_lots acts * p <= quote_lots acts.
Proof.
  induction 1 as [|a l Ha _ IH]; intros H; [destruct up; cbn; lia|].
  specialize (IH (fun i q Hi => H i q (or_intror Hi))). rewrite quote_lots_cons, base_lots_cons.
  destruct a as [i q|i|i]; cbn [act_quote act_base].
  2,3: destruct up; lia.
  specialize (H i q (or_introl eq_refl)). destruct Ha as (_ & _ & _ & H1 & _).
  destruct up.
  - assert (q * im_price i <= q * p) by (apply Z.mul_le_mono_nonneg_l; lia). lia.
  - assert (q * p <= q * im_price i) by (apply Z.mul_le_mono_nonneg_l; lia). lia.
Qed.

(** The amounts of an order against its limits. *)
Lemma order_deal w o oracle taker owner now limit rem w' r :
  sound_call w o taker owner -> new_order w o oracle taker owner now limit rem = Ok (w', r) ->
  exists n, 0 <= n <= o_max_base o /\ oa_base_taken r = n * bls (w_mkt w) /\
    0 <= oa_quote_taken r /\ 0 <= oa_referrer r <= oa_taker_fees r /\
    oa_taker_fees r <= taker_pays (w_mkt w) (oa_quote_taken r) /\
    (forall p, order_limit o oracle = Some p ->
       match o_side o with
       | Bid => oa_quote_taken r + oa_taker_fees r <= dearest (w_mkt w) n p
       | Ask => cheapest (w_mkt w) n p <= oa_quote_taken r - oa_taker_fees r
       end).
Proof.
  intros Hsc Hno. pose proof (proj2 (new_order_gap _ _ _ _ _ _ _ _ _ _ Hsc Hno)) as Hra0.
  destruct (new_order_full _ _ _ _ _ _ _ _ _ _ Hsc Hno) as
    (T & T0 & price & pd & maxq & acts & ms & lf & w2 & bt & qt & tf & ra & rq & mf & b2 & T2 & T3 & gone & put & Hf & Hf0 & Hpl & Hex & R1 & R2 & R3 & R4 & _).
  destruct (placed_numbers _ _ _ _ _ _ _ _ _ _ _ _ _ _ _ _ _ _ _ _ _ _ _ _ Hsc Hf Hpl)
    as (Haf & Eb & Eq & Hb & Hq & Hbl & Hql & Ebt & Eqt & Bbt & Bqt & Etf & Erq & Ecfg & Eseq & _).
  destruct (placed_referrer _ _ _ _ _ _ _ _ Hsc _ _ _ _ _ _ _ _ _ _ _ _ _ _ _ _ Hf Hpl) as [Eo Era].
  pose proof Hsc as [Hc _ Hso _]. pose proof Hc as [C1 C2 C3 C4 C5]. fold (qls (w_mkt w)) in C1.
  pose proof (rebates_bounds w o taker owner price acts Hc Haf) as Hreb.
  pose proof (own_quote_bounds _ _ _ _ _ Haf) as [Hown _].
  change (c_taker_fee (m_cfg (w_mkt w))) with (taker_fee (w_mkt w)) in C4. unfold FEES_SCALE in C4.
  rewrite R1, R2, R3, R4 in *. rewrite Eo in Etf. rewrite <- Etf in Hreb.
  assert (Hq0 : 0 <= qt) by (rewrite Eqt; apply Z.mul_nonneg_nonneg; lia).
  assert (Ht : tf <= taker_pays (w_mkt w) qt).
  { rewrite Etf, Eqt. unfold taker_pays. apply fee_up_mono; [lia|]. apply Z.mul_le_mono_nonneg_r; lia. }
  assert (Ht0 : 0 <= tf) by lia.
  exists (base_lots acts). split; [lia|]. split; [exact Ebt|]. split; [exact Hq0|].
  split; [split; [exact Hra0|]; rewrite Era; destruct (0 <? others_quote taker acts * qls (w_mkt w)); lia|].
  split; [exact Ht|]. intros p Hp.
  assert (Hacc : forall i q, In (AFill i q) acts -> accepts (o_side o) (Some p) (im_price i)).
  { intros i q Hi. rewrite Forall_forall in Haf. destruct (Haf _ Hi) as (_ & W & _).
    destruct (order_price_facts _ _ _ _ _ _ Hso (pc_price _ _ _ _ _ _ _ _ _ _ _ _ _ _ _ _ _ _ _ _ _ _ _ _ Hpl)) as (_ & _ & Hlim & _).
    eapply within_accepts; [exact W|apply Hlim; exact Hp]. }
  unfold accepts in Hacc. unfold dearest, cheapest, taker_pays in *. destruct (o_side o).
  - pose proof (fills_bound true _ _ _ _ p acts Haf Hacc) as Hfb. cbn iota in Hfb.
    assert (Hx : qt <= base_lots acts * p * qls (w_mkt w)) by (rewrite Eqt; apply Z.mul_le_mono_nonneg_r; lia).
    pose proof (fee_up_mono (taker_fee (w_mkt w)) _ _ (proj1 C4) Hx). lia.
  - pose proof (fills_bound false _ _ _ _ p acts Haf Hacc) as Hfb. cbn iota in Hfb.
    assert (Hx : base_lots acts * p * qls (w_mkt w) <= qt) by (rewrite Eqt; apply Z.mul_le_mono_nonneg_r; lia).
    pose proof (net_mono (taker_fee (w_mkt w)) _ _ C4 Hx). lia.
Qed.

(** An order sent straight from a wallet. *)
Lemma take_limit g o oracle : order_of_take_args g = Ok o -> ta_type g <> POMarket -> order_limit o oracle = Some (ta_price g).
Proof.
  unfold order_of_take_args. intros H Hne. apply bind_ok in H as (u & _ & H). apply bind_ok in H as (ps & E & H). injection H as <-.
  unfold order_limit. cbn [o_params]. destruct (ta_type g); try discriminate E; try congruence; injection E as <-; reflexivity.
Qed.
Lemma take_maxima g o : order_of_take_args g = Ok o -> o_side o = ta_side g /\ o_max_base o = ta_max_base g /\ o_max_quote o = ta_max_quote g.
Proof.
  unfold order_of_take_args. intros H. apply bind_ok in H as (u & _ & H). apply bind_ok in H as (ps & E & H). injection H as <-. auto.
Qed.
Lemma args_limit now g o oracle : order_of_args now g = Ok (Some o) -> pa_type g <> POMarket -> order_limit o oracle = Some (pa_price g).
Proof.
  unfold order_of_args. intros H Hne. apply bind_ok in H as (u & _ & H). destruct (tif_from_expiry now (pa_expiry g)); [|discriminate H].
  apply bind_ok in H as (ps & E & H). injection H as <-. unfold order_limit. cbn [o_params]. unfold params_of in E.
  destruct (pa_type g); try congruence; try (injection E as <-; reflexivity);
    apply bind_ok in E as (pt & _ & E); injection E as <-; reflexivity.
Qed.
Lemma args_maxima now g o : order_of_args now g = Ok (Some o) -> o_side o = pa_side g /\ o_max_base o = pa_max_base g /\ o_max_quote o = pa_max_quote g.
Proof.
  unfold order_of_args. intros H. apply bind_ok in H as (u & _ & H). destruct (tif_from_expiry now (pa_expiry g)); [|discriminate H].
  apply bind_ok in H as (ps & E & H). injection H as <-. auto.
Qed.
Lemma peg_maxima m now g o : order_of_peg_args m now g = Ok (Some o) -> o_side o = ga_side g /\ o_max_base o = ga_max_base g /\ o_max_quote o = ga_max_quote g.
Proof.
  unfold order_of_peg_args. intros H. apply bind_ok in H as (u & _ & H). apply bind_ok in H as (u2 & _ & H).
  destruct (tif_from_expiry now (ga_expiry g)); [|discriminate H].
  apply bind_ok in H as (ps & E & H). injection H as <-. auto.
Qed.

Lemma direct_deal e s x g s' out : reachable s -> exec e s (IPlaceTake x g) = Ok (s', out) ->
  owns s (tx_signer x) (tx_user_base x) -> owns s (tx_signer x) (tx_user_quote x) ->
  exists n, 0 <= n <= ta_max_base g /\
  match ta_side g with
  | Bid => in_wallet s' (tx_user_base x) = in_wallet s (tx_user_base x) + n * bls (w_mkt (s_w s)) /\
           0 <= in_wallet s (tx_user_quote x) - in_wallet s' (tx_user_quote x) <= ta_max_quote g * qls (w_mkt (s_w s)) /\
           (ta_type g <> POMarket ->
            in_wallet s (tx_user_quote x) - in_wallet s' (tx_user_quote x) <= dearest (w_mkt (s_w s)) n (ta_price g))
  | Ask => in_wallet s' (tx_user_base x) = in_wallet s (tx_user_base x) - n * bls (w_mkt (s_w s)) /\
           0 <= in_wallet s' (tx_user_quote x) - in_wallet s (tx_user_quote x) /\
           (ta_type g <> POMarket ->
            cheapest (w_mkt (s_w s)) n (ta_price g) <= in_wallet s' (tx_user_quote x) - in_wallet s (tx_user_quote x))
  end.
Proof.
  intros Hr H O1 O2. destruct (take_money _ _ _ _ _ _ Hr H O1 O2) as (o & oracle & w1 & r & Eo & Eor & C1 & N1 & B1 & M1 & M2).
  destruct (take_maxima _ _ Eo) as (Es & Eb & Eq).
  destruct (order_deal _ _ _ _ _ _ _ _ _ _ C1 N1) as (n & Hn & Hb & Hq & Hr1 & Ht & Hl).
  pose proof (within_budget _ _ _ _ _ _ _ _ _ _ C1 N1) as [Hw _]. rewrite Eb in Hn.
  assert (P : oa_posted_quote r = 0 /\ oa_maker_fees r = 0).
  { destruct (take_types _ _ Eo) as (Hpt & _). destruct (take_only_types _ _ _ _ _ _ _ _ _ _ C1 N1 Hpt) as (items & acts & Hex & _).
    pose proof (ex_put _ _ _ _ _ _ _ _ _ _ _ _ _ Hex) as (_ & _ & P2 & P3). auto. }
  destruct P as [P1 P2].
  pose proof (sc_cfg _ _ _ _ C1) as [_ _ _ C4 _]. unfold FEES_SCALE in C4. fold (taker_fee (w_mkt (s_w s))) in C4.
  pose proof (net_mono (taker_fee (w_mkt (s_w s))) 0 (oa_quote_taken r) C4 Hq) as Hnet. change (fee_up (taker_fee (w_mkt (s_w s))) 0) with (- (0 / 1000000)) in Hnet.
  unfold taker_pays in Ht.
  exists n. split; [exact Hn|]. rewrite Es, Eq in *. destruct (ta_side g).
  - split; [lia|]. split; [lia|]. intros Hne. specialize (Hl _ (take_limit _ _ oracle Eo Hne)). lia.
  - split; [lia|]. split; [cbn in Hnet; lia|]. intros Hne. specialize (Hl _ (take_limit _ _ oracle Eo Hne)). lia.
Qed.

(** An order through an account that only takes. *)
Lemma through_deal e s x g s' out : reachable s -> exec e s (IPlaceOrder x g) = Ok (s', out) ->
  takes_only (pa_type g) = true -> stranger (s_w s) (invert_side (pa_side g)) (Some (px_acct x)) ->
  exists n, 0 <= n <= Z.max 0 (pa_max_base g) /\
  match pa_side g with
  | Bid => purse_base s' x Bid = purse_base s x Bid + n * bls (w_mkt (s_w s)) /\
           0 <= purse_quote s x Bid - purse_quote s' x Bid <= Z.max 0 (pa_max_quote g * qls (w_mkt (s_w s))) /\
           (pa_type g <> POMarket -> purse_quote s x Bid - purse_quote s' x Bid <= dearest (w_mkt (s_w s)) n (pa_price g))
  | Ask => purse_base s' x Ask = purse_base s x Ask - n * bls (w_mkt (s_w s)) /\
           0 <= purse_quote s' x Ask - purse_quote s x Ask /\
           (pa_type g <> POMarket -> cheapest (w_mkt (s_w s)) n (pa_price g) <= purse_quote s' x Ask - purse_quote s x Ask)
  end.
Proof.
  intros Hr H Ht0 Hst. destruct (place_money _ _ _ _ _ _ Hr Ht0 Hst H) as (oo & Eo & Q). destruct oo as [o|].
  2:{ subst s'. exists 0. split; [lia|]. change (dearest (w_mkt (s_w s)) 0 (pa_price g)) with 0. change (cheapest (w_mkt (s_w s)) 0 (pa_price g)) with 0.
      destruct (pa_side g); (split; [lia|]); split; lia. }
  destruct Q as (oracle & w1 & r & Eor & C1 & N1 & B1 & M1 & M2 & _).
  destruct (args_maxima _ _ _ Eo) as (Es & Eb & Eq).
  destruct (order_deal _ _ _ _ _ _ _ _ _ _ C1 N1) as (n & Hn & Hb & Hq & Hr1 & Ht & Hl).
  pose proof (within_budget _ _ _ _ _ _ _ _ _ _ C1 N1) as [Hw _]. rewrite Eb in Hn.
  assert (P : oa_posted_quote r = 0 /\ oa_maker_fees r = 0).
  { destruct (args_types _ _ _ Ht0 Eo) as (Hpt & _). destruct (take_only_types _ _ _ _ _ _ _ _ _ _ C1 N1 Hpt) as (items & acts & Hex & _).
    pose proof (ex_put _ _ _ _ _ _ _ _ _ _ _ _ _ Hex) as (_ & _ & P2 & P3). auto. }
  destruct P as [P1 P2].
  pose proof (sc_cfg _ _ _ _ C1) as [_ _ _ C4 _]. unfold FEES_SCALE in C4. fold (taker_fee (w_mkt (s_w s))) in C4.
  pose proof (net_mono (taker_fee (w_mkt (s_w s))) 0 (oa_quote_taken r) C4 Hq) as Hnet. change (fee_up (taker_fee (w_mkt (s_w s))) 0) with (- (0 / 1000000)) in Hnet.
  unfold taker_pays in Ht.
  exists n. split; [lia|]. rewrite Es, Eq in *. destruct (pa_side g).
  - split; [lia|]. split; [lia|]. intros Hne. specialize (Hl _ (args_limit _ _ _ oracle Eo Hne)). lia.
  - split; [lia|]. split; [cbn in Hnet; lia|]. intros Hne. specialize (Hl _ (args_limit _ _ _ oracle Eo Hne)). lia.
Qed.

(** The most an order through an account costs. *)
Definition holds_up (m : market) (sd : side) (mb mq : Z) (x : place_ctx) (s s' : sys) : Prop :=
  match sd with
  | Bid => purse_base s x Bid <= purse_base s' x Bid /\ purse_quote s x Bid - mq * qls m <= purse_quote s' x Bid
  | Ask => purse_quote s x Ask <= purse_quote s' x Ask /\ purse_base s x Ask - mb * bls m <= purse_base s' x Ask
  end.

Lemma place_budget e s x o limit s' id a au : world_sound (s_w s) -> funded_m (w_mkt (s_w s)) (s_tok s) -> params_sane (o_params o) ->
  acct_get (px_acct x) (w_accts (s_w s)) = Some a -> s_tok s (px_user_token x) = Some au ->
  px_signer x <> c_authority (m_cfg (w_mkt (s_w s))) -> place_order_ix e s x o limit = Ok (s', id) ->
  holds_up (w_mkt (s_w s)) (o_side o) (o_max_base o) (o_max_quote o) x s s'.
Proof.
  intros Hs [[V1 V2] [Fb Fq]] Hps Ea Xu N E.
  destruct (place_ix_inv _ _ _ _ _ _ _ E) as (R1 & R2 & Ev & _ & oracle & w1 & r & w2 & d & t & _ & Eor & Hn & Hlk & Htr & -> & _).
  assert (Hsc : sound_call (s_w s) o (Some (px_acct x)) (px_acct x)).
  { apply sound_call_of; [exact Hs| |left; reflexivity]. constructor; [lia|lia|exact Hps]. }
  destruct (new_order_richer (px_acct x) _ _ _ _ _ _ _ _ _ _ Hsc Hn a Ea) as (a1 & Ea1 & G1 & G2).
  pose proof (within_budget _ _ _ _ _ _ _ _ _ _ Hsc Hn) as [W1 W2].
  destruct (lock_funds_inv _ _ _ _ _ _ _ Hlk) as (b & m' & p' & Eb & (D0 & D1 & pen & _ & D2) & ->).
  rewrite Ea1 in Eb. injection Eb as <-.
  assert (L : s_tok s (px_user_token x) <> None) by congruence.
  assert (Hv : (if px_user_token x =? px_vault x then d else 0) = 0).
  { destruct (Z.eqb_spec (px_user_token x) (px_vault x)) as [F|]; [|reflexivity]. destruct (Z.eq_dec d 0) as [|Hd]; [assumption|exfalso].
    pose proof (transfer_effect _ _ _ _ _ _ Htr (px_user_token x)) as G. rewrite Xu in G. destruct G as [_ G]. destruct (G ltac:(lia) eq_refl) as [H1 _].
    unfold vault_by_side in Ev. destruct Fb as (fb & Gb & Gbo & _). destruct Fq as (fq & Gq & Gqo & _).
    destruct (o_side o); rewrite <- Ev in F; rewrite F in Xu; congruence. }
  unfold holds_up, purse_base, purse_quote, free_base, free_quote, in_wallet. cbn [s_w s_tok w_set_acct w_set_accts w_set_mkt w_accts].
  rewrite (acct_get_set_same _ _ _ _ Ea1), Ea. cbn [a_set_pos a_pos].
  rewrite (transfer_wallet _ _ _ _ _ _ (px_user_token x) Htr L) by exact D0. rewrite Z.eqb_refl, Hv.
  unfold cost_of in D1, D2. destruct (o_side o).
  - destruct D2 as [_ ->]. cbn [p_set_penalty p_set_quote_free p_base_free p_quote_free]. lia.
  - destruct D2 as [_ ->]. cbn [p_set_penalty p_set_base_free p_base_free p_quote_free]. lia.
Qed.

Lemma edit_budget e s x cid ex o limit s' id a au : world_sound (s_w s) -> funded_m (w_mkt (s_w s)) (s_tok s) -> params_sane (o_params o) ->
  acct_get (px_acct x) (w_accts (s_w s)) = Some a -> s_tok s (px_user_token x) = Some au ->
  px_signer x <> c_authority (m_cfg (w_mkt (s_w s))) -> edit_order_ix e s x cid ex o limit = Ok (s', id) ->
  holds_up (w_mkt (s_w s)) (o_side o) (Z.max 0 (o_max_base o)) (Z.max 0 (o_max_quote o)) x s s'.
Proof.
  intros Hs Hfd Hps Ea Xu N H. pose proof (proj1 Hs) as [C1 C2 _ _ _]. fold (qls (w_mkt (s_w s))) in C1. fold (bls (w_mkt (s_w s))) in C2.
  unfold edit_order_ix in H. apply bind_ok in H as (u1 & _ & H). apply bind_ok in H as ([w q] & E & H).
  pose proof (proj1 (cancel_orders_mkt _ _ _ _ _ _ _ E)) as Em. destruct (cancel_orders_richer _ _ _ _ _ _ _ E a Ea) as (a1 & Ea1 & G1 & G2).
  apply cancel_orders_steps in E. apply (wsteps_sound _ _ _ _ _ _ _ E) in Hs.
  assert (Hfree : free_base s (px_acct x) <= free_base (s_set_w s w) (px_acct x) /\ free_quote s (px_acct x) <= free_quote (s_set_w s w) (px_acct x)).
  { unfold free_base, free_quote. cbn [s_set_w s_w]. rewrite Ea, Ea1. lia. }
  assert (Hwal : forall v, in_wallet (s_set_w s w) v = in_wallet s v) by reflexivity.
  assert (Hpos : 0 <= Z.max 0 (o_max_base o) * bls (w_mkt (s_w s)) /\ 0 <= Z.max 0 (o_max_quote o) * qls (w_mkt (s_w s))) by (split; apply Z.mul_nonneg_nonneg; lia).
  cbv zeta in H. apply bind_ok in H as (f & _ & H). destruct ((0 <? f) && (f <? o_max_base o)) eqn:Hc.
  - apply bind_ok in H as (mb & Emb & H). apply chk_i64_ok in Emb as [-> _].
    assert (Hmb : 0 <= o_max_base o - f <= o_max_base o) by lia.
    destruct (place_ix_inv _ _ _ _ _ _ _ H) as (R1 & R2 & _). cbn [o_set_max_base o_max_quote] in R2.
    apply (place_budget e (s_set_w s w) x _ limit s' id a1 au) in H; try assumption.
    2:{ cbn [s_set_w s_w s_tok]. rewrite Em. exact Hfd. }
    2:{ cbn [s_set_w s_w]. rewrite Em. exact N. }
    cbn [s_set_w s_w o_set_max_base o_side o_max_base o_max_quote] in H. rewrite Em in H.
    assert (M1 : (o_max_base o - f) * bls (w_mkt (s_w s)) <= Z.max 0 (o_max_base o) * bls (w_mkt (s_w s))) by (apply Z.mul_le_mono_nonneg_r; lia).
    rewrite (Z.max_r 0 (o_max_quote o)) by lia. rewrite (Z.max_r 0 (o_max_quote o)) in Hpos by lia.
    unfold holds_up, purse_base, purse_quote in *. rewrite Hwal in H. destruct (o_side o); lia.
  - injection H as <- _. unfold holds_up, purse_base, purse_quote. rewrite Hwal. destruct (o_side o); lia.
Qed.

Lemma order_budget e s i s' out x sd mb mq : reachable s -> exec e s i = Ok (s', out) -> asked_by i = Some (x, sd, mb, mq) ->
  holds_up (w_mkt (s_w s)) sd (Z.max 0 mb) (Z.max 0 mq) x s s'.
Proof.
  intros Hr H Ha. pose proof (reachable_sound _ Hr) as Hs. pose proof (reachable_funded _ Hr) as Hfd.
  pose proof (proj1 Hs) as [C1 C2 _ _ _]. fold (qls (w_mkt (s_w s))) in C1. fold (bls (w_mkt (s_w s))) in C2.
  assert (Hsk : holds_up (w_mkt (s_w s)) sd (Z.max 0 mb) (Z.max 0 mq) x s s).
  { assert (Hpos : 0 <= Z.max 0 mb * bls (w_mkt (s_w s)) /\ 0 <= Z.max 0 mq * qls (w_mkt (s_w s))) by (split; apply Z.mul_nonneg_nonneg; lia).
    unfold holds_up. destruct sd; lia. }
  assert (Hpc : place_constraints s x = Ok tt -> exists a au, acct_get (px_acct x) (w_accts (s_w s)) = Some a /\ s_tok s (px_user_token x) = Some au /\
            px_signer x <> c_authority (m_cfg (w_mkt (s_w s)))).
  { intros Ek. unfold place_constraints in Ek. cbv zeta in Ek. apply bind_ok in Ek as (a & Ea & Ek). apply acct_load_ok in Ea.
    apply bind_ok in Ek as (u3 & _ & Ek). apply bind_ok in Ek as (u4 & N & Ek). apply neq_of_require in N.
    apply bind_ok in Ek as (u5 & M & _). unfold check_mint in M. apply bind_ok in M as (au & Xu & M). apply tok_load_ok in Xu. exists a, au. auto. }
  assert (Hpl : forall o limit id, place_constraints s x = Ok tt -> params_sane (o_params o) -> o_side o = sd /\ o_max_base o = mb /\ o_max_quote o = mq ->
    place_order_ix e s x o limit = Ok (s', id) -> holds_up (w_mkt (s_w s)) sd (Z.max 0 mb) (Z.max 0 mq) x s s').
  { intros o limit id Ek Hps (<- & <- & <-) E. destruct (Hpc Ek) as (a & au & A1 & A2 & A3).
    destruct (place_ix_inv _ _ _ _ _ _ _ E) as (R1 & R2 & _). rewrite !Z.max_r by lia. exact (place_budget _ _ _ _ _ _ _ _ _ Hs Hfd Hps A1 A2 A3 E). }
  assert (Hed : forall o limit cid ex id, place_constraints s x = Ok tt -> params_sane (o_params o) -> o_side o = sd /\ o_max_base o = mb /\ o_max_quote o = mq ->
    edit_order_ix e s x cid ex o limit = Ok (s', id) -> holds_up (w_mkt (s_w s)) sd (Z.max 0 mb) (Z.max 0 mq) x s s').
  { intros o limit cid ex id Ek Hps (<- & <- & <-) E. destruct (Hpc Ek) as (a & au & A1 & A2 & A3).
    exact (edit_budget _ _ _ _ _ _ _ _ _ _ _ Hs Hfd Hps A1 A2 A3 E). }
  unfold exec in H. destruct (s_closed s && needs_market i); [discriminate H|]. unfold exec_open in H. cbv zeta in H.
  destruct i as [x0 g|x0 g|x0 cid ex g|x0 cid ex g| | | | | | | | | | | | | | | | | | | | | | | |]; try discriminate Ha; cbn [asked_by] in Ha; injection Ha as <- <- <- <-.
  - apply bind_ok in H as (u1 & E1 & H). apply bind_ok in H as (u2 & E2 & H). apply unit_ok in E2. apply bind_ok in H as (now & _ & H).
    apply bind_ok in H as (oo & Eo & H). destruct oo as [o|]; [|injection H as <- _; exact Hsk].
    unfold lift_id in H. apply bind_ok in H as ([s1 id] & E & H). injection H as <- _. apply check_place_ok in E1 as [E1 _].
    exact (Hpl o _ _ E2 (order_of_args_sane _ _ _ E1 Eo) (args_maxima _ _ _ Eo) E).
  - apply bind_ok in H as (u1 & E1 & H). apply bind_ok in H as (u2 & E2 & H). apply unit_ok in E2. apply bind_ok in H as (now & _ & H).
    apply bind_ok in H as (oo & Eo & H). destruct oo as [o|]; [|injection H as <- _; exact Hsk].
    unfold lift_id in H. apply bind_ok in H as ([s1 id] & E & H). injection H as <- _.
    exact (Hpl o _ _ E2 (order_of_peg_sane _ _ _ _ Eo) (peg_maxima _ _ _ _ Eo) E).
  - apply bind_ok in H as (u1 & E1 & H). apply bind_ok in H as (u2 & _ & H). apply bind_ok in H as (u3 & _ & H).
    apply bind_ok in H as (u4 & E2 & H). apply unit_ok in E2. apply bind_ok in H as (now & _ & H).
    apply bind_ok in H as (oo & Eo & H). destruct oo as [o|]; [|injection H as <- _; exact Hsk].
    unfold lift_id in H. apply bind_ok in H as ([s1 id] & E & H). injection H as <- _. apply check_place_ok in E1 as [E1 _].
    exact (Hed o _ _ _ _ E2 (order_of_args_sane _ _ _ E1 Eo) (args_maxima _ _ _ Eo) E).
  - apply bind_ok in H as (u1 & E1 & H). apply bind_ok in H as (u2 & _ & H). apply bind_ok in H as (u3 & _ & H).
    apply bind_ok in H as (u4 & E2 & H). apply unit_ok in E2. apply bind_ok in H as (now & _ & H).
    apply bind_ok in H as (oo & Eo & H). destruct oo as [o|]; [|injection H as <- _; exact Hsk].
    unfold lift_id in H. apply bind_ok in H as ([s1 id] & E & H). injection H as <- _.
    exact (Hed o _ _ _ _ E2 (order_of_peg_sane _ _ _ _ Eo) (peg_maxima _ _ _ _ Eo) E).
Qed.

(** ** Several orders at once *)
Lemma multi_one_cost w x ub uq oracle now limit o ba qa w' ba' qa' id :
  world_sound w -> params_sane (o_params o) ->
  multi_one w x ub uq oracle now limit o ba qa = Ok (w', ba', qa', id) ->
  world_sound w' /\ m_cfg (w_mkt w') = m_cfg (w_mkt w) /\ richer (mx_acct x) w w' /\
  match o_side o with
  | Bid => ba' = ba /\ qa' <= qa + Z.max 0 (o_max_quote o) * qls (w_mkt w)
  | Ask => qa' = qa
  end.
Proof.
  intros [Hc Hs] Hp H. unfold multi_one in H.
  apply bind_ok in H as (capb & E1 & H). apply max_base_lots_nonneg in E1; [|exact Hc].
  apply bind_ok in H as (u2 & E2 & H). apply require_ok in E2.
  apply bind_ok in H as (a & Ea & H). apply acct_load_ok in Ea.
  apply bind_ok in H as (o' & Eo & H).
  pose proof (cs_bls _ Hc) as B1. pose proof (cs_qls _ Hc) as B2. unfold i64_max in B1, B2.
  apply bind_ok in H as ([w1 r] & En & H).
  destruct (o_side o) eqn:Es.
  - apply bind_ok in Eo as (y & X & Eo). apply chk_u64_ok in X as [-> X]. apply bind_ok in Eo as (av & X1 & Eo). apply chk_u64_ok in X1 as [-> X1].
    apply bind_ok in Eo as (l & X2 & Eo). unfold max_quote_lots_from_lamports in X2.
    apply max_lots_nonneg in X2; [|exact B2|lia]. injection Eo as <-.
    assert (So : sound_call w (mkOrder Bid capb (Z.min (o_max_quote o) l) (o_client_id o) (o_tif o) (o_self_trade o) (o_params o))
      (Some (mx_acct x)) (mx_acct x)).
    { apply sound_call_of; [split; assumption| |left; reflexivity]. constructor; cbn [o_max_base o_max_quote o_params]; [lia|lia|exact Hp]. }
    pose proof (within_budget _ _ _ _ _ _ _ _ _ _ So En) as [W _]. cbn [o_side o_max_quote] in W.
    pose proof (new_order_richer (mx_acct x) _ _ _ _ _ _ _ _ _ _ So En) as R.
    do 3 (let Y := fresh in apply bind_ok in H as (? & Y & H); apply chk_u64_ok in Y as [-> ?]).
    apply bind_ok in H as (u5 & X9 & H). injection H as <- <- <- <-.
    split; [exact (new_order_sound _ _ _ _ _ _ _ _ _ _ So En)|].
    split; [exact (proj1 (new_order_terms _ _ _ _ _ _ _ _ _ _ So En))|]. split; [exact R|]. split; [reflexivity|].
    assert (M : Z.min (o_max_quote o) l * qls (w_mkt w) <= Z.max 0 (o_max_quote o) * qls (w_mkt w)).
    { apply Z.mul_le_mono_nonneg_r; [|lia]. change (qls (w_mkt w)) with (c_qls (m_cfg (w_mkt w))). lia. }
    lia.
  - apply bind_ok in Eo as (y & X & Eo). apply chk_u64_ok in X as [-> X]. apply bind_ok in Eo as (av & X1 & Eo). apply chk_u64_ok in X1 as [-> X1].
    apply bind_ok in Eo as (l & X2 & Eo). unfold max_base_lots_from_lamports in X2.
    apply max_lots_nonneg in X2; [|exact B1|lia]. injection Eo as <-.
    assert (So : sound_call w (o_set_max_base o (Z.min capb l)) (Some (mx_acct x)) (mx_acct x)).
    { apply sound_call_of; [split; assumption| |left; reflexivity]. constructor; cbn [o_set_max_base o_max_base o_max_quote o_params]; [lia|lia|exact Hp]. }
    pose proof (new_order_richer (mx_acct x) _ _ _ _ _ _ _ _ _ _ So En) as R.
    apply bind_ok in H as (x1 & X4 & H).
    apply bind_ok in H as (u5 & X5 & H). injection H as <- <- <- <-.
    split; [exact (new_order_sound _ _ _ _ _ _ _ _ _ _ So En)|].
    split; [exact (proj1 (new_order_terms _ _ _ _ _ _ _ _ _ _ So En))|]. split; [exact R|]. reflexivity.
Qed.

(** The quote lots the bids of a list may cost. *)
Definition bid_cost (os : list order) : Z := sumZ (map (fun o => match o_side o with Bid => Z.max 0 (o_max_quote o) | Ask => 0 end) os).
Lemma bid_cost_cons o r : bid_cost (o :: r) = match o_side o with Bid => Z.max 0 (o_max_quote o) | Ask => 0 end + bid_cost r.
Proof. reflexivity. Qed.

Lemma multi_loop_cost os : forall w x ub uq oracle now limit ba qa w' ba' qa' ids,
  world_sound w -> Forall (fun o => params_sane (o_params o)) os ->
  multi_loop w x ub uq oracle now limit os ba qa = Ok (w', ba', qa', ids) ->
  m_cfg (w_mkt w') = m_cfg (w_mkt w) /\ richer (mx_acct x) w w' /\ qa' <= qa + bid_cost os * qls (w_mkt w) /\
  (Forall (fun o => o_side o = Bid) os -> ba' = ba).
Proof.
  induction os as [|o r IH]; intros w x ub uq oracle now limit ba qa w' ba' qa' ids Hs Ho H; cbn [multi_loop] in H.
  - injection H as <- <- <- _. split; [reflexivity|]. split; [apply richer_same; reflexivity|]. change (bid_cost []) with 0. split; [lia|reflexivity].
  - apply bind_ok in H as ([[[w1 b1] q1] i1] & E & H). apply bind_ok in H as ([[[w2 b2] q2] i2] & E2 & H). injection H as <- <- <- _.
    pose proof (Forall_inv Ho) as Ho1. pose proof (Forall_inv_tail Ho) as Ho2.
    destruct (multi_one_cost _ _ _ _ _ _ _ _ _ _ _ _ _ _ Hs Ho1 E) as (S1 & C1 & R1 & K1).
    destruct (IH _ _ _ _ _ _ _ _ _ _ _ _ _ S1 Ho2 E2) as (C2 & R2 & K2 & K3).
    split; [congruence|]. split; [eapply richer_trans; eassumption|]. rewrite bid_cost_cons.
    assert (Eq : qls (w_mkt w1) = qls (w_mkt w)) by (unfold qls; rewrite C1; reflexivity). rewrite Eq in K2. split.
    + destruct (o_side o); lia.
    + intros F. specialize (K3 (Forall_inv_tail F)). pose proof (Forall_inv F) as F1. cbv beta in F1. rewrite F1 in K1. lia.
Qed.

Lemma orders_of_multi_cost now t sd : forall l i os, orders_of_multi now t sd i l = Ok os ->
  Forall (fun o => o_side o = sd) os /\
  bid_cost os <= match sd with Bid => sumZ (map (fun g => Z.max 0 (ua_max_quote g)) l) | Ask => 0 end.
Proof.
  induction l as [|g r IH]; intros i os H; cbn [orders_of_multi] in H.
  - injection H as <-. split; [constructor|]. destruct sd; cbn; lia.
  - apply bind_ok in H as (u & _ & H). destruct (tif_from_expiry now (ua_expiry g)) as [tif|].
    + apply bind_ok in H as (ps & _ & H). apply bind_ok in H as (rest & E & H). injection H as <-.
      destruct (IH _ _ E) as [F C]. split; [constructor; [reflexivity|exact F]|]. rewrite bid_cost_cons. cbn [o_side o_max_quote map].
      destruct sd; [|lia]. change (sumZ (?a :: ?l)) with (a + sumZ l). lia.
    + destruct (IH _ _ H) as [F C]. split; [exact F|]. destruct sd; [|exact C]. cbn [map]. change (sumZ (?a :: ?l)) with (a + sumZ l). lia.
Qed.
Lemma bid_cost_app a b : bid_cost (a ++ b) = bid_cost a + bid_cost b.
Proof. induction a as [|o a IH]; [reflexivity|]. cbn [app]. rewrite !bid_cost_cons, IH. lia. Qed.

Lemma multi_budget e s x cancel t bids asks limit s' out : reachable s -> exec e s (IPlaceMulti x cancel t bids asks limit) = Ok (s', out) ->
  free_quote s (mx_acct x) + in_wallet s (mx_user_quote x) - sumZ (map (fun g => Z.max 0 (ua_max_quote g)) bids) * qls (w_mkt (s_w s))
    <= free_quote s' (mx_acct x) + in_wallet s' (mx_user_quote x) /\
  (asks = [] -> free_base s (mx_acct x) + in_wallet s (mx_user_base x) <= free_base s' (mx_acct x) + in_wallet s' (mx_user_base x)).
Proof.
  intros Hr H. pose proof (reachable_sound _ Hr) as Hs. pose proof (reachable_funded _ Hr) as [[V1 V2] [Fb Fq]].
  pose proof (proj1 Hs) as [C1 C2 _ _ _]. fold (qls (w_mkt (s_w s))) in C1. fold (bls (w_mkt (s_w s))) in C2.
  unfold exec in H. destruct (s_closed s && needs_market _); [discriminate H|]. unfold exec_open in H. cbv zeta in H.
  apply bind_ok in H as (u1 & E1 & H). apply require_ok in E1. apply bind_ok in H as (u2 & E2 & H). apply u8_arg_ok in E2.
  apply bind_ok in H as (u3 & E3 & H). apply bind_ok in H as (u4 & E4 & H). apply neq_of_require in E4. apply bind_ok in H as (now0 & _ & H).
  apply bind_ok in H as (bo & B1 & H). apply bind_ok in H as (ao & B2 & H). apply bind_ok in H as ([s1 ids] & E & H). injection H as <- <-.
  rewrite forallb_app in E1. apply andb_prop in E1 as [F1 F2].
  assert (Ho : Forall (fun o => params_sane (o_params o)) (bo ++ ao)).
  { apply Forall_app. split; [exact (orders_of_multi_sane _ _ _ _ _ _ F1 B1)|exact (orders_of_multi_sane _ _ _ _ _ _ F2 B2)]. }
  destruct (orders_of_multi_cost _ _ _ _ _ _ B1) as [Sb Cb]. destruct (orders_of_multi_cost _ _ _ _ _ _ B2) as [_ Ca].
  unfold multi_constraints in E3. cbv zeta in E3. apply bind_ok in E3 as (a0 & A0 & E3). apply acct_load_ok in A0. apply bind_ok in E3 as (? & _ & E3).
  apply bind_ok in E3 as (? & X2 & E3). apply bind_ok in E3 as (? & X1 & _).
  unfold check_mint in X1, X2. apply bind_ok in X1 as (tb & Ub & X1). apply tok_load_ok in Ub. apply bind_ok in X1 as (tvb & Vb & X1). apply tok_load_ok in Vb. apply require_ok in X1.
  apply bind_ok in X2 as (tq & Uq & X2). apply tok_load_ok in Uq. apply bind_ok in X2 as (tvq & Vq & X2). apply tok_load_ok in Vq. apply require_ok in X2.
  unfold multi_ix in E. cbv zeta in E. apply bind_ok in E as (? & _ & E). apply bind_ok in E as (now & En & E). apply bind_ok in E as (oracle & _ & E).
  apply bind_ok in E as (w0 & E0 & E).
  assert (S0 : world_sound w0 /\ w_mkt w0 = w_mkt (s_w s) /\ richer (mx_acct x) (s_w s) w0).
  { destruct cancel; [|injection E0 as <-; split; [exact Hs|]; split; [reflexivity|apply richer_same; reflexivity]]. apply bind_ok in E0 as ([w' q] & E5 & E0). injection E0 as <-.
    split; [apply cancel_orders_steps in E5; exact (wsteps_sound _ _ _ _ _ _ _ E5 Hs)|]. split; [exact (proj1 (cancel_orders_mkt _ _ _ _ _ _ _ E5))|exact (cancel_orders_richer _ _ _ _ _ _ _ E5)]. }
  destruct S0 as (S0 & M0 & R0). apply bind_ok in E as (ub & _ & E). apply bind_ok in E as (uq & _ & E).
  apply bind_ok in E as ([[[w1 ba] qa] is] & E5 & E).
  destruct (multi_loop_cost _ _ _ _ _ _ _ _ _ _ _ _ _ _ S0 Ho E5) as (Cf & R1 & Kq & Kb). rewrite M0 in Kq. rewrite bid_cost_app in Kq.
  destruct (richer_trans _ _ _ _ R0 R1 _ A0) as (a1 & A1 & G1 & G2).
  apply bind_ok in E as (a & Ea & E). apply acct_load_ok in Ea. assert (a = a1) as -> by congruence.
  apply bind_ok in E as (db & Y1 & E). apply chk_u64_ok in Y1 as [-> Y1]. apply bind_ok in E as (dq & Y2 & E). apply chk_u64_ok in Y2 as [-> Y2].
  apply bind_ok in E as (fb & Y3 & E). apply chk_u64_ok in Y3 as [-> Y3]. apply bind_ok in E as (fq & Y4 & E). apply chk_u64_ok in Y4 as [-> Y4].
  do 2 (apply bind_ok in E as (? & _ & E)). apply bind_ok in E as (p2 & Ep & E).
  assert (Hp2 : p_base_free p2 = p_base_free (a_pos a1) - Z.min ba (p_base_free (a_pos a1)) /\ p_quote_free p2 = p_quote_free (a_pos a1) - Z.min qa (p_quote_free (a_pos a1))).
  { destruct (h_count (w_heap (s_w s)) <? h_count (w_heap w1)); [apply bind_ok in Ep as (n & _ & Ep)|]; injection Ep as <-; split; reflexivity. }
  destruct Hp2 as [Hp1 Hp2].
  apply bind_ok in E as (t1 & T1 & E). apply bind_ok in E as (t2 & T2 & E). injection E as <- _.
  destruct Fb as (fb & Gb & Gbo & Gbm & _). destruct Fq as (fq & Gq & Gqo & Gqm & _).
  unfold free_quote, free_base, in_wallet. cbn [s_w s_tok w_set_acct w_set_accts w_set_mkt w_accts].
  rewrite (acct_get_set_same _ _ _ _ A1), A0. cbn [a_set_pos a_pos].
  set (vb := c_base_vault (m_cfg (w_mkt (s_w s)))) in *. set (vq := c_quote_vault (m_cfg (w_mkt (s_w s)))) in *.
  assert (K1 : mx_user_base x <> mx_user_quote x). { intros F. rewrite F in Ub. rewrite Ub in Uq. injection Uq as ->. rewrite Vb in Gb. injection Gb as ->. rewrite Vq in Gq. injection Gq as ->. lia. }
  assert (K2 : mx_user_quote x <> vb). { intros F. rewrite F in Uq. rewrite Vb in Uq. injection Uq as ->. rewrite Vb in Gb. injection Gb as ->. rewrite Vq in Gq. injection Gq as ->. lia. }
  assert (K3 : mx_user_base x <> vq). { intros F. rewrite F in Ub. rewrite Vq in Ub. injection Ub as ->. rewrite Vb in Gb. injection Gb as ->. rewrite Vq in Gq. injection Gq as ->. lia. }
  assert (L1 : s_tok s (mx_user_base x) <> None) by congruence. assert (L2 : s_tok s (mx_user_quote x) <> None) by congruence.
  pose proof (transfer_there _ _ _ _ _ _ _ T1 L1) as L3. pose proof (transfer_there _ _ _ _ _ _ _ T1 L2) as L4.
  rewrite (transfer_wallet _ _ _ _ _ _ (mx_user_quote x) T2 L4), (transfer_wallet _ _ _ _ _ _ (mx_user_base x) T2 L3) by lia.
  rewrite (transfer_wallet _ _ _ _ _ _ (mx_user_quote x) T1 L2), (transfer_wallet _ _ _ _ _ _ (mx_user_base x) T1 L1) by lia.
  rewrite !Z.eqb_refl, (proj2 (Z.eqb_neq _ _) K1), (proj2 (Z.eqb_neq _ _) (not_eq_sym K1)), (proj2 (Z.eqb_neq _ _) K2), (proj2 (Z.eqb_neq _ _) K3).
  assert (Hin : forall d0 (c : bool), 0 <= d0 -> 0 <= (if c then d0 else 0)) by (intros d0 []; lia).
  pose proof (Hin (qa - Z.min qa (p_quote_free (a_pos a1))) (mx_user_quote x =? vq) ltac:(lia)).
  pose proof (Hin (ba - Z.min ba (p_base_free (a_pos a1))) (mx_user_base x =? vb) ltac:(lia)).
  assert (Hcost : (bid_cost bo + bid_cost ao) * qls (w_mkt (s_w s)) <= sumZ (map (fun g => Z.max 0 (ua_max_quote g)) bids) * qls (w_mkt (s_w s))).
  { apply Z.mul_le_mono_nonneg_r; lia. }
  split; [rewrite Hp2; lia|]. intros ->. cbn [orders_of_multi] in B2. injection B2 as <-. rewrite app_nil_r in Kb. specialize (Kb Sb). subst ba.
  rewrite Hp1. lia.
Qed.
