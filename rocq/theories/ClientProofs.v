(** Proofs about the client library's quotes (C43, C44). *)
From Coq Require Import ZArith List Bool Lia ZifyBool.
From Verif Require Import Base Nodes OrderTree BookSide Heap Market OpenOrders Order Book Instructions BaseFacts
  NodesFacts TreeRep TreeFacts TreeOps TreeIter BookSideFacts BookSideOrder SpecBook BookSpecProofs SpecFees SpecOrder
  MatchFacts MatchBook FeeFacts OrderFacts PlaceFacts OrderSpecProofs OrderClaims Steps StepFacts InstrFacts
  SpecControl Solvency AuthFacts Oracle OracleUse Client ClientFacts SpecClient.
Import ListNotations.
Open Scope Z_scope.

Lemma lt_target o price taker owner rem now items s acts s' lf :
  ltrace o price taker owner rem now items s acts s' lf -> ms_target s = None -> ms_target s' = None.
Proof. induction 1; intros E; try exact E; try reflexivity; auto. Qed.

Lemma market_within s bs T now oracle i : fits s bs T -> In i (merged bs T now oracle) ->
  forall sd, is_price_within_limit sd (im_price i) (market_order_limit sd) = true.
Proof.
  intros [Hok Hs _ Hl Hq] Hi sd. pose proof (merged_item _ _ _ _ _ Hok Hl Hi) as (x & Hx & Ex & Hk).
  pose proof (item_of_facts _ _ _ _ _ _ Hk Ex) as (_ & _ & E3 & _ & E5 & E6 & _).
  apply oitems_leaf in Hx. apply Hl in Hx. destruct Hx as [_ Hx].
  assert (B : 1 <= im_price i <= 9223372036854775807).
  { destruct (im_tree i).
    - rewrite E5 by reflexivity. rewrite pow64. lia.
    - specialize (E6 eq_refl). rewrite pow63 in E6. lia. }
  unfold is_price_within_limit, market_order_limit, i64_max. destruct sd; lia.
Qed.

(** What a market order takes is what the client computes. *)
Lemma market_quote w o oracle owner now rem w' r :
  sound_call w o None owner -> new_order w o oracle None owner now 45 rem = Ok (w', r) -> o_params o = OMarket ->
  exists short accts, iterate_book (mkOrderbook (w_bids w) (w_asks w)) (o_side o) (o_max_base o) (o_max_quote o) (w_mkt w) oracle now =
    Ok (oa_base_taken r / bls (w_mkt w), oa_quote_taken r / qls (w_mkt w), oa_taker_fees r - oa_referrer r, short, accts) /\
  (exists tb tq, oa_base_taken r = tb * bls (w_mkt w) /\ oa_quote_taken r = tq * qls (w_mkt w)) /\
  0 <= oa_base_taken r <= 9223372036854775807 /\ 0 <= oa_quote_taken r <= 9223372036854775807 /\
  0 <= oa_taker_fees r - oa_referrer r <= oa_quote_taken r /\
  (o_side o = Ask -> (short = false <-> oa_base_taken r = o_max_base o * bls (w_mkt w))) /\
  (o_side o = Bid -> (short = false <-> oa_quote_taken r = o_max_quote o * 1000000 / (1000000 + taker_fee (w_mkt w)) * qls (w_mkt w))) /\
  (incl accts rem -> h_count (w_heap w') <= h_count (w_heap w) + 30 /\
     ((length accts < 15)%nat -> w_heap w' = w_heap w)).
Proof.
  intros Hsc Hn Hp. pose proof Hsc as [Hc Hsd Hso Htk]. pose proof Hso as [Hb0 Hq0 _].
  destruct (sc_other_fits _ _ _ _ Hsc) as (T & Hf & Hage).
  destruct (new_order_inv _ _ _ _ _ _ _ _ _ _ _ Hf Htk Hc Hb0 Hq0 Hn)
    as (price & pd & maxq & acts & ms & lf & w2 & bt & qt & tf & ra & rq & mf & b2 & T2 & Hpl & Hfin).
  pose proof Hpl as [Hpr Hseq Hmq Hcap Hit Htr Hst Hf2 Hlv Hmf Hlp Hfok].
  pose proof (maxq_facts w o maxq Hc Hq0 Hmq) as [Hmx _].
  assert (Hpo : is_post_only o = false) by (unfold is_post_only; rewrite Hp; reflexivity).
  assert (Eprice : price = market_order_limit (o_side o)).
  { unfold order_price in Hpr. rewrite Hp in Hpr. cbn [bind] in Hpr. apply bind_ok in Hpr as (? & _ & Hpr).
    apply bind_ok in Hpr as (? & _ & Hpr). injection Hpr as <- _. reflexivity. }
  assert (C1 : 1 <= qls (w_mkt w)) by exact (proj1 (cs_qls _ Hc)).
  assert (C2 : 1 <= bls (w_mkt w)) by exact (proj1 (cs_bls _ Hc)).
  destruct Hcap as [Cap1 Cap2].
  assert (Bb : o_max_base o <= 9223372036854775807) by nia.
  assert (Bmq : maxq <= 9223372036854775807) by nia.
  destruct (quote_follows o price owner rem now (w_mkt w) Hc Hpo (maxq * qls (w_mkt w)) Cap2 _ _ _ _ _ Htr
    (merged_items_ok _ _ _ _ _ Hf)) with (q := mkQs (o_max_base o) maxq 0 45 0 0 [])
    as (q & more & Eq & (F1 & F2 & F3 & F4) & (B1 & B2 & B3 & B4 & B5) & Ty & Ea & Hh).
  { intros i Hi. rewrite Eprice. exact (market_within _ _ _ _ _ _ Hf Hi (o_side o)). }
  { reflexivity. }
  { unfold in_bounds. cbn [start_ms ms_base ms_quote ms_rebates ms_limit]. lia. }
  { repeat split. }
  { unfold tally. cbn. lia. }
  pose proof (lt_amounts _ _ _ _ _ _ Htk _ _ _ _ _ Htr) as (_ & _ & A3 & _).
  assert (Ad : ms_dec ms = 0).
  { rewrite A3. cbn [start_ms ms_dec]. clear. induction acts as [|a r IH]; [reflexivity|].
    cbn [map]. unfold sumZ in *. cbn [fold_right]. destruct a; cbn [self_quote own_trade]; lia. }
  assert (Ecfg : m_cfg (w_mkt (ms_w ms)) = m_cfg (w_mkt w)).
  { pose proof (effects_rest _ _ _ _ _ _ _ _ (lt_effects _ _ _ _ _ _ Htk _ _ _ _ _ Htr)) as (_ & _ & E & _). exact E. }
  assert (Eqls : qls (w_mkt (ms_w ms)) = qls (w_mkt w)) by (unfold qls; rewrite Ecfg; reflexivity).
  assert (Ebls : bls (w_mkt (ms_w ms)) = bls (w_mkt w)) by (unfold bls; rewrite Ecfg; reflexivity).
  destruct (settle_taker_inv o None maxq ms w2 bt qt tf ra rq) as (S1 & S2 & S3 & S4 & S5 & S6 & S7 & S8 & S9 & _).
  { rewrite Ecfg. exact Hc. }
  { exact B2. }
  { rewrite Ad. split; [lia|]. nia. }
  { exact Hst. }
  rewrite Ad, Eqls, Ebls in *. rewrite Z.sub_0_r in S7, S8.
  assert (Hreb : tf - ra = ms_rebates ms).
  { destruct (Z.ltb_spec 0 ((maxq - ms_quote ms) * qls (w_mkt w))) as [L|L]; [lia|].
    assert (Z0 : (maxq - ms_quote ms) * qls (w_mkt w) = 0) by nia. rewrite Z0 in S7.
    assert (tf = 0) by (rewrite S7; reflexivity). lia. }
  assert (Htg : ms_target ms = None).
  { apply (lt_target _ _ _ _ _ _ _ _ _ _ _ Htr). cbn [start_ms ms_target]. unfold post_target. rewrite Hp. reflexivity. }
  destruct Hfin as [_|t w4 pb pq mfees _ Ht _ _]; [|congruence].
  cbn [oa_base_taken oa_quote_taken oa_taker_fees oa_referrer].
  exists (match o_side o with Ask => negb (qs_base q =? 0) | Bid => negb (qs_quote q =? 0) end), (qs_accounts q).
  split; [|split; [|split; [|split; [|split; [|split; [|split]]]]]].
  - unfold iterate_book.
    assert (Emq : match o_side o with Bid => subtract_taker_fees (w_mkt w) (o_max_quote o) | Ask => Ok (o_max_quote o) end = Ok maxq).
    { rewrite Hpo in Hmq. exact Hmq. }
    rewrite Emq. cbn [bind].
    assert (Ebk : forall sd, ob_side (mkOrderbook (w_bids w) (w_asks w)) sd = w_book w sd) by (intros []; reflexivity).
    rewrite Ebk, Hit. cbn [bind]. change MAXIMUM_TAKEN_ORDERS with 45. rewrite Eq. cbn [bind].
    rewrite F1, F2, F3, !chk_i64_in by lia. cbn [bind]. rewrite Hreb, S3, S4, !Z.div_mul by lia. reflexivity.
  - exists (o_max_base o - ms_base ms), (maxq - ms_quote ms). auto.
  - nia.
  - nia.
  - rewrite Hreb. nia.
  - intros ->. rewrite F1, S3. destruct (Z.eqb_spec (ms_base ms) 0) as [Z0|Z0]; cbn [negb]; split; intros G; try discriminate G; try reflexivity.
    + rewrite Z0, Z.sub_0_r. reflexivity.
    + exfalso. nia.
  - intros Es. rewrite Es in *. rewrite Hpo in Hmq. apply subtract_taker_fees_ok in Hmq; [|exact (proj1 (cs_taker _ Hc))|exact Hq0]. rewrite <- Hmq, F2, S4.
    destruct (Z.eqb_spec (ms_quote ms) 0) as [Z0|Z0]; cbn [negb]; split; intros G; try discriminate G; try reflexivity.
    + rewrite Z0, Z.sub_0_r. reflexivity.
    + exfalso. nia.
  - intros Hi. destruct (Hh Hi eq_refl eq_refl) as [(H1 & _ & H2) H3].
    cbn [start_ms ms_w w_set_mkt w_heap ms_limit ms_processed] in H1, H2.
    assert (Ew : w_heap (w_set_book w2 (invert_side (o_side o)) b2) = w_heap (ms_w ms)).
    { rewrite <- (proj2 (settle_taker_rest _ _ _ _ _ _ _ _ _ _ Hst)). destruct (o_side o); reflexivity. }
    rewrite Ew. destruct Ty as (Ty1 & Ty2 & Ty3). split.
    + destruct (Z.ltb_spec (ms_processed ms) 15) as [L|L]; [rewrite H2 by lia; lia|]. lia.
    + intros Hlen. apply H2. lia.
Qed.

Lemma take_quoted c a b now slot s x g s' out :
  reachable s -> exec (env_of_oracles now slot (w_mkt (s_w s)) c a b) s (IPlaceTake x g) = Ok (s', out) ->
  ta_type g = POMarket -> ta_limit g = 45 ->
  exists p lots base quote fee short accts,
    oracle_price (w_mkt (s_w s)) c a b slot = Ok p /\
    amounts_from_book (book_of s) (ta_side g) (ta_max_base g) (ta_max_quote g) (w_mkt (s_w s)) p now =
      Ok (mkClientAmounts base quote fee short) /\
    take_moves x (ta_side g) base quote fee s s' /\
    (0 <= base <= 9223372036854775807 /\ 0 <= quote <= 9223372036854775807 /\ 0 <= fee <= quote) /\
    (short = false <-> match ta_side g with
       | Ask => base = ta_max_base g * bls (w_mkt (s_w s))
       | Bid => quote = ta_max_quote g * 1000000 / (1000000 + taker_fee (w_mkt (s_w s))) * qls (w_mkt (s_w s))
       end) /\
    client_oracle_lots (w_mkt (s_w s)) p = Ok lots /\
    iterate_book (book_of s) (ta_side g) (ta_max_base g) (ta_max_quote g) (w_mkt (s_w s)) lots now =
      Ok (base / bls (w_mkt (s_w s)), quote / qls (w_mkt (s_w s)), fee, short, accts) /\
    (incl accts (tx_rem x) -> h_count (w_heap (s_w s')) <= h_count (w_heap (s_w s)) + 30 /\
       ((length accts < 15)%nat -> w_heap (s_w s') = w_heap (s_w s))).
Proof.
  intros Hr H Hty Hlim. apply exec_is_open in H. pose proof (reachable_sound _ Hr) as Hw. cbn [exec_open] in H.
  apply bind_ok in H as (u1 & E1 & H). apply check_take_ok in E1 as [E1 E4]. apply bind_ok in H as (u2 & _ & H).
  apply bind_ok in H as (u3 & _ & H). apply bind_ok in H as (o & Eo & H).
  unfold lift_s in H. apply bind_ok in H as (s1 & E & H). injection H as <- <-.
  assert (Es : o = mkOrder (ta_side g) (ta_max_base g) (ta_max_quote g) 0 0 DecrementTake OMarket).
  { unfold order_of_take_args in Eo. rewrite Hty in Eo. apply bind_ok in Eo as (? & _ & Eo). injection Eo as <-. reflexivity. }
  pose proof (order_of_take_sane _ _ E1 Eo) as Hps.
  unfold place_take_ix in E. cbv zeta in E. rewrite Hlim in E.
  apply bind_ok in E as (u5 & R1 & E). apply bind_ok in E as (u6 & R2 & E). apply require_ok in R1, R2.
  apply bind_ok in E as (u7 & _ & E). apply bind_ok in E as (now' & En & E). apply now_u64_is in En as [-> Hnow].
  cbn [env_of_oracles e_now] in *.
  apply bind_ok in E as (oracle & Eor & E). apply bind_ok in E as (u8 & _ & E).
  apply bind_ok in E as ([w1 r] & Hno & E). apply bind_ok in E as (reb & Er & E). apply chk_u64_ok in Er as [-> Br].
  assert (Hsc : sound_call (s_w s) o None (tx_signer x)).
  { apply sound_call_of; [exact Hw|constructor; [lia|lia|exact Hps]|right; reflexivity]. }
  assert (Hp : o_params o = OMarket) by (rewrite Es; reflexivity).
  destruct (market_quote _ _ _ _ _ _ _ _ Hsc Hno Hp) as (short & accts & Hit & (tb & tq & Etb & Etq) & Bb & Bq & Bf & Sa & Sb & Hh).
  destruct Hw as [Hc _].
  assert (C1 : 1 <= qls (w_mkt (s_w s))) by exact (proj1 (cs_qls _ Hc)).
  assert (C2 : 1 <= bls (w_mkt (s_w s))) by exact (proj1 (cs_bls _ Hc)).
  assert (Hp0 : exists p, oracle_price (w_mkt (s_w s)) c a b slot = Ok p /\ client_oracle_lots (w_mkt (s_w s)) p = Ok oracle).
  { unfold oracle_input in Eor. cbn [env_of_oracles e_oracle] in Eor. destruct (Z.eqb_spec (c_oracle_a (m_cfg (w_mkt (s_w s)))) 0) as [Z0|Z0].
    - injection Eor as <-. exists None. split; [|reflexivity]. unfold oracle_price. rewrite Z0. reflexivity.
    - apply bind_ok in Eor as (v & Ev & Eor). unfold oracle_price_lots in Ev. apply bind_ok in Ev as (p & Ep & Ev).
      exists p. split; [exact Ep|]. unfold client_oracle_lots. rewrite Ev.
      destruct v as [v|]; [apply bind_ok in Eor as (? & _ & Eor)|]; injection Eor as <-; reflexivity. }
  destruct Hp0 as (p & Hp1 & Hp2).
  assert (Emk : s_w s1 = w_set_mkt w1 (w_mkt (s_w s1)) /\ take_moves x (ta_side g) (oa_base_taken r) (oa_quote_taken r) (oa_taker_fees r - oa_referrer r) s s1).
  { unfold take_moves. cbv zeta. rewrite Es in E. cbn [o_side] in E. destruct (ta_side g).
    - apply bind_ok in E as (q & Eq & E). apply chk_u64_ok in Eq as [-> Bq2]. apply bind_ok in E as (? & _ & E). apply bind_ok in E as (? & _ & E).
      apply bind_ok in E as (t1 & T1 & E). apply bind_ok in E as (t2 & T2 & E). injection E as <-. cbn [s_w s_tok].
      split; [reflexivity|]. refine (transferred_two _ _ _ _ _ _ _ _ _ _ _ _ _ T1 T2); lia.
    - apply bind_ok in E as (q & Eq & E). apply chk_u64_ok in Eq as [-> Bq2]. apply bind_ok in E as (? & _ & E). apply bind_ok in E as (? & _ & E).
      apply bind_ok in E as (t1 & T1 & E). apply bind_ok in E as (t2 & T2 & E). injection E as <-. cbn [s_w s_tok].
      split; [reflexivity|]. refine (transferred_two _ _ _ _ _ _ _ _ _ _ _ _ _ T1 T2); lia. }
  destruct Emk as [Emk Hmv].
  rewrite Es in Hit, Sa, Sb. cbn [o_side o_max_base o_max_quote] in Hit, Sa, Sb.
  exists p, oracle, (oa_base_taken r), (oa_quote_taken r), (oa_taker_fees r - oa_referrer r), short, accts.
  split; [exact Hp1|]. split; [|split; [exact Hmv|split; [exact (conj Bb (conj Bq Bf))|split; [|split; [exact Hp2|split; [exact Hit|]]]]]].
  - unfold amounts_from_book. rewrite Hp2. cbn [bind]. unfold book_of. rewrite Hit. cbn [bind].
    assert (Ed : forall z n k, z = n * k -> 1 <= k -> z / k * k = z) by (intros z n k -> Hk; rewrite Z.div_mul by lia; reflexivity).
    rewrite (Ed _ _ _ Etb C2), (Ed _ _ _ Etq C1), !chk_i64_in by lia. cbn [bind]. rewrite !as_u64_id by lia. reflexivity.
  - destruct (ta_side g); [apply Sb|apply Sa]; reflexivity.
  - intros Hi. rewrite Emk. exact (Hh Hi).
Qed.
