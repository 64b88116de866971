(** The events of one order add up. *)
From Coq Require Import ZArith List Bool Lia ZifyBool Permutation.
From Verif Require Import Base Nodes OrderTree BookSide Heap Market OpenOrders Order Book Instructions Logs
  BaseFacts NodesFacts HeapFacts TreeRep TreeFacts TreeOps TreeIter BookSideFacts BookSideOrder SpecBook BookSpecProofs
  SpecFees SpecOrder MatchFacts MatchBook FeeFacts OrderFacts PlaceFacts OrderSpecProofs OrderClaims Steps StepFacts
  SpecLedger SpecEvents Ledger LedgerOps LedgerMoves LedgerPlace LedgerOrder LedgerInv SpecSystem SystemFacts
  ConsumeFacts SpecControl ControlFacts SpecLogs LogFacts LogOrder.
Import ListNotations.
Open Scope Z_scope.

Lemma tallied_calm w D M L w1 w' : tallied w D M L w1 -> calm w1 w' -> tallied w D M L w'.
Proof.
  intros [A1 A2 A3 A4 A5 A6 A7 A8 A9 A10] [B1 B2 B3 B4 B5]. constructor; try assumption; try congruence.
  - intros q Hq. destruct (A2 q Hq) as (q1 & Hq1 & E1). destruct (B5 q1 Hq1) as (q2 & Hq2 & E2). exists q2. split; [exact Hq2|]. rewrite E2. exact E1.
  - intros k. eapply vols_trans; [apply A10|apply B4|lia|lia].
Qed.
Lemma calm_tallied w w' : calm w w' -> tallied w [] [] [] w'.
Proof.
  intros [B1 B2 B3 B4 B5]. constructor; try assumption; try reflexivity.
  - intros q Hq. destruct (B5 q Hq) as (q1 & Hq1 & E1). exists q1. split; [exact Hq1|]. rewrite E1, app_nil_r. apply Permutation_refl.
  - rewrite B2. unfold fsum. cbn. lia.
  - rewrite B3. unfold fsum, total_fees, totals. cbn. lia.
  - intros sel. unfold fsum, total_fees, totals. cbn. lia.
Qed.

Lemma by_taker_ext sel g g' F : (forall f, g f = g' f) -> fsum (by_taker sel g) F = fsum (by_taker sel g') F.
Proof. intros H. apply fsum_ext. intros f. unfold by_taker. rewrite H. reflexivity. Qed.
Lemma tallied_trans w D M L w1 D' M' L' w2 : tallied w D M L w1 -> tallied w1 D' M' L' w2 -> tallied w (D ++ D') (M ++ M') (L ++ L') w2.
Proof.
  intros [A1 A2 A3 A4 A5 A6 A7 A8 A9 A10] [B1 B2 B3 B4 B5 B6 B7 B8 B9 B10].
  assert (Eb : bls (w_mkt w1) = bls (w_mkt w)) by (unfold bls; rewrite A1; reflexivity).
  constructor.
  - congruence.
  - intros q Hq. destruct (A2 q Hq) as (q1 & Hq1 & E1). destruct (B2 q1 Hq1) as (q2 & Hq2 & E2). exists q2. split; [exact Hq2|].
    rewrite app_assoc, E1, <- !app_assoc, E2. apply Permutation_refl.
  - rewrite log_fills_app, map_app, A3, B3. f_equal. apply map_ext. intros f. apply report_cfg. exact A1.
  - rewrite log_seqs_app, map_app, A4, B4. reflexivity.
  - rewrite B5, A5, fsum_app, (fsum_ext _ _ D' (fun f => fill_quote_cfg _ _ f A1)). lia.
  - unfold total_fees in *. rewrite B6, A6, !fsum_app, totals_app, (fsum_ext _ _ D' (fun f => fill_fee_cfg _ _ f A1)), (fsum_ext _ _ M' (fun f => fill_rebate_cfg _ _ f A1)). lia.
  - intros sel. unfold total_base in *. rewrite totals_app, fsum_app, A7, B7, Eb. reflexivity.
  - intros sel. unfold total_quote in *. rewrite totals_app, fsum_app, A8, B8. f_equal. apply by_taker_ext. intros f. apply fill_quote_cfg. exact A1.
  - intros sel. unfold total_fees in *. rewrite totals_app, !fsum_app. specialize (A9 sel). specialize (B9 sel).
    rewrite (by_taker_ext sel _ _ M' (fun f => fill_taker_fee_cfg _ _ f A1)) in B9. lia.
  - intros k. eapply vols_trans; [apply A10|apply B10| |].
    + rewrite fsum_app. f_equal. symmetry. apply fsum_ext. intros f. apply quote_of_maker_cfg. exact A1.
    + unfold total_quote. rewrite totals_app. reflexivity.
Qed.

Lemma placed_tallied w db dq cl ct P o oracle taker owner now limit rem w' r T price pd maxq acts ms lf w2 bt qt tf ra rq mf b2 T2 :
  Inv w db dq cl ct P -> sane_order o -> taker = Some owner \/ (taker = None /\ acct_get owner (w_accts w) = None) ->
  new_order w o oracle taker owner now limit rem = Ok (w', r) ->
  fits (invert_side (o_side o)) (w_book w (invert_side (o_side o))) T ->
  placed w o oracle taker owner now limit rem T price pd maxq acts ms lf w2 bt qt tf ra rq mf b2 T2 ->
  let L := order_logs w o oracle taker owner now limit rem in
  exists D,
    tallied w D (fills_of o owner now (m_seq (w_mkt w) + 1) acts) L w' /\
    (forall sel g, totals sel g L = if (0 <? base_lots acts) && sel owner then
      match o_side o with
      | Bid => g Bid (qt + tf) bt tf
      | Ask => g Ask bt (qt - tf) tf
      end else 0) /\
    let M := fills_of o owner now (m_seq (w_mkt w) + 1) acts in
    bt = fsum (fun f => fe_qty f * bls (w_mkt w)) M /\ qt = fsum (fill_quote (w_mkt w)) M /\
    tf = taker_pays (w_mkt w) (fsum (charged (w_mkt w)) M) /\
    ra = tf - fsum (fill_rebate (w_mkt w)) M /\
    (0 <? base_lots acts) = match M with [] => false | _ => true end.
Proof.
  intros [HR HL _ _ _ _ _ _] Hso Htk0 H Hf Hpl. cbv zeta.
  assert (Htk : taker = Some owner \/ taker = None) by tauto.
  pose proof (rep_sound _ _ HR HL) as Hws. pose proof (sound_call_of _ _ _ _ Hws Hso Htk) as Hsc.
  pose proof Hws as [Hc _].
  destruct (placed_numbers _ _ _ _ _ _ _ _ _ _ _ _ _ _ _ _ _ _ _ _ _ _ _ _ Hsc Hf Hpl)
    as (Haf & Eb & Eq & Hb & Hq & Hbl & Hql & Fbt & Fqt & Bbt & Bqt & Ftf & Frq & Ecfg & Eseq & Ebk & Hef & Hqu).
  destruct (order_logs_eq _ _ _ _ _ _ _ _ _ _ _ _ _ _ _ _ _ _ _ _ _ _ _ _ _ _ Htk Hpl H) as (L1 & EL & EO & Hcalm).
  pose proof (pc_trace _ _ _ _ _ _ _ _ _ _ _ _ _ _ _ _ _ _ _ _ _ _ _ _ Hpl) as Htr.
  pose proof (pc_settle _ _ _ _ _ _ _ _ _ _ _ _ _ _ _ _ _ _ _ _ _ _ _ _ Hpl) as Hst.
  pose proof (lt_sub _ _ _ _ _ _ _ _ _ _ _ Htr) as Hsub.
  pose proof (lt_amounts _ _ _ _ _ _ Htk _ _ _ _ _ Htr) as (A1 & A2 & A3 & A4 & _).
  cbn [start_ms ms_base ms_quote ms_dec ms_rebates ms_w] in A1, A2, A3, A4. rewrite Z.add_0_l in A3, A4.
  set (m := w_mkt w) in *. set (m0 := m_set_seq m (m_seq m + 1)) in *. cbn [w_set_mkt w_mkt] in A4. fold m0 in A4.
  assert (Hc0 : cfg_sound (m_cfg m0)) by exact Hc.
  assert (Hsl : selfless taker owner acts).
  { intros i q Hi. unfold own_trade. destruct Htk0 as [-> | [-> Hn]]; [apply Z.eqb_sym|]. apply Z.eqb_neq. intros E.
    assert (Hin : In (im_tree i, im_leaf i) (pleaves (invert_side (o_side o)) P)).
    { eapply fits_in; [exact HR|exact Hf|]. pose proof (merged_on_book _ _ _ _ _ (ft_ok _ _ _ Hf) Hsub) as Hon.
      rewrite Forall_forall in Hon. specialize (Hon _ Hi). unfold on_book in Hon. apply oitems_leaf in Hon. exact Hon. }
    apply leaf_piece in Hin as (lp & Hin). destruct (ld_back _ _ _ HL _ Hin) as (x & Hx & _). cbn [pc_owner] in Hx. rewrite E in Hx. congruence. }
  assert (Hq0 : quote_lots acts * qls m0 <= 9223372036854775807) by (change (qls m0) with (qls m); lia).
  pose proof (fills_rebates m0 o taker owner now (m_seq m + 1) price Hc0 acts Hsl Haf Hq0) as [Frb Brb].
  pose proof (fills_taker_fees m0 o taker owner now (m_seq m + 1) price acts Hsl Haf) as Ffe. cbv zeta in Ffe.
  destruct (effects_matched _ _ _ _ _ _ _ _ _ _ EL Hc0 Haf) as (D & [M1 M2 M3 M4 M5 M6 M7 M8 M9]).
  cbn [w_set_mkt w_mkt w_heap] in *. change (m_seq m0) with (m_seq m + 1) in *.
  set (M := fills_of o owner now (m_seq m + 1) acts) in *.
  assert (Ecm : m_cfg (w_mkt (ms_w ms)) = m_cfg m) by exact M1.
  pose proof (own_quote_bounds _ _ _ _ _ Haf) as [Hown _].
  assert (Hst' := Hst). apply settle_taker_inv in Hst'; [|rewrite Ecm; exact Hc|exact Hq|rewrite A2, A3; lia].
  destruct Hst' as (_ & _ & _ & _ & _ & _ & _ & S8 & _ & _ & S11).
  rewrite (qls_eq _ _ Ecm) in S8.
  replace (maxq - ms_quote ms) with (quote_lots acts) in S8, S11 by lia.
  replace (o_max_base o - ms_base ms) with (base_lots acts) in S11 by lia. rewrite A3 in S8.
  set (wo := (quote_lots acts - sumZ (map (self_quote taker owner) acts)) * qls m) in *.
  change ((quote_lots acts - sumZ (map (self_quote taker owner) acts)) * qls m0) with wo in Ffe, Brb.
  change (taker_pays m0 wo) with (taker_pays m wo) in Ffe. rewrite <- Ftf in Ffe.
  assert (Hwo : 0 <= wo) by lia.
  (* trading at all *)
  assert (Hany : (0 <? quote_lots acts) || (0 <? base_lots acts) = (0 <? base_lots acts) /\ (base_lots acts = 0 -> M = [])).
  { destruct (Z.ltb_spec 0 (base_lots acts)) as [Hp|Hp]; [split; [apply orb_true_r|lia]|].
    assert (HM : M = []) by (subst M; eapply fills_none; [exact Haf|lia]).
    split; [|intros _; exact HM]. pose proof (fills_quote m o owner now (m_seq m + 1) acts) as X. fold M in X. rewrite HM in X.
    change (fsum (fill_quote m) []) with 0 in X. assert (C1 : 1 <= qls m) by apply (cs_qls _ Hc).
    destruct (Z.ltb_spec 0 (quote_lots acts)); [clear - X C1 H0; nia|reflexivity]. }
  destruct Hany as [Hany HM]. rewrite Hany in S11.
  assert (Htot : forall sel g, totals sel g (order_logs w o oracle taker owner now limit rem) = if (0 <? base_lots acts) && sel owner then
      match o_side o with Bid => g Bid (qt + tf) bt tf | Ask => g Ask bt (qt - tf) tf end else 0).
  { intros sel g. rewrite EO, totals_app, M6, sum_taker_logs.
    replace (maxq - ms_quote ms) with (quote_lots acts) by lia. replace (o_max_base o - ms_base ms) with (base_lots acts) by lia.
    rewrite Hany, Z.add_0_l. destruct (0 <? base_lots acts); cbn [andb]; destruct (sel owner); reflexivity. }
  exists D.
  assert (Hra : ra = tf - ms_rebates ms).
  { rewrite S8. destruct (Z.ltb_spec 0 wo); [reflexivity|]. assert (wo = 0) as E0 by lia. rewrite Ftf, E0.
    unfold taker_pays. rewrite fee_up_zero. rewrite A4. lia. }
  split.
  2:{ split; [exact Htot|]. cbv zeta. fold M.
      split; [rewrite Fbt; symmetry; apply fills_base|]. split; [rewrite Fqt; symmetry; apply fills_quote|].
      split; [rewrite Ftf; f_equal; symmetry; exact (fills_charged m o taker owner now (m_seq m + 1) acts Hsl)|].
      split; [rewrite Hra, A4; f_equal; symmetry; exact Frb|].
      destruct (Z.ltb_spec 0 (base_lots acts)) as [Hp|Hp].
      - destruct M eqn:EM; [exfalso|reflexivity]. pose proof (fills_base m o owner now (m_seq m + 1) acts) as X. fold M in X. rewrite EM in X.
        change (0 = base_lots acts * bls m) in X. assert (C1 : 1 <= bls m) by apply (cs_bls _ Hc). clear - X C1 Hp. nia.
      - rewrite HM by lia. reflexivity. }
  (* the world after settling *)
  assert (Hw2 : m_cfg (w_mkt w2) = m_cfg m /\ m_maker_volume (w_mkt w2) = m_maker_volume (w_mkt (ms_w ms)) /\
    m_fees_accrued (w_mkt w2) = m_fees_accrued (w_mkt (ms_w ms)) + (tf - ms_rebates ms) /\ w_heap w2 = w_heap (ms_w ms) /\
    (forall k, k <> owner \/ taker = Some owner -> vols k (ms_w ms) w2 0 (if k =? owner then qt else 0)) /\ (base_lots acts = 0 -> qt = 0 /\ tf = 0)).
  { split; [exact Ecfg|]. pose proof (settle_taker_rest _ _ _ _ _ _ _ _ _ _ Hst) as [_ Sh].
    assert (Hz : base_lots acts = 0 -> qt = 0 /\ tf = 0).
    { intros E. specialize (HM E). pose proof (fills_quote m o owner now (m_seq m + 1) acts) as X. fold M in X. rewrite HM in X, Ffe.
      change (fsum (fill_quote m) []) with 0 in X. change (fsum (fill_taker_fee m0) []) with 0 in Ffe. change (fsum (fun _ => 1) []) with 0 in Ffe.
      lia. }
    destruct (Z.ltb_spec 0 (base_lots acts)) as [Hp|Hp].
    - destruct S11 as (m1 & Em1 & S11). destruct taker as [t|].
      + assert (t = owner) by (destruct Htk as [E|E]; [injection E; trivial|discriminate E]). subst t.
        destruct S11 as (a & a' & m' & Ha & Hx & ->). apply taker_vols in Hx as (X1 & X2 & X3 & X4 & X5).
        cbn [w_set_acct w_set_accts w_set_mkt w_mkt w_heap w_accts]. rewrite X4, X5, Em1.
        split; [destruct (w_mkt (ms_w ms)); reflexivity|]. split; [rewrite <- Hra; destruct (w_mkt (ms_w ms)); reflexivity|]. split; [reflexivity|].
        split; [|lia]. intros k _. pose proof (vols_set k (ms_w ms) m' owner a a' 0 qt Ha ltac:(lia) X2) as V.
        rewrite (Z.eqb_sym k owner). destruct (owner =? k); exact V.
      + rewrite S11, Em1. cbn [w_set_mkt w_mkt w_heap w_accts].
        split; [destruct (w_mkt (ms_w ms)); reflexivity|]. split; [rewrite <- Hra; destruct (w_mkt (ms_w ms)); reflexivity|]. split; [reflexivity|].
        split; [|lia]. intros k [Hk|Hk]; [|discriminate Hk]. rewrite (proj2 (Z.eqb_neq _ _) Hk). apply vols_same. reflexivity.
    - assert (Ez : base_lots acts = 0) by lia. destruct (Hz Ez) as [Z1 Z2]. rewrite S11.
      pose proof (HM Ez) as HM'. rewrite HM' in Frb. change (fsum (fill_rebate m0) []) with 0 in Frb. rewrite A4, <- Frb, Z2.
      split; [reflexivity|]. split; [lia|]. split; [reflexivity|]. split; [|intros _; lia]. intros k _.
      replace (if k =? owner then qt else 0) with 0 by (destruct (k =? owner); lia). apply vols_same. reflexivity. }
  destruct Hw2 as (W1 & W2 & W3 & W4 & W5 & W6).
  apply (tallied_calm _ _ _ _ w2); [|exact Hcalm].
  destruct (fills_taker_logs o taker owner maxq ms w2 bt qt tf) as [G1 G2].
  constructor; fold m; fold M.
  - exact W1.
  - intros q Hq1. destruct (M3 q Hq1) as (q' & Hq' & Q & E1 & E2). exists q'. rewrite W4. split; [exact Hq'|].
    rewrite E1, E2. rewrite !app_assoc. apply Permutation_app_tail. apply Permutation_app_comm.
  - rewrite EO, log_fills_app, G1, app_nil_r. exact M4.
  - rewrite EO, log_seqs_app, G2, app_nil_r. exact M5.
  - rewrite W2, M7. reflexivity.
  - unfold total_fees. rewrite Htot. cbn [anyone]. rewrite W3, M8, andb_true_r.
    replace (if 0 <? base_lots acts then match o_side o with Bid => tf | Ask => tf end else 0) with tf
      by (destruct (Z.ltb_spec 0 (base_lots acts)); [destruct (o_side o); reflexivity|lia]).
    change (fsum (fill_rebate m) M) with (fsum (fill_rebate m0) M). rewrite Frb, A4.
    change (fsum (fill_fee m0) D) with (fsum (fill_fee m) D). change (m_fees_accrued m0) with (m_fees_accrued m). lia.
  - intros sel. unfold total_base. rewrite Htot. subst M. rewrite fsum_taker, fills_base, <- Fbt.
    assert (Hb0 : base_lots acts = 0 -> bt = 0) by (intros E; rewrite Fbt, E; reflexivity).
    destruct (Z.ltb_spec 0 (base_lots acts)); cbn [andb]; destruct (sel owner), (o_side o); lia.
  - intros sel. unfold total_quote. rewrite Htot. subst M. rewrite fsum_taker, fills_quote, <- Fqt.
    destruct (Z.ltb_spec 0 (base_lots acts)); cbn [andb]; destruct (sel owner), (o_side o); lia.
  - intros sel. unfold total_fees. rewrite Htot. subst M. rewrite !fsum_taker.
    change (fsum (fill_taker_fee m)) with (fsum (fill_taker_fee m0)).
    destruct (Z.ltb_spec 0 (base_lots acts)); cbn [andb]; destruct (sel owner), (o_side o); lia.
  - intros k a Ha. destruct (M9 k a Ha) as (a1 & Ha1 & V1 & V2).
    assert (Hk : k <> owner \/ taker = Some owner).
    { destruct Htk0 as [E|[_ E]]; [right; exact E|left; intros ->; congruence]. }
    destruct (W5 k Hk a1 Ha1) as (a2 & Ha2 & V3 & V4). exists a2. split; [exact Ha2|].
    unfold total_quote. rewrite Htot. change (quote_of_maker m k) with (quote_of_maker m0 k).
    rewrite V3, V4, V1, V2. split; [lia|].
    destruct (Z.ltb_spec 0 (base_lots acts)); cbn [andb]; destruct (Z.eqb_spec k owner), (o_side o); lia.
Qed.

Lemma order_tallied w db dq cl ct P o oracle taker owner now limit rem w' r :
  Inv w db dq cl ct P -> sane_order o -> taker = Some owner \/ (taker = None /\ acct_get owner (w_accts w) = None) ->
  new_order w o oracle taker owner now limit rem = Ok (w', r) ->
  let L := order_logs w o oracle taker owner now limit rem in
  exists items acts gone put D, explained w o oracle taker owner now rem w' r items acts gone put /\
    tallied w D (fills_of o owner now (m_seq (w_mkt w) + 1) acts) L w' /\
    (forall sel g, totals sel g L = if (0 <? base_lots acts) && sel owner then
      match o_side o with
      | Bid => g Bid (oa_quote_taken r + oa_taker_fees r) (oa_base_taken r) (oa_taker_fees r)
      | Ask => g Ask (oa_base_taken r) (oa_quote_taken r - oa_taker_fees r) (oa_taker_fees r)
      end else 0) /\
    let M := fills_of o owner now (m_seq (w_mkt w) + 1) acts in
    oa_base_taken r = fsum (fun f => fe_qty f * bls (w_mkt w)) M /\ oa_quote_taken r = fsum (fill_quote (w_mkt w)) M /\
    oa_taker_fees r = taker_pays (w_mkt w) (fsum (charged (w_mkt w)) M) /\
    oa_referrer r = oa_taker_fees r - fsum (fill_rebate (w_mkt w)) M /\
    (0 <? base_lots acts) = match M with [] => false | _ => true end.
Proof.
  intros HI Hso Htk0 H. cbv zeta. pose proof HI as [HR HL _ _ _ _ _ _].
  assert (Htk : taker = Some owner \/ taker = None) by tauto.
  pose proof (rep_sound _ _ HR HL) as Hws. pose proof (sound_call_of _ _ _ _ Hws Hso Htk) as Hsc.
  destruct (new_order_full _ _ _ _ _ _ _ _ _ _ Hsc H) as (T & T0 & price & pd & maxq & acts & ms & lf & w2 & bt & qt & tf & ra & rq & mf & b2 & T2 & T3 & gone & put & Hf & _ & Hpl & Hex & Ebt & Eqt & Etf & Era & _).
  destruct (placed_tallied _ _ _ _ _ _ _ _ _ _ _ _ _ _ _ _ _ _ _ _ _ _ _ _ _ _ _ _ _ _ _ HI Hso Htk0 H Hf Hpl) as (D & TD & Ttot & Tsum).
  exists (merged (w_book w (invert_side (o_side o))) T now oracle), acts, gone, put, D.
  split; [exact Hex|]. split; [exact TD|]. rewrite Ebt, Eqt, Etf, Era. split; [exact Ttot|exact Tsum].
Qed.
