(** When placing an order goes through: the whole of it. *)
From Coq Require Import ZArith List Bool Lia ZifyBool Permutation.
From Verif Require Import Base Nodes OrderTree BookSide Heap Market OpenOrders Order Book
  BaseFacts NodesFacts HeapFacts TreeRep TreeFacts TreeOps TreeIter BookSideFacts BookSideOrder BookSpecProofs SpecBook SpecFees
  FeeFacts SpecOrder MatchFacts MatchBook OrderFacts PlaceFacts OrderSpecProofs OrderClaims Steps StepFacts SpecLedger SpecEvents Ledger LedgerOps LedgerMoves
  LedgerPlace LedgerOrder ConsumeFacts LiveFacts LivePlace.
Import ListNotations.
Open Scope Z_scope.

(** ** Rebates are covered by the taker's fee *)
Lemma rebates_covered o price taker owner m acts : cfg_sound (m_cfg m) -> Forall (act_fact o price taker owner) acts ->
  (taker = None -> forall a, In a acts -> lf_owner (im_leaf (act_item a)) <> owner) ->
  sumZ (map (act_rebate m owner) acts) <= taker_pays m ((quote_lots acts - sumZ (map (self_quote taker owner) acts)) * qls m).
Proof.
  intros Hc Hf Ht. pose proof (cs_qls _ Hc) as C1. change (c_qls (m_cfg m)) with (qls m) in C1.
  set (f := fun a => (act_quote a - self_quote taker owner a) * qls m).
  assert (Hself : forall a, act_fact o price taker owner a -> 0 <= act_quote a - self_quote taker owner a).
  { intros [i q|i|i]; cbn [act_fact act_quote self_quote]; intros H; try (destruct (own_trade taker owner i)); nia. }
  assert (E1 : sumZ (map (act_rebate m owner) acts) = sumZ (map (maker_gets m) (map f acts))).
  { rewrite map_map. f_equal. apply map_ext_in. intros a Ha. rewrite Forall_forall in Hf. specialize (Hf a Ha).
    assert (E : own_trade taker owner (act_item a) = act_self owner a).
    { unfold own_trade, act_self. destruct taker; [apply Z.eqb_sym|]. symmetry. apply Z.eqb_neq. apply Ht; [reflexivity|exact Ha]. }
    unfold act_rebate, f. rewrite <- E. destruct a as [i q|i|i]; cbn [self_quote act_quote act_item].
    - destruct (own_trade taker owner i); [rewrite Z.sub_diag, Z.mul_0_l, maker_gets_0; reflexivity|rewrite Z.sub_0_r; reflexivity].
    - rewrite Z.sub_0_r, Z.mul_0_l, maker_gets_0. destruct (own_trade _ _ _); reflexivity.
    - rewrite Z.sub_0_r, Z.mul_0_l, maker_gets_0. destruct (own_trade _ _ _); reflexivity. }
  assert (E2 : sumZ (map f acts) = (quote_lots acts - sumZ (map (self_quote taker owner) acts)) * qls m).
  { clear - f. induction acts as [|a l IH]; [reflexivity|]. rewrite quote_lots_cons. cbn [map sumZ fold_right].
    fold (sumZ (map f l)) (sumZ (map (self_quote taker owner) l)). rewrite IH. unfold f. ring. }
  rewrite E1, <- E2. apply rebates_le_taker; [exact Hc|]. intros x Hx. apply in_map_iff in Hx as (a & <- & Ha).
  rewrite Forall_forall in Hf. pose proof (Hself a (Hf a Ha)). unfold f. nia.
Qed.

Lemma nodup_map_via {A B C} (f : A -> B) (g : A -> C) l : NoDup (map f l) ->
  (forall x y, In x l -> In y l -> g x = g y -> f x = f y) -> NoDup (map g l).
Proof.
  induction l as [|a l IH]; intros Hn Hi; [constructor|]. cbn [map] in *. inversion Hn as [|? ? N1 N2]; subst.
  constructor; [|apply IH; [exact N2|intros; apply Hi; [right|right|]; assumption]].
  intros Hin. apply N1. apply in_map_iff in Hin as (b & E & Hb). rewrite (Hi a b (or_introl eq_refl) (or_intror Hb) (eq_sym E)).
  apply in_map. exact Hb.
Qed.

Lemma merged_orders_nodup bs T now oracle : bs_ok bs T -> NoDup (map order_of (merged bs T now oracle)).
Proof.
  intros Hok. apply (nodup_map_via item_id order_of _ (merged_nodup _ _ _ _ Hok)).
  intros x y Hx Hy E. apply merged_in in Hx as [Hx _]. apply merged_in in Hy as [Hy _]. unfold order_of in E. injection E as E1 E2.
  unfold item_id. f_equal; [exact E1|]. rewrite <- E1 in Hy.
  pose proof (items_key_inj _ _ _ _ _ _ _ Hok Hx Hy ltac:(rewrite E2; reflexivity)) as E. congruence.
Qed.

Lemma maker_fees_ceil_any m a : cfg_sound (m_cfg m) -> -9223372036854775807 <= a <= 9223372036854775807 ->
  exists v, maker_fees_ceil chk_i64 m a = Ok v /\ Z.min a 0 <= v <= Z.max a 0.
Proof.
  intros Hc Ha. destruct (Z.le_gt_cases 0 a) as [H|H].
  - unfold chk_i64. rewrite maker_fees_ceil_in by (try exact Hc; lia). pose proof (maker_locks_bounds m a Hc H) as Hb.
    destruct (0 <? maker_fee m); [|exists 0; split; [reflexivity|lia]]. exists (maker_locks m a). split; [apply chk_i64_in; lia|lia].
  - unfold maker_fees_ceil. destruct (0 <? maker_fee m) eqn:E; [|exists 0; split; [reflexivity|lia]].
    pose proof (cs_maker _ Hc) as Hm. change (c_maker_fee (m_cfg m)) with (maker_fee m) in Hm. unfold FEES_SCALE in Hm.
    rewrite Z.abs_eq by lia. rewrite (chk_i64_in (maker_fee m)) by lia. cbn [bind].
    assert (Hn : a * 1000000 <= a * maker_fee m < 0) by nia. set (n := a * maker_fee m) in *.
    rewrite (chk_i128_in n) by lia. cbn [bind]. unfold ceil_fee_division, FEES_SCALE. rewrite chk_i128_in by lia. cbn [bind].
    assert (Hv : a <= Z.quot (n + (1000000 - 1)) 1000000 <= 0).
    { pose proof (Z.quot_rem' (n + (1000000 - 1)) 1000000) as Hq.
      pose proof (Z.rem_bound_abs (n + (1000000 - 1)) 1000000 ltac:(lia)) as Hb.
      destruct (Z.le_gt_cases 0 (n + (1000000 - 1))) as [H0|H0].
      - rewrite Z.quot_small by lia. lia.
      - pose proof (Z.rem_nonpos (n + (1000000 - 1)) 1000000 ltac:(lia) ltac:(lia)). lia. }
    exists (Z.quot (n + (1000000 - 1)) 1000000). split; [apply chk_i64_in; lia|lia].
Qed.

Lemma quot_bound a b : 1 <= b -> -9223372036854775807 <= a <= 9223372036854775807 ->
  div_i64 a b = Ok (Z.quot a b) /\ (0 < Z.quot a b -> Z.quot a b * b <= a).
Proof.
  intros Hb Ha. pose proof (Z.quot_rem' a b) as Hq. split.
  - unfold div_i64. replace (b =? 0) with false by lia. apply chk_i64_in.
    destruct (Z.le_gt_cases 0 a) as [H|H].
    + pose proof (Z.quot_pos a b H ltac:(lia)). pose proof (Z.quot_le_upper_bound a b a ltac:(lia) ltac:(nia)). lia.
    + pose proof (Z.rem_nonpos a b ltac:(lia) ltac:(lia)). pose proof (Z.rem_bound_abs a b ltac:(lia)). nia.
  - intros H. destruct (Z.le_gt_cases 0 a) as [H0|H0].
    + pose proof (Z.rem_nonneg a b ltac:(lia) H0). lia.
    + exfalso. pose proof (Z.rem_nonpos a b ltac:(lia) ltac:(lia)). pose proof (Z.rem_bound_abs a b ltac:(lia)). nia.
Qed.

(** ** Placing *)
Definition live_acct (w : world) (o : order) (taker : option Z) (owner fb fq : Z) : Prop :=
  match taker with
  | Some _ => has_room owner (w_accts w) (o_max_base o) (o_max_quote o) fb fq
  | None => acct_get owner (w_accts w) = None /\ post_target o = None
  end.

Lemma new_order_runs w cl ct P o oracle taker owner now limit rem price pd fb fq :
  Inv w 0 0 cl ct P -> 0 <= ct -> sane_order o -> tk_ok taker owner -> (taker <> None -> ~ In owner rem) ->
  order_price o (w_book w (invert_side (o_side o))) now oracle = Ok (price, pd) ->
  0 <= limit <= 255 -> m_seq (w_mkt w) + 1 <= 18446744073709551615 ->
  m_quote_total (w_mkt w) + (o_max_quote o + 1) * qls (w_mkt w) <= 9223372036854775807 ->
  m_base_total (w_mkt w) + o_max_base o * bls (w_mkt w) <= 9223372036854775807 ->
  heap_room (w_heap w) (limit + 6) -> live_acct w o taker owner fb fq ->
  (post_target o <> None -> forall T0, fits (o_side o) (w_book w (o_side o)) T0 -> (length (all_leaves T0) < 512)%nat) ->
  (exists w' r, new_order w o oracle taker owner now limit rem = Ok (w', r) /\ 0 <= oa_referrer r <= oa_taker_fees r /\
     (o_side o = Ask -> oa_taker_fees r <= oa_quote_taken r) /\
     (taker <> None -> exists a, acct_get owner (w_accts w') = Some a /\ p_penalty (a_pos a) < 18446744073709551615 /\
       fb <= p_base_free (a_pos a) /\ fq <= p_quote_free (a_pos a))) \/
  (o_self_trade o = AbortTransaction /\ new_order w o oracle taker owner now limit rem = Err WouldSelfTrade /\
     taker = Some owner /\ exists t l, In (t, l) (pleaves (invert_side (o_side o)) P) /\ lf_owner l = owner) \/
  (is_fill_or_kill o = true /\ new_order w o oracle taker owner now limit rem = Err WouldExecutePartially).
Proof.
  intros [HR HL Gb Gq Gv Gf Gl Gt] Hct Hso Htk Hrem Hp Hlim Hsq Hmq Hmb Hheap Hacct Hlen.
  pose proof (rep_sound _ _ HR HL) as Hws. pose proof (sound_call_of _ _ _ _ Hws Hso Htk) as Hsc.
  pose proof Hws as [Hc _]. pose proof Hso as [Hb0 Hq0 _].
  destruct (rp_side _ _ HR (invert_side (o_side o))) as (T & Hf & HP).
  destruct (order_price_facts _ _ _ _ _ _ Hso Hp) as (Rp & Rpd & _ & Hkey & _).
  set (s := o_side o) in *. set (os := invert_side s) in *. set (m := w_mkt w) in *.
  set (m0 := m_set_seq m (m_seq m + 1)) in *.
  pose proof (cs_qls _ Hc) as C1. change (c_qls (m_cfg m)) with (qls m) in C1.
  pose proof (cs_bls _ Hc) as C2. change (c_bls (m_cfg m)) with (bls m) in C2. unfold i64_max in C1, C2.
  pose proof (cs_taker _ Hc) as C4. change (c_taker_fee (m_cfg m)) with (taker_fee m) in C4. unfold FEES_SCALE in C4.
  assert (Hmt : 0 <= m_quote_total m /\ 0 <= m_base_total m /\ 0 <= m_seq m).
  { destruct (ld_mkt _ _ _ HL) as [_ [M1 _] [M2 _] _ _ [M3 _] _ _ _ _]. auto. }
  assert (Hc0 : cfg_sound (m_cfg m0)) by exact Hc.
  assert (Eq0 : qls m0 = qls m) by reflexivity. assert (Eb0 : bls m0 = bls m) by reflexivity.
  assert (Hoq : o_max_quote o + 1 <= 9223372036854775807) by nia. assert (Hob : o_max_base o <= 9223372036854775807) by nia.
  (* the budget *)
  assert (Hmax : exists maxq, (match s with
                | Bid => if is_post_only o then Ok (o_max_quote o) else subtract_taker_fees m0 (o_max_quote o)
                | Ask => Ok (o_max_quote o) end) = Ok maxq).
  { destruct s; [|eauto]. destruct (is_post_only o); [eauto|]. unfold subtract_taker_fees, FEES_SCALE.
    change (taker_fee m0) with (taker_fee m). rewrite chk_i128_in by lia. cbn [bind]. rewrite chk_i128_in by lia. cbn [bind].
    replace (1000000 + taker_fee m =? 0) with false by lia. rewrite quot_nonneg by lia. eexists. apply chk_i64_in.
    split; [assert (0 <= o_max_quote o * 1000000 / (1000000 + taker_fee m)) by (apply Z.div_pos; lia); lia|].
    apply Z.div_le_upper_bound; nia. }
  destruct Hmax as (maxq & Hmax).
  destruct (maxq_facts (w_set_mkt w m0) o maxq Hc Hq0 Hmax) as [Hmxq _].
  (* the loop *)
  set (items := merged (w_book w os) T now oracle).
  assert (Hit : iter_all (w_book (w_set_mkt w m0) os) now oracle = Ok items).
  { replace (w_book (w_set_mkt w m0) os) with (w_book w os) by (destruct os; reflexivity).
    apply iter_all_spec; [exact (ft_ok _ _ _ Hf)|exact (ft_leaves _ _ _ Hf)]. }
  assert (Hin : forall i, In i items -> In (order_of i) (pleaves os P)).
  { intros i Hi. apply (Permutation_in _ HP). apply in_all_leaves. apply merged_in in Hi as [Hi _]. apply oitems_leaf in Hi. exact Hi. }
  assert (HL0 : Led m0 (w_accts w) P) by (apply led_seq; [lia|exact HL]).
  destruct (gaps_seq m (w_accts w) P (m_seq m + 1)) as (Q1 & Q2 & Q3 & Q4 & _ & Q6). fold m0 in Q1, Q2, Q3, Q4, Q6.
  assert (Hready : ready o 1 items (start_ms w o maxq limit) P).
  { constructor; cbn [start_ms ms_w ms_limit ms_dropped ms_base ms_quote ms_dec ms_rebates w_set_mkt w_mkt w_accts w_heap]; fold m m0; rewrite ?Eq0, ?Eb0.
    - exact HL0.
    - exact (rp_heap _ _ HR).
    - apply (room_le _ _ _ Hheap). lia.
    - apply Forall_forall. intros i Hi. destruct (listed_facts _ _ _ _ _ _ Hf Hi) as (L1 & L2 & L3 & L4).
      split; [exact L4|]. split; [exact L3|]. intros V Es. apply L2 in V as [_ V]. unfold right_price in L1.
      destruct (im_tree i) eqn:Et; [exact L1|]. change (invert_side (o_side o)) with os in Es. specialize (V eq_refl). rewrite Es in V.
      destruct V as [V1|V1]; [|exact V1]. exfalso.
      apply Hin in Hi. unfold order_of in Hi. rewrite Et in Hi. apply leaf_piece in Hi as (lp & Hi).
      pose proof (ld_piece _ _ _ HL _ Hi) as [_ K2 _ _ _ K6]. rewrite Es in K6. cbn [pc_lp] in K2. lia.
    - exact Hin.
    - apply merged_orders_nodup. exact (ft_ok _ _ _ Hf).
    - lia.
    - nia.
    - lia.
    - nia.
    - change (m_quote_total m0) with (m_quote_total m). rewrite Q2, Gq. nia.
    - change (m_base_total m0) with (m_base_total m). rewrite Q1, Gb. nia.
    - rewrite Q3. nia.
    - rewrite Q4. nia.
    - exact Hlim.
    - lia. }
  remember (new_order w o oracle taker owner now limit rem) as R eqn:ER. unfold new_order in ER. cbv zeta in ER. fold s os m in ER. rewrite Hp in ER. cbn [bind] in ER. unfold gen_order_id in ER. rewrite (chk_u64_in (m_seq m + 1)) in ER by lia. cbn [bind] in ER.
  fold m0 in ER. rewrite Hmax in ER. cbn [bind] in ER. unfold max_base_lots, max_quote_lots in ER. rewrite Eq0, Eb0 in ER. unfold div_i64 at 1 2 in ER.
  replace (bls m =? 0) with false in ER by lia. replace (qls m =? 0) with false in ER by lia. unfold i64_max in ER. rewrite !quot_nonneg in ER by lia.
  assert (D1 : o_max_base o <= 9223372036854775807 / bls m <= 9223372036854775807).
  { split; [apply Z.div_le_lower_bound; lia|apply Z.div_le_upper_bound; nia]. }
  assert (D2 : maxq <= 9223372036854775807 / qls m <= 9223372036854775807).
  { split; [apply Z.div_le_lower_bound; nia|apply Z.div_le_upper_bound; nia]. }
  rewrite (chk_i64_in (9223372036854775807 / bls m)) in ER by lia. cbn [bind] in ER.
  replace (o_max_base o <=? 9223372036854775807 / bls m) with true in ER by lia. cbn [require bind] in ER.
  rewrite (chk_i64_in (9223372036854775807 / qls m)) in ER by lia. cbn [bind] in ER.
  replace (maxq <=? 9223372036854775807 / qls m) with true in ER by lia. cbn [require bind] in ER.
  rewrite Hit in ER. cbn [bind] in ER. 
  change (mkMs (w_set_mkt w m0) (o_max_base o) maxq 0 0 [] [] 0 0 limit (post_target o)) with (start_ms w o maxq limit) in ER.
  destruct (match_loop_runs o price taker owner rem now 1 Htk Hrem ltac:(lia) items _ _ Hready) as [(ms & Ems & Hh1)|(Ea & Ems & j & Hj1 & Hj2 & _ & _ & Hj3)].
  2:{ right. left. split; [exact Ea|]. split; [rewrite Ems in ER; exact ER|]. split; [exact Hj2|].
      exists (im_tree j), (im_leaf j). split; [exact (Hin _ Hj1)|symmetry; exact Hj3]. }
  rewrite Ems in ER. cbn [bind] in ER.
  apply match_loop_trace in Ems as (acts & lf & Htr).
  pose proof (lt_sub _ _ _ _ _ _ _ _ _ _ _ Htr) as Hsub.
  pose proof (lt_amounts _ _ _ _ _ _ Htk _ _ _ _ _ Htr) as (A1 & A2 & A3 & A4 & Ech & Ede & _).
  pose proof (lt_acts _ _ _ _ _ _ _ _ _ _ _ Htr (merged_items_ok _ _ _ _ _ Hf) Hb0 (proj1 Hmxq)) as (Haf & Hb & Hq).
  pose proof (lt_effects _ _ _ _ _ _ Htk _ _ _ _ _ Htr) as Hef.
  pose proof (own_quote_bounds _ _ _ _ _ Haf) as [Hown Hbl].
  cbn [start_ms ms_base ms_quote ms_dec ms_rebates ms_w ms_changes ms_deletes app] in A1, A2, A3, A4, Ech, Ede. rewrite Z.add_0_l in A3, A4.
  cbn [w_set_mkt w_mkt] in A4. fold m m0 in A4.
  assert (Hina : forall a, In a acts -> In (order_of (act_item a)) (pleaves os P)).
  { intros a Ha. apply Hin. apply (sublist_in _ _ _ Hsub). apply in_map. exact Ha. }
  assert (Hne : taker = None -> forall a, In a acts -> lf_owner (im_leaf (act_item a)) <> owner).
  { intros Et a Ha Eo. apply Hina in Ha. apply leaf_piece in Ha as (lp & Ha). destruct (ld_back _ _ _ HL _ Ha) as (x & Hx & _).
    cbn [pc_owner] in Hx. rewrite Eo in Hx. rewrite Et in Hacct. destruct Hacct as [E _]. congruence. }
  assert (Hpg : forall a, In a acts -> os = Bid -> im_tree (act_item a) = OraclePegged -> lf_peg_limit (im_leaf (act_item a)) <> -1).
  { intros a Ha Es Et. apply Hina in Ha. unfold order_of in Ha. apply leaf_piece in Ha as (lp & Ha). pose proof (ld_piece _ _ _ HL _ Ha) as [_ K2 _ _ _ K6].
    rewrite Es, Et in K6. cbn [pc_lp] in K2. lia. }
  assert (Hql : 0 <= quote_lots acts <= maxq) by lia.
  assert (Hq1 : quote_lots acts * qls m0 <= 9223372036854775807) by (rewrite Eq0; nia).
  pose proof (rebates_counted _ _ _ _ m0 Hc0 _ Haf Hq1 Hne) as Hreb.
  pose proof (rebates_le _ _ _ _ m0 Hc0 _ Haf Hne) as Hreb1.
  pose proof (rebates_covered _ _ _ _ m0 _ Hc0 Haf Hne) as Hreb2.
  pose proof (fees_le _ _ _ _ m0 Hc0 _ Haf) as Hfee1.
  pose proof (acts_akey_nodup _ _ _ _ _ (ft_ok _ _ _ Hf) Hsub) as Hak.
  assert (Hkn : Forall (act_known os m0) acts) by (eapply acts_known; [exact Hf|exact Hc0|exact Haf|exact Hq1|exact Hsub|exact Hpg]).
  destruct (effects_led _ _ _ _ _ _ _ _ Hef P) as (P1 & HL1 & Hhr1 & B1 & O1 & S1 & I1); fold s os.
  { exact HL0. }
  { exact (rp_heap _ _ HR). }
  { apply (Permutation_NoDup (Permutation_map lkey HP)). eapply all_leaves_keys. exact (ft_ok _ _ _ Hf). }
  { exact Hak. }
  { exact Hina. }
  { exact Hkn. }
  fold s os in O1, S1, B1. cbn [start_ms ms_w w_set_mkt w_mkt w_accts] in B1. fold m m0 in B1.
  rewrite sum_db, sum_dq, Eq0, Eb0 in B1. pose proof B1 as [D3 D4 D5 D6 _ D8].
  pose proof (effects_rest _ _ _ _ _ _ _ _ Hef) as (_ & _ & Ecm & Esm & (_ & _ & Etb & Etq & _)).
  cbn [start_ms ms_w w_set_mkt w_mkt] in Ecm, Esm, Etb, Etq. fold m m0 in Ecm, Esm, Etb, Etq.
  change (m_base_total m0) with (m_base_total m) in Etb. change (m_quote_total m0) with (m_quote_total m) in Etq.
  assert (Eqm : qls (w_mkt (ms_w ms)) = qls m) by (apply qls_eq; exact Ecm).
  assert (Ebm : bls (w_mkt (ms_w ms)) = bls m) by (apply bls_eq; exact Ecm).
  assert (Hms : ms_rebates ms = sumZ (map (act_rebate m0 owner) acts)) by (rewrite A4; exact Hreb).
  set (SQ := sumZ (map (self_quote taker owner) acts)) in *.
  assert (Etp : forall x, taker_pays (w_mkt (ms_w ms)) x = taker_pays m x) by (intros x; apply taker_pays_eq; exact Ecm).
  change (taker_pays m0) with (taker_pays m) in Hreb2. rewrite Eq0 in Hreb1, Hreb2, Hfee1.
  assert (Htf : 0 <= taker_pays m ((quote_lots acts - SQ) * qls m) <= (quote_lots acts - SQ) * qls m) by (apply taker_pays_bounds; [exact Hc|nia]).
  assert (Hqs : (quote_lots acts - SQ) * qls m <= quote_lots acts * qls m) by nia.
  assert (Hqmax : quote_lots acts * qls m <= maxq * qls m) by nia.
  assert (Hqmax2 : maxq * qls m <= o_max_quote o * qls m) by nia.
  assert (Hbmax : base_lots acts * bls m <= o_max_base o * bls m) by nia.
  assert (Hbl0 : 0 <= base_lots acts * bls m) by nia.
  destruct (settle_runs o taker owner maxq ms P1 Htk HL1) as (w2 & bt & qt & tf & ra & rq & Hst).
  { intros Et. rewrite Et in *. 
    assert (G : has_room owner (w_accts (ms_w ms)) (o_max_base o) (o_max_quote o) fb fq).
    { eapply (effects_roomy _ _ _ _ _ _ _ _ _ _ _ Hef (Hrem ltac:(discriminate)) P); [exact HL0|exact (rp_heap _ _ HR)|exact Hak|exact Hina|exact Hkn|exact Hacct]. }
    destruct G as (a & Ha & _). exists a. exact Ha. }
  { lia. } { lia. } { rewrite Eqm. lia. } { lia. } { rewrite Ebm. lia. } { lia. }
  { rewrite Eqm, Etp, Hms, A3. replace (maxq - ms_quote ms) with (quote_lots acts) by lia. lia. }
  { rewrite Eqm, Etp, Hms, A3, D4, Q2, Gq, Etq. replace (maxq - ms_quote ms) with (quote_lots acts) by lia. fold s. destruct s; lia. }
  { rewrite Ebm, D3, Q1, Gb, Etb. replace (o_max_base o - ms_base ms) with (base_lots acts) by lia. fold s. destruct s; lia. }
  { rewrite Eqm, Etp, A3, D6, Q4. replace (maxq - ms_quote ms) with (quote_lots acts) by lia. lia. }
  { rewrite Eqm, D8, Q6. replace (maxq - ms_quote ms) with (quote_lots acts) by lia. lia. }
  rewrite Hst in ER. cbn [bind] in ER.
  pose proof (settle_taker_rest _ _ _ _ _ _ _ _ _ _ Hst) as [Sr2 Hh2].
  destruct (settle_led o taker owner maxq ms w2 bt qt tf ra rq P1 Htk Hq ltac:(lia) ltac:(lia) ltac:(rewrite Eqm, A3, Hms; replace (maxq - ms_quote ms) with (quote_lots acts) by lia; lia) Hst HL1)
    as (Era & Ra & Htq & HL2 & _ & B2). fold s in B2.
  pose proof (same_bal_trans _ _ _ _ _ _ _ _ _ _ _ _ _ _ _ _ _ _ _ _ _ B1 B2) as B12.
  (* the opposing book *)
  pose proof (effects_rest _ _ _ _ _ _ _ _ Hef) as Sr1.
  assert (Hbk : forall u, w_book w2 u = w_book w u).
  { intros u. rewrite (same_rest_book _ _ _ Sr2), (same_rest_book _ _ _ Sr1). unfold start_ms. cbn [ms_w]. destruct u; reflexivity. }
  pose proof (merged_on_book _ _ _ _ _ (ft_ok _ _ _ Hf) Hsub) as Hon.
  destruct (book_apply _ _ acts (ft_ok _ _ _ Hf) Hon Hak) as (c1 & c2 & T2 & AA1 & AA2 & _).
  rewrite Hbk, Ech, AA1 in ER. cbn [bind] in ER. rewrite Ede, AA2 in ER. cbn [bind] in ER. rewrite w_set_book_mkt in ER.
  (* what is left *)
  destruct Sr2 as (_ & _ & Ec2 & Es2 & (_ & _ & Etb2 & Etq2 & _)).
  assert (Ecfg : m_cfg (w_mkt w2) = m_cfg m) by (rewrite Ec2; exact Ecm).
  assert (Hst' := Hst). apply settle_taker_inv in Hst'; [|rewrite Ecm; exact Hc|exact Hq|lia].
  cbv zeta in Hst'. destruct Hst' as (_ & _ & Ebt & Eqt & _ & _ & Etf & _ & _ & Erq & _).
  rewrite Eqm in Eqt, Etf, Erq. rewrite Ebm in Ebt. rewrite Etp, A3 in Etf.
  replace (maxq - ms_quote ms) with (quote_lots acts) in Eqt, Etf, Erq by lia. fold SQ in Etf.
  replace (o_max_base o - ms_base ms) with (base_lots acts) in Ebt by lia.
  assert (Htf' : 0 <= tf <= quote_lots acts * qls m) by lia.
  assert (Hfl : 0 <= (tf + qls m - 1) / qls m <= o_max_quote o).
  { split; [apply Z.div_pos; lia|]. assert ((tf + qls m - 1) / qls m < quote_lots acts + 1); [|lia]. apply Z.div_lt_upper_bound; lia. }
  assert (Hfl2 : tf <= (tf + qls m - 1) / qls m * qls m).
  { pose proof (Z.div_mod (tf + qls m - 1) (qls m) ltac:(lia)). pose proof (Z.mod_pos_bound (tf + qls m - 1) (qls m) ltac:(lia)). lia. }
  assert (Hrq : -9223372036854775807 <= rq <= o_max_quote o - quote_lots acts) by lia.
  destruct (maker_fees_ceil_any (w_mkt w2) rq ltac:(rewrite Ecfg; exact Hc) ltac:(lia)) as (mf & Emf & Hmf).
  rewrite Emf in ER. cbn [bind] in ER. rewrite chk_i64_in in ER by lia. cbn [bind] in ER.
  change (if negb (order_peg_limit o =? -1) && side_eqb s Bid then order_peg_limit o else price) with (lock_price o price) in ER.
  change (negb (order_peg_limit o =? -1)) with (own_peg o) in ER.
  pose proof (lock_price_pos o price Hso ltac:(lia)) as Hlp1.
  destruct (quot_bound (rq - mf) (lock_price o price) Hlp1 ltac:(lia)) as [Hdiv Hdiv2]. rewrite Hdiv in ER. cbn [bind] in ER.
  fold (post_qty o price ms rq mf) in ER.
  destruct (is_fill_or_kill o && (0 <? ms_base ms)) eqn:Ef; cbn [negb require bind] in ER.
  { right. right. apply andb_prop in Ef as [Ef _]. split; [exact Ef|exact ER]. }
  left.
  assert (Hroom2 : taker <> None -> has_room owner (w_accts w2) (o_max_base o) (o_max_quote o) fb fq).
  { intros Hn. destruct taker as [k|]; [|congruence]. assert (k = owner) as -> by (destruct Htk as [E|E]; congruence).
    eapply (settle_roomy o owner maxq ms w2 _ _ _ _ _ _ _ _ _); [rewrite Ecm; exact Hc|exact Hq|lia|exact Hst|].
    eapply (effects_roomy _ _ _ _ _ _ _ _ _ _ _ Hef (Hrem ltac:(discriminate)) P); [exact HL0|exact (rp_heap _ _ HR)|exact Hak|exact Hina|exact Hkn|exact Hacct]. }
  assert (Hnone : R = Ok (w_set_book w2 os c2, mkAmounts None 0 0 bt qt tf 0 ra) -> exists w' r, R = Ok (w', r) /\ 0 <= oa_referrer r <= oa_taker_fees r /\ (s = Ask -> oa_taker_fees r <= oa_quote_taken r) /\
    (taker <> None -> exists a, acct_get owner (w_accts w') = Some a /\ p_penalty (a_pos a) < 18446744073709551615 /\
       fb <= p_base_free (a_pos a) /\ fq <= p_quote_free (a_pos a))).
  { intros HR'. do 2 eexists. split; [exact HR'|]. cbn [oa_referrer oa_taker_fees oa_quote_taken].
    split; [lia|]. split; [lia|]. intros Hn. rewrite w_set_book_accts. destruct (Hroom2 Hn) as (a & Ha & _ & Hpn & _ & _ & _ & Hfr). eauto. }
  destruct (own_peg o && is_price_better s price (order_peg_limit o)) eqn:Epg; [exact (Hnone ER)|].
  destruct (post_qty o price ms rq mf <=? 0) eqn:Eqz; [exact (Hnone ER)|].
  destruct (ms_target ms) as [t|] eqn:Et; [|exact (Hnone ER)]. clear Hnone. apply Z.leb_gt in Eqz.
  set (qty := post_qty o price ms rq mf) in *. set (lp := lock_price o price) in *.
  assert (Hpt : post_target o = Some t).
  { destruct (lt_target _ _ _ _ _ _ _ _ _ _ _ Htr) as [E|E]; [cbn [start_ms ms_target] in E; congruence|congruence]. }
  assert (taker = Some owner) as ->.
  { destruct Htk as [E|E]; [exact E|]. rewrite E in Hacct. destruct Hacct as [_ E']. congruence. }
  assert (Hqty : qty <= ms_base ms /\ qty <= Z.quot (rq - mf) lp) by (unfold qty, post_qty; fold lp; lia).
  assert (Hqp : qty * lp <= rq - mf) by (specialize (Hdiv2 ltac:(lia)); exact (Z.le_trans _ _ _ (Z.mul_le_mono_nonneg_r _ _ lp ltac:(lia) (proj2 Hqty)) Hdiv2)).
  assert (Hqp0 : 0 < qty * lp) by (apply Z.mul_pos_pos; [exact Eqz|lia]).
  assert (Hrq1 : qty * lp <= o_max_quote o - quote_lots acts) by lia.
  set (id := new_node_key s pd (m_seq m + 1)) in *.
  set (wA := w_set_book w2 os c2) in *.
  assert (Em : w_mkt wA = w_mkt w2) by apply w_set_book_mkt.
  assert (Ea : w_accts wA = w_accts w2) by apply w_set_book_accts.
  assert (Eh : w_heap wA = w_heap w2) by (unfold wA; destruct os; reflexivity).
  assert (Eq2 : qls (w_mkt w2) = qls m) by (apply qls_eq; exact Ecfg).
  assert (Eb2 : bls (w_mkt w2) = bls m) by (apply bls_eq; exact Ecfg).
  pose proof (maker_locks_bounds (w_mkt w2) (qty * lp * qls m) ltac:(rewrite Ecfg; exact Hc) ltac:(clear - Hqp0 C1; nia)) as Hlk.
  assert (Hpq1 : qty * lp * qls m <= o_max_quote o * qls m - quote_lots acts * qls m) by (clear - Hrq1 C1; nia).
  assert (Hb9 : qty * bls m <= o_max_base o * bls m) by (clear - Hqty Hb A1 C2 Hbl; nia).
  destruct B12 as [F1 F2 _ _ _ _]. destruct (rp_side _ _ HR s) as (T0 & Hf0 & HP0).
  destruct (post_runs wA o owner rem oracle now id price lp qty t P1 T0 fb fq) as (w4 & pb & pq & mfees & Epost & Hpen).
  { fold s. unfold wA, os. rewrite w_book_set_inv', Hbk. exact Hf0. }
  { fold s. rewrite HP0. rewrite <- O1. reflexivity. }
  { rewrite Em, Ea. exact HL2. }
  { rewrite Eh, Hh2. exact Hhr1. }
  { apply (Hkey t (posted_leaf o owner now id 0 qty) (m_seq m + 1) Hpt); [lia|reflexivity]. }
  { lia. } { exact Hlp1. }
  { rewrite Em, Eb2. lia. }
  { rewrite Em, Eq2. lia. }
  { rewrite Em, Ea, Eq2, F2, Q2, Gq, Etq2, Etq. fold s. destruct s; lia. }
  { rewrite Em, Ea, F1, Q1, Gb, Etb2, Etb. fold s. destruct s; lia. }
  { rewrite Ea. destruct (Hroom2 ltac:(discriminate)) as (a & Ha & R1 & R2 & R3 & R4 & R5). exists a. split; [exact Ha|].
    split; [exact R1|]. lia. }
  { rewrite Eh, Hh2. exact Hh1. }
  { exact (Hlen ltac:(congruence) _ Hf0). }
  rewrite Epost in ER. cbn [bind] in ER. do 2 eexists. split; [exact ER|]. cbn [oa_referrer oa_taker_fees oa_quote_taken].
  split; [lia|]. split; [lia|]. intros _. exact Hpen.
Qed.
