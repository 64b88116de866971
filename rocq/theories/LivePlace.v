(** When placing an order goes through: settling and posting. *)
From Coq Require Import ZArith List Bool Lia ZifyBool Permutation.
From Verif Require Import Base Nodes OrderTree BookSide Heap Market OpenOrders Order Book
  BaseFacts NodesFacts HeapFacts TreeRep TreeFacts TreeOps TreeIter BookSideFacts BookSideOrder BookSpecProofs SpecBook SpecFees
  FeeFacts SpecOrder MatchFacts MatchBook OrderFacts PlaceFacts OrderSpecProofs OrderClaims Steps StepFacts SpecLedger SpecEvents Ledger LedgerOps LedgerMoves
  LedgerPlace LedgerOrder ConsumeFacts LiveFacts.
Import ListNotations.
Open Scope Z_scope.

(** ** What an account holds is within the totals *)
Lemma held_bounds m ac P k a : Led m ac P -> acct_get k ac = Some a ->
  p_base_free (a_pos a) <= base_gap m ac P + m_base_total m /\
  p_quote_free (a_pos a) + p_locked_fees (a_pos a) + asum p_rebates ac <= quote_gap m ac P + m_quote_total m /\
  p_rebates (a_pos a) <= asum p_rebates ac /\
  p_taker_volume (a_pos a) <= vol_taken m ac.
Proof.
  intros HL Ha. pose proof (ld_mkt _ _ _ HL) as Hm. pose proof (mk_cfg _ Hm) as Hc.
  assert (Hpos : forall j b, acct_get j ac = Some b -> pos_ok m (a_pos b)) by (intros j b Hb; apply (ac_pos _ _ _ _ (ld_acct _ _ _ HL _ _ Hb))).
  pose proof (fun f => asum_del_le f _ _ _ (ld_keys _ _ _ HL) Ha) as S6.
  pose proof (S6 p_base_free (fun k b H => proj1 (po_bf _ _ (Hpos k b H)))) as T1.
  pose proof (S6 p_quote_free (fun k b H => proj1 (po_qf _ _ (Hpos k b H)))) as T2.
  pose proof (S6 p_locked_fees (fun k b H => proj1 (po_lf _ _ (Hpos k b H)))) as T3.
  pose proof (S6 p_rebates (fun k b H => proj1 (po_rb _ _ (Hpos k b H)))) as T4.
  pose proof (S6 p_taker_volume (fun k b H => po_tv _ _ (Hpos k b H))) as T5.
  destruct (ld_acct _ _ _ HL _ _ Ha) as [[Q1 Q2 Q3 Q4 Q5 _ _ _] _ _ _ _ _ _].
  assert (Hin : forall p, In p P -> piece_ok m p) by (apply (ld_piece _ _ _ HL)).
  pose proof (cs_qls _ Hc) as C1. change (c_qls (m_cfg m)) with (qls m) in C1.
  pose proof (cs_bls _ Hc) as C2. change (c_bls (m_cfg m)) with (bls m) in C2.
  assert (S1 : 0 <= psum (base_claim m) P) by (apply psum_nonneg; intros p Hp; apply base_claim_nonneg; auto).
  assert (S2 : 0 <= psum (quote_claim m) P) by (apply psum_nonneg; intros p Hp; apply quote_claim_nonneg; auto).
  destruct Hm as [_ _ _ [M4 _] [M5 _] _ _ _ _ M9]. rewrite (ld_reb _ _ _ HL) in M5.
  unfold u64_ok in *. unfold base_gap, quote_gap, vol_taken. lia.
Qed.

Lemma taker_none_bound m ac P : Led m ac P -> m_taker_volume_wo_oo m <= vol_taken m ac.
Proof.
  intros HL. unfold vol_taken.
  pose proof (asum_nonneg p_taker_volume ac (ld_keys _ _ _ HL) (fun k b H => po_tv _ _ (ac_pos _ _ _ _ (ld_acct _ _ _ HL _ _ H)))). lia.
Qed.
Lemma accrued_bound m ac P : Led m ac P -> m_fees_accrued m <= fee_all m P.
Proof.
  intros HL. unfold fee_all. assert (0 <= psum (fee_wait m) P); [|lia].
  apply psum_nonneg. intros [s t l lp|e lp i|g i] Hp; cbn [fee_wait]; try lia.
  pose proof (fill_amounts m g i (mk_cfg _ (ld_mkt _ _ _ HL)) (ld_piece _ _ _ HL _ Hp)). lia.
Qed.

(** ** Settling *)
Lemma settle_runs o taker owner maxq ms P : let m := w_mkt (ms_w ms) in let ac := w_accts (ms_w ms) in
  tk_ok taker owner -> Led m ac P -> (taker = Some owner -> exists a, acct_get owner ac = Some a) ->
  0 <= ms_quote ms <= maxq -> maxq <= o_max_quote o -> (o_max_quote o + 1) * qls m <= 9223372036854775807 ->
  0 <= ms_base ms <= o_max_base o -> o_max_base o * bls m <= 9223372036854775807 ->
  0 <= ms_dec ms <= maxq - ms_quote ms ->
  let qt := (maxq - ms_quote ms) * qls m in
  let tf := taker_pays m ((maxq - ms_quote ms - ms_dec ms) * qls m) in
  0 <= ms_rebates ms <= tf ->
  quote_gap m ac P + m_quote_total m + match o_side o with Bid => 0 | Ask => qt - tf end + (tf - ms_rebates ms) <= 18446744073709551615 ->
  base_gap m ac P + m_base_total m + match o_side o with Bid => (o_max_base o - ms_base ms) * bls m | Ask => 0 end <= 18446744073709551615 ->
  fee_all m P + tf <= 340282366920938463463374607431768211455 ->
  vol_taken m ac + qt <= 340282366920938463463374607431768211455 ->
  exists w' bt qt' tf' ra rq, settle_taker o taker maxq ms = Ok (w', bt, qt', tf', ra, rq).
Proof.
  intros m ac Htk HL Hacc Hq Hmq Hcq Hb Hcb Hd qt tf Hr Gq Gb Gf Gv.
  pose proof (ld_mkt _ _ _ HL) as Hm. pose proof (mk_cfg _ Hm) as Hc.
  pose proof (cs_qls _ Hc) as C1. change (c_qls (m_cfg m)) with (qls m) in C1.
  pose proof (cs_bls _ Hc) as C2. change (c_bls (m_cfg m)) with (bls m) in C2. unfold i64_max in C1, C2.
  assert (Hwo : 0 <= (maxq - ms_quote ms - ms_dec ms) * qls m <= qt) by (unfold qt; nia).
  assert (Hqt : qt + qls m <= 9223372036854775807) by (unfold qt; nia).
  assert (Htf : 0 <= tf <= (maxq - ms_quote ms - ms_dec ms) * qls m) by (apply taker_pays_bounds; [exact Hc|lia]).
  assert (Hbt : 0 <= (o_max_base o - ms_base ms) * bls m <= 9223372036854775807) by nia.
  assert (Hmqi : o_max_quote o <= 9223372036854775807) by nia. assert (Hmbi : o_max_base o <= 9223372036854775807) by nia.
  pose proof (accrued_bound _ _ _ HL) as Hacr. pose proof (mk_accr _ Hm) as Hac0.
  unfold settle_taker. cbv zeta. fold m.
  rewrite (chk_i64_in (maxq - ms_quote ms)) by lia. cbn [bind]. rewrite (chk_i64_in (o_max_base o - ms_base ms)) by lia. cbn [bind].
  replace (0 <=? maxq - ms_quote ms) with true by lia. replace (0 <=? o_max_base o - ms_base ms) with true by lia. cbn [massert require bind].
  rewrite chk_i64_in by lia. cbn [bind]. fold qt. rewrite (chk_i64_in qt) by lia. cbn [bind].
  rewrite (as_u64_id ((o_max_base o - ms_base ms) * bls m)) by lia. rewrite (as_u64_id qt) by lia.
  set (bt := (o_max_base o - ms_base ms) * bls m) in *.
  match goal with |- exists w' b q t r x, bind ?X _ = _ => assert (G : exists w1 tf1 ra1, X = Ok (w1, tf1, ra1) /\ 0 <= tf1 <= qt) end.
  { destruct ((0 <? maxq - ms_quote ms) || (0 <? o_max_base o - ms_base ms)) eqn:Eany; [|do 3 eexists; split; [reflexivity|lia]].
    rewrite (chk_i64_in (maxq - ms_quote ms - ms_dec ms)) by lia. cbn [bind]. rewrite chk_i64_in by lia. cbn [bind].
    rewrite as_u64_id by lia.
    match goal with |- exists w1 a1 b1, bind ?Y _ = _ /\ _ => assert (G1 : Y = Ok (w_set_mkt (ms_w ms) (if 0 <? (maxq - ms_quote ms - ms_dec ms) * qls m then m_set_fees_accrued m (m_fees_accrued m + (tf - ms_rebates ms)) else m), tf, tf - ms_rebates ms)) end.
    { destruct (0 <? (maxq - ms_quote ms - ms_dec ms) * qls m) eqn:E.
      - unfold chk_u64. rewrite taker_fees_ceil_in by (try exact Hc; lia). fold tf. change (chk _ tf) with (chk_u64 tf). rewrite chk_u64_in by lia. cbn [bind].
        change (chk _ (tf - ms_rebates ms)) with (chk_u64 (tf - ms_rebates ms)). rewrite chk_u64_in by lia. cbn [bind].
        rewrite chk_u128_in by lia. reflexivity.
      - assert (tf = 0) as -> by lia. assert (ms_rebates ms = 0) as -> by lia. destruct (ms_w ms); reflexivity. }
    rewrite G1. cbn [bind]. cbn [w_set_mkt w_mkt w_accts]. fold ac.
    set (m1 := if 0 <? (maxq - ms_quote ms - ms_dec ms) * qls m then m_set_fees_accrued m (m_fees_accrued m + (tf - ms_rebates ms)) else m).
    assert (Em1 : m_rebates_accrued m1 = m_rebates_accrued m /\ m_taker_volume_wo_oo m1 = m_taker_volume_wo_oo m)
      by (unfold m1; destruct (0 <? (maxq - ms_quote ms - ms_dec ms) * qls m); split; reflexivity). destruct Em1 as [Em1 Em2].
    match goal with |- exists w1 a1 b1, bind ?Y _ = _ /\ _ => assert (G2 : exists w2, Y = Ok w2) end.
    { destruct taker as [k|].
      - assert (k = owner) as -> by (destruct Htk as [E|E]; congruence). destruct (Hacc eq_refl) as (a & Ha).
        rewrite (load_get _ _ _ Ha). cbn [bind].
        destruct (held_bounds _ _ _ _ _ HL Ha) as (B1 & B2 & B3 & B4).
        destruct (ac_pos _ _ _ _ (ld_acct _ _ _ HL _ _ Ha)) as [Q1 Q2 Q3 Q4 _ _ Q7 _]. unfold u64_ok in *.
        unfold execute_taker. cbv zeta. rewrite Em1, (ld_reb _ _ _ HL). fold ac.
        revert Gq Gb. destruct (o_side o); intros Gq Gb.
        + rewrite chk_u64_in by lia. cbn [bind p_set_base_free p_taker_volume p_rebates].
          rewrite chk_u128_in by lia. cbn [bind]. rewrite chk_u64_in by lia. cbn [bind]. rewrite chk_u64_in by lia. cbn [bind]. eexists. reflexivity.
        + rewrite chk_u64_in by lia. cbn [bind]. rewrite chk_u64_in by lia. cbn [bind p_set_quote_free p_taker_volume p_rebates].
          rewrite chk_u128_in by lia. cbn [bind]. rewrite chk_u64_in by lia. cbn [bind]. rewrite chk_u64_in by lia. cbn [bind]. eexists. reflexivity.
      - rewrite Em2. pose proof (taker_none_bound _ _ _ HL) as B. pose proof (mk_tv _ Hm). fold ac in B. rewrite chk_u128_in by lia. cbn [bind]. eexists. reflexivity. }
    destruct G2 as (w2 & ->). cbn [bind].
    destruct (o_side o); rewrite chk_u64_in by lia; cbn [bind]; do 3 eexists; (split; [reflexivity|lia]). }
  destruct G as (w1 & tf1 & ra1 & -> & Htf1). cbn [bind].
  rewrite as_i64_id by lia. rewrite chk_i64_in by lia. cbn [bind]. rewrite chk_i64_in by lia. cbn [bind].
  assert (Hdiv : 0 <= (tf1 + qls m - 1) / qls m <= tf1 + qls m - 1).
  { split; [apply Z.div_pos; lia|]. apply Z.div_le_upper_bound; nia. }
  unfold div_i64 at 1. replace (qls m =? 0) with false by lia. rewrite quot_nonneg by lia. rewrite chk_i64_in by lia. cbn [bind].
  rewrite chk_i64_in by lia. cbn [bind]. rewrite chk_i64_in by lia. cbn [bind].
  do 6 eexists. reflexivity.
Qed.

(** ** Room in the account *)
Definition roomy (a : ooa) (mb mq fb fq : Z) : Prop :=
  (exists i oo, order_at a i = Ok oo /\ oo_free oo = true) /\ p_penalty (a_pos a) < 18446744073709551615 /\
  p_bids_base (a_pos a) + mb <= 9223372036854775807 /\ p_asks_base (a_pos a) + mb <= 9223372036854775807 /\
  p_bids_quote (a_pos a) + mq <= 9223372036854775807 /\
  fb <= p_base_free (a_pos a) /\ fq <= p_quote_free (a_pos a).
Definition has_room (k : Z) (ac : accounts) (mb mq fb fq : Z) : Prop := exists a, acct_get k ac = Some a /\ roomy a mb mq fb fq.

Lemma find_free_some l : forall i n oo, nth_error l n = Some oo -> oo_free oo = true -> exists j, find_free l i = Some j.
Proof.
  induction l as [|x l IH]; intros i n oo Hn Hf; [destruct n; discriminate Hn|]. cbn [find_free].
  destruct (oo_free x) eqn:E; [eauto|]. destruct n as [|n]; cbn [nth_error] in Hn; [congruence|]. eapply IH; eassumption.
Qed.
Lemma roomy_slot a mb mq fb fq : roomy a mb mq fb fq -> exists i, next_order_slot a = Ok i.
Proof.
  intros ((i & oo & Ho & Hf) & _). unfold order_at in Ho. apply bind_ok in Ho as (u & _ & Ho).
  destruct (nth_error (a_orders a) (Z.to_nat i)) as [x|] eqn:E; [|discriminate Ho]. injection Ho as ->.
  unfold next_order_slot. destruct (find_free_some _ 0 _ _ E Hf) as (j & ->). eauto.
Qed.

Lemma cancel_roomy m ac P s t l a a' mb mq fb fq : Led m ac P -> In (t, l) (pleaves s P) -> acct_get (lf_owner l) ac = Some a ->
  ooa_cancel_order a (lf_slot l) (lf_qty l) m = Ok a' -> roomy a mb mq fb fq -> roomy a' mb mq fb fq.
Proof.
  intros HL Hin Ha Hx ((i & oo & Ho & Hf) & R1 & R2 & R3 & R4).
  apply leaf_piece in Hin as (lp & Hin). pose proof (ld_piece _ _ _ HL _ Hin) as [K1 K2 K3 K4 _ _]. cbn [pc_qty pc_lp] in *.
  destruct (ld_back _ _ _ HL _ Hin) as (b & Hb & Hsl). cbn [pc_owner pc_last pc_slot] in *. rewrite Ha in Hb. injection Hb as <-.
  destruct (Hsl eq_refl) as (oo2 & Ho2 & Hf2 & _ & _ & Hlp & _).
  destruct (cancel_inv a (lf_slot l) (lf_qty l) m a' oo2 (mk_cfg _ (ld_mkt _ _ _ HL)) Ho2 ltac:(lia) ltac:(lia) ltac:(lia) ltac:(rewrite Hlp; lia) Hx)
    as (-> & _ & _).
  split.
  - exists i, oo. split; [|exact Hf]. unfold freed. rewrite order_at_set_other, order_at_pos; [exact Ho| |exact (order_at_nonneg _ _ _ Ho2)].
    intros E. rewrite E in Ho2. congruence.
  - pose proof (mk_cfg _ (ld_mkt _ _ _ HL)) as Hc. pose proof Hc as [C1 C2 _ _ _]. fold (qls m) in C1. fold (bls m) in C2.
    assert (B1 : 0 <= lf_qty l * bls m) by nia. assert (B2 : 0 <= lf_qty l * lp) by nia. assert (B3 : 0 <= lf_qty l * lp * qls m) by nia.
    pose proof (maker_locks_bounds m _ Hc B3) as B4.
    unfold freed. rewrite Hlp. unfold cancelled_pos. cbv zeta.
    destruct (oo_side oo2); cbn; lia.
Qed.

Lemma room_set_other k j a ac mb mq fb fq : k <> j -> has_room k ac mb mq fb fq -> has_room k (acct_set j a ac) mb mq fb fq.
Proof. intros Hne (b & Hb & Hr). exists b. split; [rewrite get_set_other by exact Hne; exact Hb|exact Hr]. Qed.

Lemma room_cancel m ac P s t l a a' k mb mq fb fq : Led m ac P -> In (t, l) (pleaves s P) -> acct_get (lf_owner l) ac = Some a ->
  ooa_cancel_order a (lf_slot l) (lf_qty l) m = Ok a' -> has_room k ac mb mq fb fq -> has_room k (acct_set (lf_owner l) a' ac) mb mq fb fq.
Proof.
  intros HL Hin Ha Hx Hr. destruct (Z.eq_dec k (lf_owner l)) as [-> | Hne]; [|apply room_set_other; assumption].
  destruct Hr as (b & Hb & Hr). rewrite Ha in Hb. injection Hb as <-. exists a'. split; [eapply acct_get_set_same; exact Ha|].
  eapply cancel_roomy; eassumption.
Qed.

Lemma drop_roomy tk rem now s t l w w' P k mb mq fb fq : drop_effect tk rem now s l w w' -> Led (w_mkt w) (w_accts w) P ->
  In (t, l) (pleaves s P) -> has_room k (w_accts w) mb mq fb fq -> has_room k (w_accts w') mb mq fb fq.
Proof.
  intros H HL Hin Hr. destruct H as [w a a' _ Ha Hx|w h _]; [|exact Hr].
  cbn [w_set_acct w_set_accts w_accts]. eapply room_cancel; eassumption.
Qed.

Lemma effect_roomy o owner rem now w a w' P mb mq fb fq : effect o (Some owner) owner rem now w a w' -> ~ In owner rem ->
  Led (w_mkt w) (w_accts w) P -> In (order_of (act_item a)) (pleaves (invert_side (o_side o)) P) ->
  has_room owner (w_accts w) mb mq fb fq -> has_room owner (w_accts w') mb mq fb fq.
Proof.
  intros H Hn HL Hin Hr. destruct H as [w i q x x' m' Hm _ _|w i q h _|w i w' H|w i x x' _ Ha Hx]; cbn [act_item] in Hin.
  - cbn [w_set_acct w_set_accts w_set_mkt w_accts]. apply room_set_other; [|exact Hr]. intros E. apply Hn. rewrite E. exact Hm.
  - exact Hr.
  - eapply drop_roomy; eassumption.
  - cbn [w_set_acct w_set_accts w_accts]. eapply room_cancel; eassumption.
Qed.

Lemma effects_roomy o owner rem now w acts w' mb mq fb fq : effects o (Some owner) owner rem now w acts w' -> ~ In owner rem ->
  forall P, let s := invert_side (o_side o) in
  Led (w_mkt w) (w_accts w) P -> hrep (w_heap w) P -> NoDup (map akey acts) ->
  (forall a, In a acts -> In (order_of (act_item a)) (pleaves s P)) -> Forall (act_known s (w_mkt w)) acts ->
  has_room owner (w_accts w) mb mq fb fq -> has_room owner (w_accts w') mb mq fb fq.
Proof.
  intros H Hn. induction H as [w|w a w1 r w2 H1 _ IH]; intros P s HL Hh Hak Hin Hk Hr; [exact Hr|].
  inversion Hk as [|a0 r0 Hk1 Hk2]; subst a0 r0. cbn [map] in Hak. inversion Hak as [|x y N1 N2]; subst x y.
  destruct (effect_led o (Some owner) owner rem now w a w1 P H1 HL Hh (Hin a (or_introl eq_refl)) Hk1)
    as (P1 & R & HL1 & Hh1 & _ & _ & S1 & S1' & _). fold s in S1, S1'.
  pose proof (effect_rest _ _ _ _ _ _ _ _ H1) as (_ & _ & Ec & _).
  apply (IH P1 HL1 Hh1 N2).
  - intros b Hb. apply (Permutation_in _ (Permutation_sym S1')). apply in_or_app. right.
    pose proof (Hin b (or_intror Hb)) as G. apply (Permutation_in _ S1) in G. destruct G as [G|G]; [|exact G].
    exfalso. apply N1. apply in_map_iff. exists b. split; [|exact Hb]. unfold akey. unfold order_of in G. injection G as G1 G2.
    rewrite <- G1, <- G2. reflexivity.
  - apply Forall_forall. intros b Hb. rewrite Forall_forall in Hk2. apply (act_cfg (w_mkt w) (w_mkt w1) s owner b Ec). apply Hk2. exact Hb.
  - eapply effect_roomy; [exact H1|exact Hn|exact HL|exact (Hin a (or_introl eq_refl))|exact Hr].
Qed.

Lemma settle_roomy o owner maxq ms w' bt qt tf ra rq mb mq fb fq : cfg_sound (m_cfg (w_mkt (ms_w ms))) ->
  0 <= ms_quote ms -> 0 <= ms_dec ms <= maxq - ms_quote ms ->
  settle_taker o (Some owner) maxq ms = Ok (w', bt, qt, tf, ra, rq) ->
  has_room owner (w_accts (ms_w ms)) mb mq fb fq -> has_room owner (w_accts w') mb mq fb fq.
Proof.
  intros Hc H1 H2 H Hr. apply settle_taker_inv in H; [|assumption..]. cbv zeta in H.
  destruct H as (B1 & _ & B2 & _ & _ & _ & _ & _ & _ & _ & H).
  assert (B3 : 0 <= bt) by (pose proof (cs_bls _ Hc) as C2; fold (bls (w_mkt (ms_w ms))) in C2; rewrite B2; nia).
  destruct ((0 <? maxq - ms_quote ms) || (0 <? o_max_base o - ms_base ms)); [|subst w'; exact Hr].
  destruct H as (m1 & _ & a & a' & m' & Ha & Hx & ->). cbn [w_set_acct w_set_accts w_set_mkt w_accts].
  destruct Hr as (b & Hb & Hr). rewrite Ha in Hb. injection Hb as <-.
  exists a'. split; [eapply acct_get_set_same; exact Ha|]. unfold execute_taker in Hx. cbv zeta in Hx.
  apply bind_ok in Hx as (p1 & E & Hx). do 3 (apply bind_ok in Hx as (? & _ & Hx)). injection Hx as <- _.
  unfold roomy. destruct Hr as (R1 & R2 & R3 & R4 & R5 & R6 & R7). split.
  - destruct R1 as (i & oo & R1). exists i, oo. rewrite order_at_pos. exact R1.
  - destruct (o_side o).
    + apply bind_ok in E as (x5 & E5 & E). apply chk_u64_ok in E5 as [-> _]. injection E as <-. cbn. lia.
    + apply bind_ok in E as (x5 & E5 & E). apply chk_u64_ok in E5 as [-> R8]. apply bind_ok in E as (x6 & E5 & E). apply chk_u64_ok in E5 as [-> _].
      injection E as <-. cbn. lia.
Qed.

(** ** Posting *)
Lemma led_lots_nonneg m ac P k a : Led m ac P -> acct_get k ac = Some a ->
  0 <= p_bids_base (a_pos a) /\ 0 <= p_asks_base (a_pos a) /\ 0 <= p_bids_quote (a_pos a).
Proof.
  intros HL Ha. destruct (ld_acct _ _ _ HL _ _ Ha) as [_ _ G3 G4 G5 _ _]. rewrite G3, G4, G5.
  assert (Hin : forall p, In p P -> piece_ok m p) by (apply (ld_piece _ _ _ HL)).
  split; [|split]; apply psum_nonneg; intros p Hp; unfold of_side; pose proof (pk_qty _ _ (Hin p Hp)); pose proof (pk_lp _ _ (Hin p Hp));
    destruct (_ && _); nia.
Qed.

Lemma post_runs w o owner rem oracle now id pl price qty t P T fb fq :
  let s := o_side o in let m := w_mkt w in let ac := w_accts w in
  fits s (w_book w s) T -> Permutation (all_leaves T) (pleaves s P) -> Led m ac P -> hrep (w_heap w) P ->
  order_ok t (posted_leaf o owner now id 0 qty) -> 0 < qty -> 1 <= price ->
  qty * bls m <= 9223372036854775807 -> qty * price * qls m <= 9223372036854775807 ->
  quote_gap m ac P + m_quote_total m + match s with Bid => maker_locks m (qty * price * qls m) | Ask => 0 end <= 18446744073709551615 ->
  base_gap m ac P + m_base_total m <= 18446744073709551615 ->
  has_room owner ac qty (qty * price) fb fq -> heap_room (w_heap w) 1 -> (length (all_leaves T) < 512)%nat ->
  exists w' pb pq mf, post_order w o (Some owner) owner rem oracle now id pl price qty t = Ok (w', pb, pq, mf) /\
    exists a, acct_get owner (w_accts w') = Some a /\ p_penalty (a_pos a) < 18446744073709551615 /\
      fb <= p_base_free (a_pos a) /\ fq <= p_quote_free (a_pos a).
Proof.
  intros s m ac Hfit HP HL Hh Hkey Hqty Hpr Hqb Hqq Gq Gb Hroom Hheap Hlen.
  pose proof (ld_mkt _ _ _ HL) as Hm. pose proof (mk_cfg _ Hm) as Hc.
  pose proof (cs_qls _ Hc) as C1. change (c_qls (m_cfg m)) with (qls m) in C1.
  pose proof (cs_bls _ Hc) as C2. change (c_bls (m_cfg m)) with (bls m) in C2. unfold i64_max in C1, C2.
  assert (Htk : tk_ok (Some owner) owner) by (left; reflexivity).
  assert (Hx : 0 < qty * price) by nia. assert (Hx2 : qty * price <= qty * price * qls m) by nia.
  unfold post_order. cbv zeta. fold s m.
  unfold max_quote_lots, div_i64. replace (qls m =? 0) with false by lia. unfold i64_max.
  rewrite (quot_nonneg 9223372036854775807 (qls m)) by lia.
  assert (Hcap : qty * price <= 9223372036854775807 / qls m <= 9223372036854775807).
  { split; [apply Z.div_le_lower_bound; lia|apply Z.div_le_upper_bound; nia]. }
  rewrite (chk_i64_in (9223372036854775807 / qls m)) by lia. cbn [bind].
  rewrite (chk_i64_in (qty * price)) by lia. cbn [bind]. replace (qty * price <=? 9223372036854775807 / qls m) with true by lia. cbn [require bind].
  rewrite (chk_i64_in (qty * bls m)) by nia. cbn [bind]. rewrite (chk_i64_in (qty * price * qls m)) by lia. cbn [bind unwrap].
  set (mf := match s with Bid => maker_locks m (qty * price * qls m) | Ask => 0 end) in *.
  pose proof (maker_locks_bounds m (qty * price * qls m) Hc ltac:(lia)) as Hlk.
  assert (Hmf : 0 <= mf) by (unfold mf; destruct s; lia).
  pose proof Hroom as (a0 & Ha0 & Hra).
  match goal with |- exists w' b q f, bind ?X _ = _ /\ _ => assert (G : exists w1, X = Ok (w1, mf) /\ locks s w owner mf w1) end.
  { unfold mf. unfold mf in Gq. revert Gq. destruct s; intros Gq; [|exists w; split; reflexivity].
    unfold chk_i64. rewrite maker_fees_ceil_in by (try exact Hc; lia).
    assert (E : (if 0 <? maker_fee m then chk in_i64 (maker_locks m (qty * price * qls m)) else Ok 0) = Ok (maker_locks m (qty * price * qls m))).
    { destruct (0 <? maker_fee m) eqn:E; [apply chk_i64_in; lia|]. unfold maker_locks. rewrite E. reflexivity. }
    rewrite E. cbn [bind]. rewrite chk_u64_in by lia. cbn [bind]. fold ac. rewrite (load_get _ _ _ Ha0). cbn [bind].
    destruct (held_bounds _ _ _ _ _ HL Ha0) as (_ & B2 & _ & _).
    destruct (ac_pos _ _ _ _ (ld_acct _ _ _ HL _ _ Ha0)) as [Q1 Q2 Q3 Q4 _ _ _ _]. unfold u64_ok in *.
    pose proof (mk_reb _ Hm) as M5. rewrite (ld_reb _ _ _ HL) in M5. unfold u64_ok in M5. fold ac in M5.
    rewrite chk_u64_in by lia. cbn [bind]. eexists. split; [reflexivity|]. exists a0. split; [exact Ha0|]. split; [lia|reflexivity]. }
  destruct G as (w1 & -> & Hlocks). cbn [bind].
  destruct (led_locks _ _ _ _ _ P Hlocks Hmf ltac:(intros E; unfold mf; rewrite E; reflexivity) HL (ex_intro _ a0 Ha0))
    as (Em1 & Eh1 & HL1 & [B1 B2 _ _ _ _] & _).
  assert (Hb1 : w_book w1 s = w_book w s).
  { unfold locks in Hlocks. destruct s; [destruct Hlocks as (a & _ & _ & ->); reflexivity|subst; reflexivity]. }
  assert (Hroom1 : has_room owner (w_accts w1) qty (qty * price) fb fq).
  { unfold locks in Hlocks. destruct s; [|subst w1; exact Hroom]. destruct Hlocks as (a & Ha & _ & ->).
    fold ac in Ha. rewrite Ha0 in Ha. injection Ha as <-. eexists. cbn [w_set_acct w_set_accts w_accts].
    split; [eapply acct_get_set_same; exact Ha0|]. destruct Hra as ((i & oo & R1) & R2). split; [|exact R2].
    exists i, oo. rewrite order_at_pos. exact R1. }
  pose proof Hfit as [Hok Hs Hr Hl Hq].
  rewrite Hb1. destruct (bs_remove_one_expired_spec _ _ t now Hok) as (b1 & old & T1 & E1 & Hok1 & Hs1 & Hm1).
  fold s in E1. rewrite E1. cbn [bind].
  match goal with |- exists w' b q f, bind ?X _ = _ /\ _ => assert (G : exists wa P2, X = Ok (w_set_book wa s b1) /\ Led (w_mkt wa) (w_accts wa) P2 /\
     has_room owner (w_accts wa) qty (qty * price) fb fq /\ (length (all_leaves T1) <= length (all_leaves T))%nat) end.
  { destruct old as [x|].
    - destruct Hm1 as (u & (Hx' & Hxf & HAB) & _).
      assert (Hperm : Permutation (all_leaves T) ((u, x) :: all_leaves T1)) by (apply (taken_perm u x T T1); split; auto).
      assert (Hin : In (u, x) (pleaves s P)).
      { apply (Permutation_in _ HP). apply (Permutation_in _ (Permutation_sym Hperm)). left. reflexivity. }
      destruct (out_runs (Some owner) owner rem Htk (w_set_book w1 s b1) P s u x now (h_seq (w_heap (w_set_book w1 s b1))) 1) as (w3 & E3 & _).
      { rewrite w_set_book_mkt, w_set_book_accts. exact HL1. }
      { rewrite w_set_book_hp, Eh1. exact Hh. }
      { rewrite w_set_book_mkt, w_set_book_accts. rewrite Em1 in *. unfold gaps_fit. fold m in B1, B2 |- *. rewrite B1, B2. fold ac. split; lia. }
      { exact Hin. }
      { rewrite w_set_book_hp, Eh1. exact Hheap. }
      { lia. }
      rewrite E3. pose proof E3 as E4. apply process_out_effect in E4; [|exact Htk]. apply drop_effect_book in E4 as (wa & -> & Hd).
      destruct (drop_led _ _ _ _ u _ _ _ P Hd HL1 ltac:(rewrite Eh1; exact Hh) Hin) as (_ & P2 & HL2 & _).
      exists wa, P2. split; [reflexivity|]. split; [exact HL2|]. split; [eapply drop_roomy; [exact Hd|exact HL1|exact Hin|exact Hroom1]|].
      rewrite (Permutation_length Hperm). cbn [length]. lia.
    - destruct Hm1 as [Hm1 _]. exists w1, P. split; [reflexivity|]. split; [exact HL1|]. split; [exact Hroom1|].
      rewrite (all_leaves_ext _ _ Hm1). lia. }
  destruct G as (wa & P2 & -> & HL2 & Hroom2 & Hlen1). cbn [bind]. rewrite w_book_set.
  destruct (is_full (bs_nodes b1)) eqn:Ef.
  { exfalso. pose proof (full_count _ _ Hok1 Ef) as Hfc. assert (E512 : (512 <= length (all_leaves T1))%nat) by (unfold all_leaves; rewrite app_length, !map_length; exact Hfc). lia. }
  cbn [bind]. rewrite w_set_book_accts. destruct Hroom2 as (a2 & Ha2 & Hr2). rewrite (load_get _ _ _ Ha2). cbn [bind].
  destruct (roomy_slot _ _ _ _ _ Hr2) as (slot & Hslot). rewrite Hslot. cbn [bind]. rewrite w_book_set.
  fold (posted_leaf o owner now id slot qty). set (nl := posted_leaf o owner now id slot qty).
  assert (Hnl : order_ok t nl) by exact Hkey. pose proof (order_ok_leaf_ok _ _ Hnl) as Hnl'.
  destruct (bs_insert_succeeds b1 T1 t nl Hok1 (proj1 Hnl') Ef) as ([[b3 h3] old3] & E3). rewrite E3. cbn [bind].
  assert (Eadd : exists a', add_order a2 s t nl (o_client_id o) price = Ok a' /\ p_penalty (a_pos a') = p_penalty (a_pos a2) /\
    p_base_free (a_pos a') = p_base_free (a_pos a2) /\ p_quote_free (a_pos a') = p_quote_free (a_pos a2)).
  { pose proof (led_lots_nonneg _ _ _ _ _ HL2 Ha2) as (N1 & N2 & N3). destruct Hr2 as (_ & _ & R2 & R3 & R4 & _).
    apply next_slot_ok in Hslot as (oo & Hoo & _). unfold add_order. cbv zeta. change (lf_qty nl) with qty. change (lf_slot nl) with slot.
    destruct s.
    - rewrite chk_i64_in by lia. cbn [bind]. rewrite chk_i64_in by lia. cbn [bind]. rewrite chk_i64_in by lia. cbn [bind]. rewrite Hoo. cbn [bind]. eexists. split; [reflexivity|split; [reflexivity|split; reflexivity]].
    - rewrite chk_i64_in by lia. cbn [bind]. rewrite Hoo. cbn [bind]. eexists. split; [reflexivity|split; [reflexivity|split; reflexivity]]. }
  destruct Eadd as (a' & Eadd & Epn & Ebf & Eqf). rewrite Eadd. cbn [bind]. do 4 eexists. split; [reflexivity|].
  exists a'. split; [|destruct Hr2 as (_ & R1 & _ & _ & _ & R2); rewrite Epn, Ebf, Eqf; split; [exact R1|exact R2]].
  cbn [w_set_acct w_set_accts w_accts]. rewrite !w_set_book_accts. eapply acct_get_set_same. exact Ha2.
Qed.
