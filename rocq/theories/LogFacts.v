(** The events of matching, of one order and of one consumed event. *)
From Coq Require Import ZArith List Bool Lia ZifyBool Permutation.
From Verif Require Import Base Nodes OrderTree BookSide Heap Market OpenOrders Order Book Instructions Logs
  BaseFacts NodesFacts HeapFacts TreeRep TreeFacts TreeOps TreeIter BookSideFacts BookSideOrder SpecBook BookSpecProofs
  SpecFees SpecOrder MatchFacts MatchBook FeeFacts OrderFacts PlaceFacts OrderSpecProofs OrderClaims Steps StepFacts
  SpecLedger SpecEvents Ledger LedgerOps LedgerMoves LedgerPlace LedgerOrder LedgerInv SpecSystem SystemFacts
  ConsumeFacts SpecControl ControlFacts SpecLogs.
Import ListNotations.
Open Scope Z_scope.

(** ** The matching loop *)
Inductive effects_l (o : order) (taker : option Z) (owner : Z) (rem : list Z) (now : Z)
  : world -> list act -> list log -> world -> Prop :=
| el_nil w : effects_l o taker owner rem now w [] [] w
| el_now w i q a a' m' r L w2 :
    let f := fill_of o owner now (m_seq (w_mkt w)) i q in
    let w1 := w_set_acct (w_set_mkt w m') (lf_owner (im_leaf i)) a' in
    acct_get (lf_owner (im_leaf i)) (w_accts w) = Some a ->
    execute_maker a (w_mkt w) f = Ok (a', m') ->
    effects_l o taker owner rem now w1 r L w2 ->
    effects_l o taker owner rem now w (AFill i q :: r) (LTakerSignature (m_seq (w_mkt w)) :: fill_logs w f w1 ++ L) w2
| el_queued w i q h r L w2 :
    push_back (w_heap w) (EFill (fill_of o owner now (m_seq (w_mkt w)) i q)) = Ok h ->
    effects_l o taker owner rem now (w_set_heap w h) r L w2 ->
    effects_l o taker owner rem now w (AFill i q :: r) (LTakerSignature (m_seq (w_mkt w)) :: L) w2
| el_other w a w1 r L w2 : is_fill a = false -> effect o taker owner rem now w a w1 ->
    effects_l o taker owner rem now w1 r L w2 -> effects_l o taker owner rem now w (a :: r) L w2.

(** The events do not matter for what happens. *)
Lemma match_loop_erase o price taker owner rem now items : forall s s',
  match_loop o price taker owner rem now items s = Ok s' ->
  exists L, match_loop_l o price taker owner rem now items s = Ok (s', L).
Proof.
  assert (Hf : forall i mb mq dec reb s s1, match_fill o taker owner rem now i mb mq dec reb s = Ok s1 ->
    exists L, match_fill_l o taker owner rem now i mb mq dec reb s = Ok (s1, L)).
  { intros i mb mq dec reb s s1 H. unfold match_fill in H. unfold match_fill_l, process_fill_l.
    apply bind_ok in H as (rb & -> & H). cbn [bind]. apply bind_ok in H as (rq & -> & H). cbn [bind].
    apply bind_ok in H as (u & -> & H). cbn [bind].
    apply bind_ok in H as (nq & -> & H). cbn [bind]. cbv zeta in *. apply bind_ok in H as ([w np] & E & H).
    apply bind_ok in H as (lim & E6 & H). injection H as <-. cbn [bind]. rewrite E. cbn [bind]. rewrite E6. cbn [bind].
    eexists. reflexivity. }
  induction items as [|i r IH]; intros s s' H; cbn [match_loop] in H; cbn [match_loop_l].
  - injection H as <-. eexists. reflexivity.
  - destruct ((ms_base s =? 0) || (ms_quote s =? 0)); [injection H as <-; eexists; reflexivity|].
    destruct (negb (is_valid i)).
    { apply bind_ok in H as (s1 & E & H). rewrite E. cbn [bind]. apply IH in H as (L & H). rewrite H. cbn [bind]. eexists. reflexivity. }
    destruct (negb (is_price_within_limit (o_side o) (im_price i) price)); [injection H as <-; eexists; reflexivity|].
    destruct (is_post_only o); [injection H as <-; eexists; reflexivity|].
    destruct (ms_limit s =? 0); [injection H as <-; eexists; reflexivity|].
    apply bind_ok in H as (mbq & E & H). rewrite E. cbn [bind].
    destruct (mbq =? 0); [injection H as <-; eexists; reflexivity|]. cbv zeta in *.
    apply bind_ok in H as (mq & E1 & H). rewrite E1. cbn [bind].
    destruct (negb match taker with Some _ => false | None => true end && (owner =? lf_owner (im_leaf i))).
    + destruct (o_self_trade o).
      * apply bind_ok in H as (dec & E2 & H). rewrite E2. cbn [bind]. apply bind_ok in H as (s1 & E3 & H).
        apply Hf in E3 as (L1 & E3). rewrite E3. cbn [bind]. apply IH in H as (L & H). rewrite H. cbn [bind]. eexists. reflexivity.
      * apply bind_ok in H as (t & E2 & H). rewrite E2. cbn [bind]. apply bind_ok in H as (a & E3 & H). rewrite E3. cbn [bind].
        apply bind_ok in H as (a' & E4 & H). rewrite E4. cbn [bind]. apply IH in H as (L & H). rewrite H. cbn [bind]. eexists. reflexivity.
      * discriminate H.
    + apply bind_ok in H as (qn & E2 & H). rewrite E2. cbn [bind]. apply bind_ok in H as (rb & E3 & H). rewrite E3. cbn [bind].
      apply bind_ok in H as (rbs & E4 & H). rewrite E4. cbn [bind]. apply bind_ok in H as (s1 & E5 & H).
      apply Hf in E5 as (L1 & E5). rewrite E5. cbn [bind]. apply IH in H as (L & H). rewrite H. cbn [bind]. eexists. reflexivity.
Qed.

Lemma match_fill_l_inv o taker owner rem now i mb mq dec reb s s' L : mq = mb * im_price i ->
  match_fill_l o taker owner rem now i mb mq dec reb s = Ok (s', L) ->
  exists w np, process_fill_event (ms_w s) taker rem (ms_processed s)
      (fill_of o owner now (m_seq (w_mkt (ms_w s))) i mb) = Ok (w, np) /\
    s' = after_fill i mb dec reb w np s /\
    L = LTakerSignature (m_seq (w_mkt (ms_w s))) ::
        (if (ms_processed s <? FILL_EVENT_REMAINING_LIMIT) && mem_key (lf_owner (im_leaf i)) rem
         then fill_logs (ms_w s) (fill_of o owner now (m_seq (w_mkt (ms_w s))) i mb) w else []).
Proof.
  intros -> H. unfold match_fill_l, process_fill_l in H.
  apply bind_ok in H as (rb & E1 & H). apply chk_i64_ok in E1 as [-> _].
  apply bind_ok in H as (rq & E2 & H). apply chk_i64_ok in E2 as [-> _].
  apply bind_ok in H as (u & E3 & H).
  apply bind_ok in H as (nq & E4 & H). apply chk_i64_ok in E4 as [-> _].
  cbv zeta in H. apply bind_ok in H as ([[w np] L1] & E5 & H).
  apply bind_ok in E5 as ([w0 np0] & E5 & E7). injection E7 as <- <- <-.
  apply bind_ok in H as (lim & E6 & H). apply chk_ok in E6 as [-> E6].
  injection H as <- <-. exists w0, np0.
  unfold fill_of. rewrite <- eqb_sub_zero. split; [exact E5|]. split; reflexivity.
Qed.

Lemma trace_logs o price taker owner rem now (Htk : tk_ok taker owner) items s acts s' lf :
  ltrace o price taker owner rem now items s acts s' lf -> forall s2 L,
  match_loop_l o price taker owner rem now items s = Ok (s2, L) ->
  s2 = s' /\ effects_l o taker owner rem now (ms_w s) acts L (ms_w s').
Proof.
  induction 1 as [s|i r s Hd|i r s Hb V W|i r s Hb V W St|i r s acts s' lf Hb V D HT IH
    |i r s w acts s' lf Hb V D P HT IH|i r s t a a' acts s' lf Hb V W PO L Q Tk Ow ST Ld Cn HT IH
    |i r s q dec reb w np acts s' lf Hb V W PO L P0 Q Eq Hq S1 S2 P HT IH]; intros s2 LL H; cbn [match_loop_l] in H.
  - injection H as <- <-. split; [reflexivity|constructor].
  - replace ((ms_base s =? 0) || (ms_quote s =? 0)) with true in H by lia. injection H as <- <-. split; [reflexivity|constructor].
  - destruct Hb as [B1 B2]. replace ((ms_base s =? 0) || (ms_quote s =? 0)) with false in H by lia.
    rewrite V, W in H. cbn [negb] in H. injection H as <- <-. split; [reflexivity|constructor].
  - destruct Hb as [B1 B2]. replace ((ms_base s =? 0) || (ms_quote s =? 0)) with false in H by lia.
    rewrite V, W in H. cbn [negb] in H.
    enough (G : s2 = ms_stop s /\ LL = []) by (destruct G as [-> ->]; split; [reflexivity|constructor]).
    destruct (is_post_only o); [injection H as <- <-; auto|]. destruct (ms_limit s =? 0) eqn:E0; [injection H as <- <-; auto|].
    apply bind_ok in H as (mbq & E & H). apply div_i64_ok in E as (Hp0 & -> & _).
    destruct St as [St|[St|St]]; [discriminate St|lia|]. rewrite St in H. cbn in H. injection H as <- <-. auto.
  - destruct Hb as [B1 B2]. replace ((ms_base s =? 0) || (ms_quote s =? 0)) with false in H by lia.
    rewrite V in H. cbn [negb] in H. apply bind_ok in H as (s1 & E & H). unfold match_invalid in E.
    replace (ms_dropped s <? DROP_EXPIRED_ORDER_LIMIT) with false in E by (unfold DROP_EXPIRED_ORDER_LIMIT; lia). injection E as <-.
    apply bind_ok in H as ([s3 L2] & E & H). injection H as <- <-. apply IH in E. exact E.
  - destruct Hb as [B1 B2]. replace ((ms_base s =? 0) || (ms_quote s =? 0)) with false in H by lia.
    rewrite V in H. cbn [negb] in H. apply bind_ok in H as (s1 & E & H). unfold match_invalid in E.
    replace (ms_dropped s <? DROP_EXPIRED_ORDER_LIMIT) with true in E by (unfold DROP_EXPIRED_ORDER_LIMIT; lia). cbv zeta in E.
    apply bind_ok in E as (w0 & E & E'). injection E' as <-. unfold drop_event in P. rewrite P in E. injection E as <-.
    apply bind_ok in H as ([s3 L2] & E & H). injection H as <- <-. destruct (IH _ _ E) as [-> G]. split; [reflexivity|].
    eapply el_other; [reflexivity| |exact G]. constructor. eapply process_out_effect; [exact Htk|exact P].
  - destruct Hb as [B1 B2]. replace ((ms_base s =? 0) || (ms_quote s =? 0)) with false in H by lia.
    rewrite V, W, PO in H. cbn [negb] in H. replace (ms_limit s =? 0) with false in H by lia.
    apply bind_ok in H as (mbq & E & H). apply div_i64_ok in E as (Hp0 & -> & _).
    replace (Z.quot (ms_quote s) (im_price i) =? 0) with false in H by lia. cbv zeta in H.
    apply bind_ok in H as (mq & _ & H). rewrite Tk, <- Ow, Z.eqb_refl, ST in H. cbn [negb andb unwrap bind] in H.
    rewrite Ld in H. cbn [bind] in H. rewrite Cn in H. cbn [bind] in H.
    rewrite Tk in IH.
    apply bind_ok in H as ([s3 L2] & E & H). injection H as <- <-. cbn [app].
    destruct (IH _ _ E) as [-> G]. split; [reflexivity|].
    assert (E0 : t = lf_owner (im_leaf i)).
    { destruct Htk as [Htk'|Htk']; rewrite Htk' in Tk; [injection Tk as <-; exact Ow|discriminate Tk]. }
    rewrite Tk. eapply el_other; [reflexivity| |exact G]. cbn [after_own ms_w]. rewrite E0 in Ld |- *. apply acct_load_ok in Ld.
    eapply ef_own; [reflexivity|exact Ld|exact Cn].
  - destruct Hb as [B1 B2]. replace ((ms_base s =? 0) || (ms_quote s =? 0)) with false in H by lia.
    rewrite V, W, PO in H. cbn [negb] in H. replace (ms_limit s =? 0) with false in H by lia.
    apply bind_ok in H as (mbq & E & H). apply div_i64_ok in E as (Hp0 & -> & _).
    replace (Z.quot (ms_quote s) (im_price i) =? 0) with false in H by lia. cbv zeta in H.
    fold (to_fill s i (Z.quot (ms_quote s) (im_price i))) in H. rewrite <- Eq in H.
    apply bind_ok in H as (mq & E & H). apply chk_i64_ok in E as [-> _].
    assert (G : exists s1 L1 L2, match_fill_l o taker owner rem now i q (q * im_price i) dec reb s = Ok (s1, L1) /\
      match_loop_l o price taker owner rem now r s1 = Ok (s2, L2) /\ LL = L1 ++ L2).
    { unfold own_trade in S1, S2.
      destruct taker as [t|]; cbn [negb andb] in H.
      - destruct (owner =? lf_owner (im_leaf i)).
        + destruct (S1 eq_refl) as (St & -> & ->). rewrite St in H. apply bind_ok in H as (dc & E & H). apply chk_i64_ok in E as [-> _].
          apply bind_ok in H as ([s1 L1] & E & H). apply bind_ok in H as ([s3 L2] & E2 & H). injection H as <- <-. eauto 10.
        + destruct (S2 eq_refl) as (-> & x & Ex & ->). apply bind_ok in H as (qn & E & H). apply chk_i64_ok in E as [-> _].
          rewrite Ex in H. cbn [bind] in H. apply bind_ok in H as (dc & E & H). apply chk_u64_ok in E as [-> _].
          apply bind_ok in H as ([s1 L1] & E & H). apply bind_ok in H as ([s3 L2] & E2 & H). injection H as <- <-. eauto 10.
      - destruct (S2 eq_refl) as (-> & x & Ex & ->). apply bind_ok in H as (qn & E & H). apply chk_i64_ok in E as [-> _].
        rewrite Ex in H. cbn [bind] in H. apply bind_ok in H as (dc & E & H). apply chk_u64_ok in E as [-> _].
        apply bind_ok in H as ([s1 L1] & E & H). apply bind_ok in H as ([s3 L2] & E2 & H). injection H as <- <-. eauto 10. }
    clear H. destruct G as (s1 & L1 & L2 & E1 & E2 & ->).
    apply match_fill_l_inv in E1; [|reflexivity]. destruct E1 as (w0 & np0 & P' & -> & ->).
    rewrite P in P'. injection P' as <- <-. destruct (IH _ _ E2) as [-> G]. split; [reflexivity|].
    unfold process_fill_event in P. cbn [fe_maker fill_of] in P.
    destruct ((ms_processed s <? FILL_EVENT_REMAINING_LIMIT) && mem_key (lf_owner (im_leaf i)) rem) eqn:C.
    + apply bind_ok in P as (a & Ea & P). apply bind_ok in P as ([a' m'] & Ex & P). injection P as <- <-.
      cbn [app]. eapply el_now; [eapply load_remaining_ok; exact Ea|exact Ex|exact G].
    + apply bind_ok in P as (h & Eh & P). injection P as <- <-. cbn [app]. eapply el_queued; [exact Eh|exact G].
Qed.

(** ** Fees of a fill *)
Lemma report_cfg m m' f : m_cfg m' = m_cfg m -> report m' f = report m f.
Proof.
  intros E. unfold report, fill_fee, fill_taker_fee, fill_quote, maker_pays, taker_pays, maker_fee, taker_fee, qls. rewrite E. reflexivity.
Qed.
Lemma fill_quote_cfg m m' f : m_cfg m' = m_cfg m -> fill_quote m' f = fill_quote m f.
Proof. intros E. unfold fill_quote, qls. rewrite E. reflexivity. Qed.
Lemma fill_fee_cfg m m' f : m_cfg m' = m_cfg m -> fill_fee m' f = fill_fee m f.
Proof. intros E. unfold fill_fee, fill_quote, maker_pays, maker_fee, qls. rewrite E. reflexivity. Qed.
Lemma fill_rebate_cfg m m' f : m_cfg m' = m_cfg m -> fill_rebate m' f = fill_rebate m f.
Proof. intros E. unfold fill_rebate, fill_quote, maker_gets, maker_fee, qls. rewrite E. reflexivity. Qed.
Lemma fill_taker_fee_cfg m m' f : m_cfg m' = m_cfg m -> fill_taker_fee m' f = fill_taker_fee m f.
Proof. intros E. unfold fill_taker_fee, fill_quote, taker_pays, taker_fee, qls. rewrite E. reflexivity. Qed.

Lemma remove_vols a sl q lp a' : remove_order a sl q lp = Ok a' ->
  p_maker_volume (a_pos a') = p_maker_volume (a_pos a) /\ p_taker_volume (a_pos a') = p_taker_volume (a_pos a).
Proof.
  intros H. unfold remove_order in H. apply bind_ok in H as (oo & _ & H). apply bind_ok in H as (u & _ & H).
  cbv zeta in H. apply bind_ok in H as (p' & Ep & H). injection H as <-. cbn [a_pos set_order_at a_set_orders a_set_pos].
  destruct (oo_side oo); repeat (apply bind_ok in Ep as (? & _ & Ep)); injection Ep as <-; split; reflexivity.
Qed.
Lemma cancel_vols a sl q m a' : ooa_cancel_order a sl q m = Ok a' ->
  p_maker_volume (a_pos a') = p_maker_volume (a_pos a) /\ p_taker_volume (a_pos a') = p_taker_volume (a_pos a).
Proof.
  intros H. unfold ooa_cancel_order in H. apply bind_ok in H as (oo & Eo & H). cbv zeta in H.
  apply bind_ok in H as (bq & _ & H). apply bind_ok in H as (x & _ & H). apply bind_ok in H as (y & _ & H).
  apply bind_ok in H as (fees & _ & H). apply bind_ok in H as (p' & Ep & H). apply remove_vols in H as [-> ->]. cbn [a_pos a_set_pos].
  destruct (oo_side oo); repeat (apply bind_ok in Ep as (? & _ & Ep)); injection Ep as <-; split; reflexivity.
Qed.

Lemma maker_numbers a m f a' m' : cfg_sound (m_cfg m) -> 0 <= fe_qty f * fe_price f -> execute_maker a m f = Ok (a', m') ->
  0 <= fill_quote m f <= 9223372036854775807 /\ m_cfg m' = m_cfg m /\ m_seq m' = m_seq m /\
  m_maker_volume m' = m_maker_volume m + fill_quote m f /\ m_fees_accrued m' = m_fees_accrued m + fill_fee m f /\
  p_maker_volume (a_pos a') = p_maker_volume (a_pos a) + fill_quote m f /\ p_taker_volume (a_pos a') = p_taker_volume (a_pos a) /\
  fill_log_of m f = report m f.
Proof.
  intros Hc H0 H. pose proof (execute_maker_mkt _ _ _ _ _ H) as (C1 & C2 & _).
  unfold execute_maker in H. cbv zeta in H.
  apply bind_ok in H as (x & Ex & H). apply chk_i64_ok in Ex as [-> _]. apply bind_ok in H as (y & Ey & H). apply chk_i64_ok in Ey as [-> Ry].
  assert (Hq : 0 <= fill_quote m f <= 9223372036854775807).
  { unfold fill_quote. destruct Hc as [Q1 _ _ _ _]. fold (qls m) in Q1. split; [apply Z.mul_nonneg_nonneg; lia|]. exact (proj2 Ry). }
  fold (fill_quote m f) in H. rewrite as_u64_id in H by lia.
  apply bind_ok in H as (mf & Emf & H). apply bind_ok in H as (mr & _ & H).
  assert (Hmf : mf = fill_fee m f).
  { unfold fill_fee, fill_self. destruct (fe_maker f =? fe_taker f); [injection Emf as <-; reflexivity|]. apply maker_fees_floor_ok in Emf; [exact Emf|lia]. }
  subst mf.
  apply bind_ok in H as ([[lf ab] lp] & _ & H). apply bind_ok in H as (p1 & Ep & H).
  apply bind_ok in H as (mv & Emv & H). apply chk_u128_ok in Emv as [-> Emv]. apply bind_ok in H as (rb & Erb & H). apply chk_u64_ok in Erb as [-> Erb].
  apply bind_ok in H as (z1 & _ & H). apply bind_ok in H as (z2 & E2 & H). apply chk_u128_ok in E2 as [-> _].
  apply bind_ok in H as (z3 & E3 & H). apply chk_u128_ok in E3 as [-> _].
  apply bind_ok in H as (a1 & Ea & H). apply bind_ok in H as (z4 & _ & H). injection H as <- <-.
  assert (P : p_maker_volume p1 = p_maker_volume (a_pos a) /\ p_taker_volume p1 = p_taker_volume (a_pos a)).
  { destruct (invert_side (fe_taker_side f)); repeat (apply bind_ok in Ep as (? & _ & Ep)); injection Ep as <-; split; reflexivity. }
  destruct P as (P4 & P5).
  set (p2 := p_set_rebates (p_set_maker_volume p1 (p_maker_volume p1 + fill_quote m f)) (p_rebates p1 + fill_fee m f)) in *.
  assert (Q : p_maker_volume (a_pos a1) = p_maker_volume p2 /\ p_taker_volume (a_pos a1) = p_taker_volume p2).
  { destruct (fe_maker_out f).
    - apply remove_vols in Ea. exact Ea.
    - destruct (invert_side (fe_taker_side f)); repeat (apply bind_ok in Ea as (? & _ & Ea)); injection Ea as <-; split; reflexivity. }
  destruct Q as [Q1 Q2].
  split; [exact Hq|]. split; [exact C1|]. split; [exact C2|]. split; [reflexivity|]. split; [reflexivity|].
  split; [rewrite Q1; change (p_maker_volume p2) with (p_maker_volume p1 + fill_quote m f); lia|].
  split; [rewrite Q2; exact P5|].
  unfold fill_log_of, report. fold (fill_quote m f). rewrite as_u64_id by lia. fold (fill_self f).
  assert (Ef : (if fill_self f then 0 else ok_or (maker_fees_floor m (fill_quote m f)) 0) = fill_fee m f).
  { unfold fill_fee. destruct (fill_self f); [reflexivity|]. rewrite maker_fees_floor_in; [reflexivity|exact Hc|lia]. }
  assert (Et : (if (0 <? fill_quote m f) && negb (fill_self f) then ok_or (taker_fees_ceil chk_u64 m (fill_quote m f)) 0 else 0) = fill_taker_fee m f).
  { unfold fill_taker_fee. destruct (fill_self f); [rewrite andb_false_r; reflexivity|]. cbn [negb]. rewrite andb_true_r.
    destruct (Z.ltb_spec 0 (fill_quote m f)) as [Hp|Hp].
    - pose proof (taker_pays_bounds m (fill_quote m f) Hc (proj1 Hq)) as Hb.
      change chk_u64 with (chk in_u64). rewrite taker_fees_ceil_in by (first [exact Hc|lia]).
      change (chk in_u64) with chk_u64. rewrite chk_u64_in by lia. reflexivity.
    - replace (fill_quote m f) with 0 by lia. symmetry. apply fee_up_zero. }
  rewrite Ef, Et. reflexivity.
Qed.

(** ** Volumes of the accounts *)
Definition vols (k : Z) (w w' : world) (dm dt : Z) : Prop := forall a, acct_get k (w_accts w) = Some a ->
  exists a', acct_get k (w_accts w') = Some a' /\
    p_maker_volume (a_pos a') = p_maker_volume (a_pos a) + dm /\ p_taker_volume (a_pos a') = p_taker_volume (a_pos a) + dt.
Lemma vols_same k w w' : acct_get k (w_accts w') = acct_get k (w_accts w) -> vols k w w' 0 0.
Proof. intros E a Ha. exists a. rewrite E. split; [exact Ha|lia]. Qed.
Lemma vols_trans k w w1 w2 dm dt dm' dt' x y : vols k w w1 dm dt -> vols k w1 w2 dm' dt' -> x = dm + dm' -> y = dt + dt' -> vols k w w2 x y.
Proof.
  intros H1 H2 -> -> a Ha. destruct (H1 a Ha) as (a1 & Ha1 & E1 & E2). destruct (H2 a1 Ha1) as (a2 & Ha2 & E3 & E4).
  exists a2. split; [exact Ha2|]. lia.
Qed.
Lemma vols_set k w m t a a' dm dt : acct_get t (w_accts w) = Some a ->
  p_maker_volume (a_pos a') = p_maker_volume (a_pos a) + dm -> p_taker_volume (a_pos a') = p_taker_volume (a_pos a) + dt ->
  vols k w (w_set_acct (w_set_mkt w m) t a') (if t =? k then dm else 0) (if t =? k then dt else 0).
Proof.
  intros Ha E1 E2 b Hb. change (w_accts (w_set_acct (w_set_mkt w m) t a')) with (acct_set t a' (w_accts w)).
  rewrite acct_get_set, (Z.eqb_sym k t). destruct (Z.eqb_spec t k) as [E|E].
  - subst k. rewrite Ha in Hb |- *. injection Hb as <-. exists a'. cbn [option_map]. split; [reflexivity|lia].
  - exists b. split; [exact Hb|lia].
Qed.
Lemma vols_set0 k w t a a' : acct_get t (w_accts w) = Some a ->
  p_maker_volume (a_pos a') = p_maker_volume (a_pos a) -> p_taker_volume (a_pos a') = p_taker_volume (a_pos a) ->
  vols k w (w_set_acct w t a') 0 0.
Proof.
  intros Ha E1 E2. pose proof (vols_set k w (w_mkt w) t a a' 0 0 Ha ltac:(lia) ltac:(lia)) as H.
  destruct (t =? k); destruct w; exact H.
Qed.

(** ** The fills that wait *)
Lemma ev_fills_app l l' : ev_fills (l ++ l') = ev_fills l ++ ev_fills l'.
Proof. unfold ev_fills. apply flat_map_app. Qed.
Lemma pushed h q e h' : heap_ok h q -> push_back h e = Ok h' -> exists q', heap_ok h' q' /\ map fst q' = map fst q ++ [e].
Proof.
  intros (F & Hr) H. destruct (push_back_rep _ _ _ _ _ Hr H) as (s & F' & _ & _ & Hr' & _).
  exists (q ++ [(e, s)]). split; [exists F'; exact Hr'|]. rewrite map_app. reflexivity.
Qed.

Definition fsum (g : fill_event -> Z) (F : list fill_event) : Z := sumZ (map g F).
Lemma fsum_app g F F' : fsum g (F ++ F') = fsum g F + fsum g F'.
Proof. unfold fsum. rewrite map_app. apply sumZ_app. Qed.
Lemma fsum_cons g f F : fsum g (f :: F) = g f + fsum g F.
Proof. unfold fsum. cbn [map]. apply sumZ_cons. Qed.
Lemma fsum_ext g g' F : (forall f, g f = g' f) -> fsum g F = fsum g' F.
Proof. intros H. unfold fsum. f_equal. apply map_ext. exact H. Qed.

Lemma log_fills_app L L' : log_fills (L ++ L') = log_fills L ++ log_fills L'.
Proof. apply flat_map_app. Qed.
Lemma log_seqs_app L L' : log_seqs (L ++ L') = log_seqs L ++ log_seqs L'.
Proof. apply flat_map_app. Qed.
Lemma totals_app sel g L L' : totals sel g (L ++ L') = totals sel g L + totals sel g L'.
Proof. unfold totals. rewrite map_app. apply sumZ_app. Qed.
Lemma pos_logs_facts w k : log_fills (pos_logs w k) = [] /\ log_seqs (pos_logs w k) = [] /\ forall sel g, totals sel g (pos_logs w k) = 0.
Proof. unfold pos_logs. destruct (acct_get k (w_accts w)); repeat split. Qed.
Lemma fill_logs_facts w f w' : log_fills (fill_logs w f w') = [fill_log_of (w_mkt w) f] /\ log_seqs (fill_logs w f w') = [] /\
  forall sel g, totals sel g (fill_logs w f w') = 0.
Proof.
  unfold fill_logs. destruct (pos_logs_facts w' (fe_maker f)) as (A & B & C). split; [|split].
  - change (log_fills (?l :: ?r)) with (match l with LFill f => [f] | _ => [] end ++ log_fills r). cbv iota. rewrite A. reflexivity.
  - exact B.
  - intros sel g. exact (C sel g).
Qed.

Definition quote_of_maker (m : market) (k : Z) (f : fill_event) : Z := if fe_maker f =? k then fill_quote m f else 0.

(** ** The matching loop as a whole *)
Record matched (w : world) (D M : list fill_event) (L : list log) (w' : world) : Prop := {
  mt_cfg : m_cfg (w_mkt w') = m_cfg (w_mkt w);
  mt_seq : m_seq (w_mkt w') = m_seq (w_mkt w);
  mt_heap : forall q, heap_ok (w_heap w) q -> exists q', heap_ok (w_heap w') q' /\
    exists Q, ev_fills (map fst q') = ev_fills (map fst q) ++ Q /\ Permutation M (D ++ Q);
  mt_fills : log_fills L = map (report (w_mkt w)) D;
  mt_seqs : log_seqs L = map fe_seq M;
  mt_totals : forall sel g, totals sel g L = 0;
  mt_volume : m_maker_volume (w_mkt w') = m_maker_volume (w_mkt w) + fsum (fill_quote (w_mkt w)) D;
  mt_fees : m_fees_accrued (w_mkt w') = m_fees_accrued (w_mkt w) + fsum (fill_fee (w_mkt w)) D;
  mt_accts : forall k, vols k w w' (fsum (quote_of_maker (w_mkt w) k) D) 0 }.

Lemma quote_of_maker_cfg m m' k f : m_cfg m' = m_cfg m -> quote_of_maker m' k f = quote_of_maker m k f.
Proof. intros E. unfold quote_of_maker. rewrite (fill_quote_cfg _ _ _ E). reflexivity. Qed.

Lemma effects_matched o price taker owner rem now w acts L w' : effects_l o taker owner rem now w acts L w' ->
  cfg_sound (m_cfg (w_mkt w)) -> Forall (act_fact o price taker owner) acts ->
  exists D, matched w D (fills_of o owner now (m_seq (w_mkt w)) acts) L w'.
Proof.
  induction 1 as [w|w i q a a' m' r L w2 f w1 Ha Hx HE IH|w i q h r L w2 Hp HE IH|w a w1 r L w2 Hn Hef HE IH]; intros Hc Hf.
  - exists []. constructor; try reflexivity.
    + intros q Hq. exists q. split; [exact Hq|]. exists []. rewrite app_nil_r. split; [reflexivity|constructor].
    + unfold fsum. cbn. lia.
    + unfold fsum. cbn. lia.
    + intros k. apply vols_same. reflexivity.
  - inversion Hf as [|x l F1 F2]; subst x l. cbn [act_fact] in F1. destruct F1 as (_ & _ & _ & Fq & Fp & _).
    destruct (maker_numbers _ _ f _ _ Hc ltac:(cbn [f fill_of fe_qty fe_price]; nia) Hx) as (N1 & N2 & N3 & N4 & N5 & N6 & N7 & N8).
    destruct IH as (D & [M1 M2 M3 M4 M5 M6 M7 M8 M9]); [cbn; congruence|exact F2|].
    change (w_mkt w1) with m' in *. change (w_heap w1) with (w_heap w) in M3.
    exists (f :: D). unfold fills_of. cbn [flat_map app]. fold (fills_of o owner now (m_seq (w_mkt w)) r).
    rewrite N3 in M2, M3, M5.
    destruct (fill_logs_facts w f w1) as (G1 & G2 & G3).
    constructor.
    + congruence.
    + congruence.
    + intros q0 Hq0. destruct (M3 q0 Hq0) as (q' & H1 & Q & H2 & H3). exists q'. split; [exact H1|]. exists Q. split; [exact H2|].
      cbn [app]. fold f. constructor. exact H3.
    + change (log_fills (LTakerSignature (m_seq (w_mkt w)) :: fill_logs w f w1 ++ L)) with (log_fills (fill_logs w f w1 ++ L)).
      rewrite log_fills_app, G1, M4, N8. cbn [map app]. f_equal. apply map_ext. intros g. apply report_cfg. exact N2.
    + change (log_seqs (LTakerSignature (m_seq (w_mkt w)) :: fill_logs w f w1 ++ L)) with (m_seq (w_mkt w) :: log_seqs (fill_logs w f w1 ++ L)).
      rewrite log_seqs_app, G2, M5. reflexivity.
    + intros sel g. change (totals sel g (LTakerSignature (m_seq (w_mkt w)) :: fill_logs w f w1 ++ L)) with (totals sel g (fill_logs w f w1 ++ L)).
      rewrite totals_app, G3, M6. reflexivity.
    + rewrite fsum_cons, M7, N4, (fsum_ext (fill_quote m') (fill_quote (w_mkt w))) by (intros g; apply fill_quote_cfg; exact N2). lia.
    + rewrite fsum_cons, M8, N5, (fsum_ext (fill_fee m') (fill_fee (w_mkt w))) by (intros g; apply fill_fee_cfg; exact N2). lia.
    + intros k. rewrite fsum_cons.
      eapply vols_trans; [apply (vols_set k w m' _ a a' (fill_quote (w_mkt w) f) 0 Ha N6); lia|exact (M9 k)| |destruct (_ =? k); reflexivity].
      rewrite (fsum_ext (quote_of_maker m' k) (quote_of_maker (w_mkt w) k)) by (intros g; apply quote_of_maker_cfg; exact N2).
      unfold quote_of_maker at 1. reflexivity.
  - inversion Hf as [|x l F1 F2]; subst x l.
    destruct IH as (D & [M1 M2 M3 M4 M5 M6 M7 M8 M9]); [exact Hc|exact F2|]. cbn [w_mkt w_heap w_set_heap] in *.
    exists D. unfold fills_of. cbn [flat_map app]. fold (fills_of o owner now (m_seq (w_mkt w)) r).
    constructor; try assumption.
    + intros q0 Hq0. destruct (pushed _ _ _ _ Hq0 Hp) as (q1 & Hq1 & E1). destruct (M3 q1 Hq1) as (q' & H1 & Q & H2 & H3).
      exists q'. split; [exact H1|]. eexists (_ :: Q). split.
      * rewrite H2, E1, ev_fills_app, <- app_assoc. reflexivity.
      * rewrite H3. apply Permutation_middle.
    + change (log_seqs (LTakerSignature (m_seq (w_mkt w)) :: L)) with (m_seq (w_mkt w) :: log_seqs L). rewrite M5. reflexivity.
  - inversion Hf as [|x l F1 F2]; subst x l.
    assert (G : w_mkt w1 = w_mkt w /\ (forall k, vols k w w1 0 0) /\
      forall q, heap_ok (w_heap w) q -> exists q', heap_ok (w_heap w1) q' /\ ev_fills (map fst q') = ev_fills (map fst q)).
    { destruct Hef as [w i q a0 a' m' _ _ _|w i q h _|w i w1 Hd|w i a0 a' Et Ha0 Hx]; try discriminate Hn.
      - destruct Hd as [w a0 a' _ Ha0 Hx|w h Hp].
        + split; [reflexivity|]. split; [|intros q Hq; exists q; split; [exact Hq|reflexivity]].
          intros k. apply cancel_vols in Hx as [X1 X2]. eapply vols_set0; eassumption.
        + split; [reflexivity|]. split; [intros k; apply vols_same; reflexivity|].
          intros q Hq. destruct (pushed _ _ _ _ Hq Hp) as (q1 & Hq1 & E1). exists q1. split; [exact Hq1|].
          rewrite E1, ev_fills_app. cbn [ev_fills flat_map]. apply app_nil_r.
      - split; [reflexivity|]. split; [|intros q Hq; exists q; split; [exact Hq|reflexivity]].
        intros k. apply cancel_vols in Hx as [X1 X2]. eapply vols_set0; eassumption. }
    destruct G as (G1 & G2 & G3). destruct IH as (D & [M1 M2 M3 M4 M5 M6 M7 M8 M9]); [rewrite G1; exact Hc|exact F2|]. rewrite G1 in *.
    exists D. assert (Efl : fills_of o owner now (m_seq (w_mkt w)) (a :: r) = fills_of o owner now (m_seq (w_mkt w)) r) by (destruct a; [discriminate Hn|reflexivity|reflexivity]).
    rewrite Efl. constructor; try assumption.
    + intros q Hq. destruct (G3 q Hq) as (q1 & Hq1 & E1). destruct (M3 q1 Hq1) as (q' & H1 & Q & H2 & H3). exists q'. split; [exact H1|].
      exists Q. rewrite H2, E1. split; [reflexivity|exact H3].
    + intros k. eapply vols_trans; [exact (G2 k)|exact (M9 k)|lia|lia].
Qed.
