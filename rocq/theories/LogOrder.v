(** The events of one order, and what they amount to. *)
From Coq Require Import ZArith List Bool Lia ZifyBool Permutation.
From Verif Require Import Base Nodes OrderTree BookSide Heap Market OpenOrders Order Book Instructions Logs
  BaseFacts NodesFacts HeapFacts TreeRep TreeFacts TreeOps TreeIter BookSideFacts BookSideOrder SpecBook BookSpecProofs
  SpecFees SpecOrder MatchFacts MatchBook FeeFacts OrderFacts PlaceFacts OrderSpecProofs OrderClaims Steps StepFacts
  SpecLedger SpecEvents Ledger LedgerOps LedgerMoves LedgerPlace LedgerOrder LedgerInv SpecSystem SystemFacts
  ConsumeFacts SpecControl ControlFacts SpecLogs LogFacts.
Import ListNotations.
Open Scope Z_scope.

(** ** Steps without fills *)
Record calm (w w' : world) : Prop := {
  ca_cfg : m_cfg (w_mkt w') = m_cfg (w_mkt w);
  ca_volume : m_maker_volume (w_mkt w') = m_maker_volume (w_mkt w);
  ca_fees : m_fees_accrued (w_mkt w') = m_fees_accrued (w_mkt w);
  ca_accts : forall k, vols k w w' 0 0;
  ca_heap : forall q, heap_ok (w_heap w) q -> exists q', heap_ok (w_heap w') q' /\ ev_fills (map fst q') = ev_fills (map fst q) }.

Lemma calm_mkt w m : m_cfg m = m_cfg (w_mkt w) -> m_maker_volume m = m_maker_volume (w_mkt w) -> m_fees_accrued m = m_fees_accrued (w_mkt w) ->
  calm w (w_set_mkt w m).
Proof.
  intros E1 E2 E3. constructor; try assumption.
  - intros k. apply vols_same. reflexivity.
  - intros q Hq. exists q. split; [exact Hq|reflexivity].
Qed.
Lemma calm_refl w : calm w w.
Proof.
  constructor; try reflexivity.
  - intros k. apply vols_same. reflexivity.
  - intros q Hq. exists q. split; [exact Hq|reflexivity].
Qed.
Lemma calm_trans w w1 w2 : calm w w1 -> calm w1 w2 -> calm w w2.
Proof.
  intros [A1 A2 A3 A4 A5] [B1 B2 B3 B4 B5]. constructor; try congruence.
  - intros k. eapply vols_trans; [apply A4|apply B4|lia|lia].
  - intros q Hq. destruct (A5 q Hq) as (q1 & Hq1 & E1). destruct (B5 q1 Hq1) as (q2 & Hq2 & E2). exists q2. split; [exact Hq2|congruence].
Qed.
Lemma calm_acct w t a a' : acct_get t (w_accts w) = Some a ->
  p_maker_volume (a_pos a') = p_maker_volume (a_pos a) -> p_taker_volume (a_pos a') = p_taker_volume (a_pos a) -> calm w (w_set_acct w t a').
Proof.
  intros Ha E1 E2. constructor; try reflexivity.
  - intros k. eapply vols_set0; eassumption.
  - intros q Hq. exists q. split; [exact Hq|reflexivity].
Qed.
Lemma calm_book w s b : calm w (w_set_book w s b).
Proof.
  constructor; try (rewrite w_set_book_mkt; reflexivity).
  - intros k. apply vols_same. rewrite w_set_book_accts. reflexivity.
  - intros q Hq. rewrite w_set_book_hp. exists q. split; [exact Hq|reflexivity].
Qed.
Lemma calm_drop tk rem now s l w w' : drop_effect tk rem now s l w w' -> calm w w'.
Proof.
  intros [w0 a a' _ Ha Hx|w0 h Hp].
  - apply cancel_vols in Hx as [X1 X2]. eapply calm_acct; eassumption.
  - constructor; try reflexivity.
    + intros k. apply vols_same. reflexivity.
    + intros q Hq. destruct (pushed _ _ _ _ Hq Hp) as (q1 & Hq1 & E1). exists q1. split; [exact Hq1|].
      rewrite E1, ev_fills_app. cbn [ev_fills flat_map]. apply app_nil_r.
Qed.
Lemma calm_out w tk owner rem s l now w' : tk_ok tk owner ->
  process_out_event w tk owner rem (mkOut s (lf_slot l) now (h_seq (w_heap w)) (lf_owner l) (lf_qty l)) = Ok w' -> calm w w'.
Proof. intros Htk H. eapply calm_drop. eapply process_out_effect; [exact Htk|exact H]. Qed.

Lemma add_vols a s t l c lp a' : add_order a s t l c lp = Ok a' ->
  p_maker_volume (a_pos a') = p_maker_volume (a_pos a) /\ p_taker_volume (a_pos a') = p_taker_volume (a_pos a).
Proof.
  intros H. unfold add_order in H. cbv zeta in H. apply bind_ok in H as (p' & Ep & H). apply bind_ok in H as (oo & _ & H). injection H as <-.
  cbn [a_pos set_order_at a_set_orders a_set_pos].
  destruct s; repeat (apply bind_ok in Ep as (? & _ & Ep)); injection Ep as <-; split; reflexivity.
Qed.

Lemma calm_post w o taker owner rem oracle now id pl price qty target w' pb pq mf : tk_ok taker owner ->
  post_order w o taker owner rem oracle now id pl price qty target = Ok (w', pb, pq, mf) -> calm w w'.
Proof.
  intros Htk H. unfold post_order in H. cbv zeta in H.
  apply bind_ok in H as (cap & _ & H). apply bind_ok in H as (x & _ & H). apply bind_ok in H as (u1 & _ & H).
  apply bind_ok in H as (x1 & _ & H). apply bind_ok in H as (x2 & _ & H). apply bind_ok in H as (t & _ & H).
  apply bind_ok in H as ([w1 mf1] & E1 & H). apply bind_ok in H as ([b1 ex] & _ & H).
  apply bind_ok in H as (w3 & E3 & H). apply bind_ok in H as (w4 & E4 & H).
  apply bind_ok in H as (a & Ea & H). apply acct_load_ok in Ea. apply bind_ok in H as (slot & _ & H).
  apply bind_ok in H as ([[b3 z1] z2] & _ & H). apply bind_ok in H as (a' & Ed & H). injection H as <- _ _ _.
  eapply calm_trans; [|eapply calm_trans; [|eapply calm_trans]].
  - instantiate (1 := w1). destruct (o_side o); [|injection E1 as <- _; apply calm_refl].
    apply bind_ok in E1 as (f & _ & E1). apply bind_ok in E1 as (f' & _ & E1). apply bind_ok in E1 as (a1 & Ea1 & E1). apply acct_load_ok in Ea1.
    apply bind_ok in E1 as (l & _ & E1). injection E1 as <- _. eapply calm_acct; [exact Ea1|reflexivity|reflexivity].
  - instantiate (1 := w3). eapply calm_trans; [apply (calm_book w1 (o_side o) b1)|].
    destruct ex as [l|]; [|injection E3 as <-; apply calm_refl]. eapply calm_out; [exact Htk|exact E3].
  - instantiate (1 := w4). destruct (is_full (bs_nodes (w_book w3 (o_side o)))); [|injection E4 as <-; apply calm_refl].
    apply bind_ok in E4 as ([b2 ow] & _ & E4). apply bind_ok in E4 as ([ws wp] & _ & E4). apply bind_ok in E4 as (u & _ & E4).
    eapply calm_trans; [apply (calm_book w3 (o_side o) b2)|]. eapply calm_out; [exact Htk|exact E4].
  - apply add_vols in Ed as [D1 D2]. eapply calm_trans; [apply (calm_book w4 (o_side o) b3)|].
    eapply calm_acct; [rewrite w_set_book_accts; exact Ea|exact D1|exact D2].
Qed.

(** ** The events of an order, in two parts *)
Lemma order_logs_eq w o oracle taker owner now limit rem T price pd maxq acts ms lf w2 bt qt tf ra rq mf b2 T2 w' r : tk_ok taker owner ->
  placed w o oracle taker owner now limit rem T price pd maxq acts ms lf w2 bt qt tf ra rq mf b2 T2 ->
  new_order w o oracle taker owner now limit rem = Ok (w', r) ->
  exists L, effects_l o taker owner rem now (w_set_mkt w (m_set_seq (w_mkt w) (m_seq (w_mkt w) + 1))) acts L (ms_w ms) /\
    order_logs w o oracle taker owner now limit rem = L ++ taker_logs o taker owner maxq ms w2 bt qt tf /\
    calm w2 w'.
Proof.
  intros Htk [Hp Hseq Hmq Hcap Hit Htr Hst _ _ _ _ _] H. unfold new_order in H. unfold order_logs. cbv zeta in *.
  rewrite Hp in *. cbn [bind] in *.
  assert (Eg : gen_order_id (w_mkt w) (o_side o) pd =
    Ok (m_set_seq (w_mkt w) (m_seq (w_mkt w) + 1), new_node_key (o_side o) pd (m_seq (w_mkt w) + 1))).
  { unfold gen_order_id. rewrite chk_u64_in by lia. reflexivity. }
  rewrite Eg in *. cbn [bind] in *.
  change (subtract_taker_fees (m_set_seq (w_mkt w) (m_seq (w_mkt w) + 1)) (o_max_quote o)) with (subtract_taker_fees (w_mkt w) (o_max_quote o)) in *.
  rewrite Hmq in *. cbn [bind] in *.
  apply bind_ok in H as (capb & _ & H). apply bind_ok in H as (u1 & _ & H). apply bind_ok in H as (capq & _ & H). apply bind_ok in H as (u2 & _ & H).
  assert (Hit' : iter_all (w_book (w_set_mkt w (m_set_seq (w_mkt w) (m_seq (w_mkt w) + 1))) (invert_side (o_side o))) now oracle =
    Ok (merged (w_book w (invert_side (o_side o))) T now oracle)) by (rewrite <- Hit; destruct (o_side o); reflexivity).
  rewrite Hit' in *. cbn [bind] in *.
  fold (start_ms w o maxq limit) in H |- *. apply bind_ok in H as (ms1 & E & H).
  apply match_loop_erase in E as (L & E). rewrite E. cbn [bind].
  destruct (trace_logs _ _ _ _ _ _ Htk _ _ _ _ _ Htr _ _ E) as [-> G]. rewrite Hst in *. cbn [bind ok_or] in *. exists L.
  split; [exact G|]. split; [reflexivity|].
  apply bind_ok in H as (b1 & _ & H). apply bind_ok in H as (b2' & _ & H). apply bind_ok in H as (mf' & _ & H). apply bind_ok in H as (x1 & _ & H).
  apply bind_ok in H as (x2 & _ & H). apply bind_ok in H as (x3 & _ & H).
  match type of H with match ?t with _ => _ end = _ => destruct t as [t0|] end.
  - apply bind_ok in H as ([[[w4 pb] pq] mfees] & Ep & H). injection H as <- _.
    eapply calm_trans; [apply calm_book|]. eapply calm_post; [exact Htk|exact Ep].
  - injection H as <- _. apply calm_book.
Qed.

(** ** Sums over fills *)
Definition by_taker (sel : Z -> bool) (g : fill_event -> Z) (f : fill_event) : Z := if sel (fe_taker f) then g f else 0.

Record tallied (w : world) (D M : list fill_event) (L : list log) (w' : world) : Prop := {
  ta_cfg : m_cfg (w_mkt w') = m_cfg (w_mkt w);
  ta_heap : forall q, heap_ok (w_heap w) q -> exists q', heap_ok (w_heap w') q' /\
    Permutation (ev_fills (map fst q) ++ M) (D ++ ev_fills (map fst q'));
  ta_fills : log_fills L = map (report (w_mkt w)) D;
  ta_seqs : log_seqs L = map fe_seq M;
  ta_volume : m_maker_volume (w_mkt w') = m_maker_volume (w_mkt w) + fsum (fill_quote (w_mkt w)) D;
  ta_fees : m_fees_accrued (w_mkt w') =
    m_fees_accrued (w_mkt w) + total_fees anyone L + fsum (fill_fee (w_mkt w)) D - fsum (fill_rebate (w_mkt w)) M;
  ta_base : forall sel, total_base sel L = fsum (by_taker sel (fun f => fe_qty f * bls (w_mkt w))) M;
  ta_quote : forall sel, total_quote sel L = fsum (by_taker sel (fill_quote (w_mkt w))) M;
  ta_paid : forall sel, total_fees sel L <= fsum (by_taker sel (fill_taker_fee (w_mkt w))) M <=
    total_fees sel L + fsum (by_taker sel (fun _ => 1)) M;
  ta_accts : forall k, vols k w w' (fsum (quote_of_maker (w_mkt w) k) D) (total_quote (Z.eqb k) L) }.

Lemma fee_up_sub f a b : fee_up f (a + b) <= fee_up f a + fee_up f b.
Proof.
  pose proof (fee_up_bounds f (a + b)). pose proof (fee_up_bounds f a). pose proof (fee_up_bounds f b). nia.
Qed.
Lemma fee_up_super f a b : fee_up f a + fee_up f b <= fee_up f (a + b) + 1.
Proof.
  pose proof (fee_up_bounds f (a + b)). pose proof (fee_up_bounds f a). pose proof (fee_up_bounds f b). nia.
Qed.

Section Acts.
Variables (m : market) (o : order) (taker : option Z) (owner now seq price : Z).
Hypothesis Hc : cfg_sound (m_cfg m).

(** A fill is with oneself if the taker's account owns the order. *)
Definition selfless (acts : list act) : Prop := forall i q, In (AFill i q) acts ->
  (lf_owner (im_leaf i) =? owner) = own_trade taker owner i.

Lemma fills_cons a r : fills_of o owner now seq (a :: r) =
  match a with AFill i q => [fill_of o owner now seq i q] | _ => [] end ++ fills_of o owner now seq r.
Proof. reflexivity. Qed.

Lemma fills_taker acts f : In f (fills_of o owner now seq acts) -> fe_taker f = owner.
Proof.
  intros H. apply in_flat_map in H as (a & _ & H). destruct a as [i q|i|i]; cbn in H; [|contradiction|contradiction].
  destruct H as [<-|[]]. reflexivity.
Qed.

Lemma fsum_taker sel g acts : fsum (by_taker sel g) (fills_of o owner now seq acts) =
  if sel owner then fsum g (fills_of o owner now seq acts) else 0.
Proof.
  pose proof (fills_taker acts) as H. induction (fills_of o owner now seq acts) as [|f F IH]; [destruct (sel owner); reflexivity|].
  rewrite !fsum_cons, IH by (intros g' Hg; apply H; right; exact Hg). unfold by_taker. rewrite (H f (or_introl eq_refl)).
  destruct (sel owner); lia.
Qed.

Lemma fills_base acts : fsum (fun f => fe_qty f * bls m) (fills_of o owner now seq acts) = base_lots acts * bls m.
Proof.
  induction acts as [|a r IH]; [reflexivity|]. rewrite fills_cons, fsum_app, IH, base_lots_cons. destruct a as [i q|i|i]; cbn [act_base].
  - rewrite fsum_cons. unfold fsum. cbn [map sumZ fold_right fill_of fe_qty]. lia.
  - unfold fsum. cbn. lia.
  - unfold fsum. cbn. lia.
Qed.
Lemma fills_quote acts : fsum (fill_quote m) (fills_of o owner now seq acts) = quote_lots acts * qls m.
Proof.
  induction acts as [|a r IH]; [reflexivity|]. rewrite fills_cons, fsum_app, IH, quote_lots_cons. destruct a as [i q|i|i]; cbn [act_quote].
  - rewrite fsum_cons. unfold fsum, fill_quote. cbn [map sumZ fold_right fill_of fe_qty fe_price]. lia.
  - unfold fsum. cbn. lia.
  - unfold fsum. cbn. lia.
Qed.

Lemma fills_none acts : Forall (act_fact o price taker owner) acts -> base_lots acts = 0 -> fills_of o owner now seq acts = [].
Proof.
  intros Hf. induction Hf as [|a r Ha Hr IH]; [reflexivity|]. intros E. rewrite base_lots_cons in E. rewrite fills_cons.
  pose proof (proj2 (own_quote_bounds _ _ _ _ _ Hr)) as Hn. destruct a as [i q|i|i]; cbn [act_base act_fact] in *; [|apply IH; lia|apply IH; lia].
  destruct Ha as (_ & _ & _ & Hq & _). lia.
Qed.

Lemma fills_rebates acts : selfless acts -> Forall (act_fact o price taker owner) acts -> quote_lots acts * qls m <= 9223372036854775807 ->
  fsum (fill_rebate m) (fills_of o owner now seq acts) = sumZ (map (rebate_of m taker owner) acts) /\
  0 <= sumZ (map (rebate_of m taker owner) acts) <= (quote_lots acts - sumZ (map (self_quote taker owner) acts)) * qls m.
Proof.
  intros Hs Hf Hq. assert (C : 1 <= qls m) by (apply (cs_qls _ Hc)).
  induction Hf as [|a r Ha Hr IH]; [split; [reflexivity|cbn; unfold quote_lots; cbn; lia]|].
  rewrite quote_lots_cons in Hq |- *. rewrite fills_cons, fsum_app. cbn [map]. rewrite !sumZ_cons.
  pose proof (own_quote_bounds _ _ _ _ _ Hr) as [Hn _].
  assert (Hq' : 0 <= quote_lots r * qls m) by (apply Z.mul_nonneg_nonneg; lia).
  destruct a as [i q|i|i]; cbn [act_quote self_quote rebate_of] in *.
  2,3: destruct IH as [I1 I2]; [intros j q Hj; exact (Hs j q (or_intror Hj))|lia|]; split; [unfold fsum at 1; cbn [map sumZ fold_right]; lia|lia].
  cbn [act_fact] in Ha. destruct Ha as (_ & _ & _ & Hq1 & Hp1 & _).
  assert (Hx : 0 <= q * im_price i * qls m) by (apply Z.mul_nonneg_nonneg; [|lia]; apply Z.mul_nonneg_nonneg; lia).
  destruct IH as [I1 I2]; [intros j q' Hj; exact (Hs j q' (or_intror Hj))|lia|].
  assert (E : fill_rebate m (fill_of o owner now seq i q) = if own_trade taker owner i then 0 else maker_gets m (q * im_price i * qls m)).
  { unfold fill_rebate, fill_self, fill_quote. cbn [fill_of fe_maker fe_taker fe_qty fe_price]. rewrite (Hs i q (or_introl eq_refl)). reflexivity. }
  unfold fsum at 1. cbn [map sumZ fold_right]. rewrite Z.add_0_r, E.
  assert (En : as_u64 (q * im_price i * qls m) = q * im_price i * qls m) by (apply as_u64_id; lia).
  rewrite En. pose proof (maker_rebate_floor_in m (q * im_price i * qls m) Hc ltac:(lia)) as Em. rewrite Em.
  pose proof (maker_gets_bounds m (q * im_price i * qls m) Hc Hx) as Hg.
  destruct (own_trade taker owner i); split; try lia. 
Qed.

Definition charged (f : fill_event) : Z := if fill_self f then 0 else fill_quote m f.
Lemma fills_charged acts : selfless acts ->
  fsum charged (fills_of o owner now seq acts) = (quote_lots acts - sumZ (map (self_quote taker owner) acts)) * qls m.
Proof.
  intros Hs. induction acts as [|a r IH]; [reflexivity|].
  rewrite quote_lots_cons, fills_cons, fsum_app. cbn [map]. rewrite !sumZ_cons.
  rewrite IH by (intros j q' Hj; exact (Hs j q' (or_intror Hj))).
  destruct a as [i q|i|i]; cbn [act_quote self_quote]; [|change (fsum charged []) with 0; lia|change (fsum charged []) with 0; lia].
  assert (E : charged (fill_of o owner now seq i q) = if own_trade taker owner i then 0 else q * im_price i * qls m).
  { unfold charged, fill_self, fill_quote. cbn [fill_of fe_maker fe_taker fe_qty fe_price]. rewrite (Hs i q (or_introl eq_refl)). reflexivity. }
  rewrite fsum_cons, E. change (fsum charged []) with 0. destruct (own_trade taker owner i); ring.
Qed.

Lemma fills_taker_fees acts : selfless acts -> Forall (act_fact o price taker owner) acts ->
  let wo := (quote_lots acts - sumZ (map (self_quote taker owner) acts)) * qls m in
  taker_pays m wo <= fsum (fill_taker_fee m) (fills_of o owner now seq acts) <=
    taker_pays m wo + fsum (fun _ => 1) (fills_of o owner now seq acts).
Proof.
  intros Hs Hf. cbv zeta. induction Hf as [|a r Ha Hr IH].
  { unfold fsum, quote_lots, taker_pays. cbn [map sumZ fold_right fills_of flat_map]. rewrite Z.sub_0_r, Z.mul_0_l, fee_up_zero. lia. }
  rewrite quote_lots_cons, fills_cons, !fsum_app. cbn [map]. rewrite !sumZ_cons.
  specialize (IH ltac:(intros j q' Hj; exact (Hs j q' (or_intror Hj)))). set (wo := (quote_lots r - sumZ (map (self_quote taker owner) r)) * qls m) in *.
  destruct a as [i q|i|i]; cbn [act_quote self_quote] in *.
  2,3: replace ((0 + quote_lots r - (0 + sumZ (map (self_quote taker owner) r))) * qls m) with wo by (subst wo; ring);
       change (fsum (fill_taker_fee m) []) with 0; change (fsum (fun _ => 1) []) with 0; lia.
  assert (E : fill_taker_fee m (fill_of o owner now seq i q) = if own_trade taker owner i then 0 else taker_pays m (q * im_price i * qls m)).
  { unfold fill_taker_fee, fill_self, fill_quote. cbn [fill_of fe_maker fe_taker fe_qty fe_price]. rewrite (Hs i q (or_introl eq_refl)). reflexivity. }
  rewrite !fsum_cons, E. change (fsum (fill_taker_fee m) []) with 0; change (fsum (fun _ => 1) []) with 0.
  destruct (own_trade taker owner i).
  - replace ((q * im_price i + quote_lots r - (q * im_price i + sumZ (map (self_quote taker owner) r))) * qls m) with wo by (subst wo; ring). lia.
  - replace ((q * im_price i + quote_lots r - (0 + sumZ (map (self_quote taker owner) r))) * qls m) with (q * im_price i * qls m + wo) by (subst wo; ring).
    unfold taker_pays in *. pose proof (fee_up_sub (taker_fee m) (q * im_price i * qls m) wo). pose proof (fee_up_super (taker_fee m) (q * im_price i * qls m) wo). lia.
Qed.
End Acts.

Lemma fits_in w P s T t l : Rep w P -> fits s (w_book w s) T -> In l (oleaves (T t)) -> In (t, l) (pleaves s P).
Proof.
  intros HR HT Hl. apply (Permutation_in _ (rep_orders _ _ s HR)). apply (in_all_leaves T t l) in Hl.
  eapply Permutation_in; [|exact Hl]. unfold orders, all_leaves.
  rewrite (proj1 (fits_orders _ _ _ Fixed HT)), (proj1 (fits_orders _ _ _ OraclePegged HT)).
  apply Permutation_sym. apply Permutation_app; apply Permutation_map, dir_perm.
Qed.

Lemma taker_vols a m s b q tf ra a' m' : execute_taker a m s b q tf ra = Ok (a', m') ->
  p_maker_volume (a_pos a') = p_maker_volume (a_pos a) /\ p_taker_volume (a_pos a') = p_taker_volume (a_pos a) + q /\
  m_cfg m' = m_cfg m /\ m_maker_volume m' = m_maker_volume m /\ m_fees_accrued m' = m_fees_accrued m.
Proof.
  unfold execute_taker. intros H. cbv zeta in H. apply bind_ok in H as (p1 & P & H).
  apply bind_ok in H as (tv & E & H). apply chk_u128_ok in E as [-> _]. apply bind_ok in H as (rb & _ & H). apply bind_ok in H as (mr & _ & H).
  injection H as <- <-. cbn [a_pos a_set_pos].
  assert (G : p_maker_volume p1 = p_maker_volume (a_pos a) /\ p_taker_volume p1 = p_taker_volume (a_pos a)).
  { destruct s; repeat (apply bind_ok in P as (? & _ & P)); injection P as <-; split; reflexivity. }
  destruct G as [G1 G2]. cbn [p_set_rebates p_set_taker_volume p_maker_volume p_taker_volume]. rewrite G1, G2.
  repeat split; reflexivity.
Qed.

Lemma sum_taker_logs sel g o taker owner maxq ms w2 bt qt tf : totals sel g (taker_logs o taker owner maxq ms w2 bt qt tf) =
  if (0 <? maxq - ms_quote ms) || (0 <? o_max_base o - ms_base ms) then
    (if sel owner then match o_side o with Bid => g Bid (qt + tf) bt tf | Ask => g Ask bt (qt - tf) tf end else 0) else 0.
Proof.
  unfold taker_logs. destruct (_ || _); [|reflexivity]. rewrite totals_app.
  replace (totals sel g (match taker with Some t => pos_logs w2 t | None => [] end)) with 0.
  2:{ destruct taker as [t|]; [|reflexivity]. symmetry. apply (proj2 (proj2 (pos_logs_facts w2 t))). }
  destruct (o_side o); unfold totals; cbn [map sumZ fold_right]; destruct (sel owner); lia.
Qed.
Lemma fills_taker_logs o taker owner maxq ms w2 bt qt tf :
  log_fills (taker_logs o taker owner maxq ms w2 bt qt tf) = [] /\ log_seqs (taker_logs o taker owner maxq ms w2 bt qt tf) = [].
Proof.
  unfold taker_logs. destruct (_ || _); [|split; reflexivity].
  rewrite log_fills_app, log_seqs_app.
  assert (G : forall t, log_fills (pos_logs w2 t) = [] /\ log_seqs (pos_logs w2 t) = []) by (intros t; destruct (pos_logs_facts w2 t) as (A & B & _); split; assumption).
  destruct taker as [t|]; [destruct (G t) as [-> ->]|]; destruct (o_side o); split; reflexivity.
Qed.
