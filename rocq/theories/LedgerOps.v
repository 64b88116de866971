(** How the operations on accounts change the ledger. *)
From Coq Require Import ZArith List Bool Lia ZifyBool Permutation.
From Verif Require Import Base Nodes OrderTree BookSide Heap Market OpenOrders Order Book
  BaseFacts SpecBook SpecFees FeeFacts Steps SpecLedger SpecEvents Ledger.
Import ListNotations.
Open Scope Z_scope.

(** ** Slots *)
Lemma order_at_pos a p i : order_at (a_set_pos a p) i = order_at a i.
Proof. reflexivity. Qed.
Lemma order_at_set_same a i oo oo' : order_at a i = Ok oo -> order_at (set_order_at a i oo') i = Ok oo'.
Proof.
  unfold order_at, set_order_at. intros H. apply bind_ok in H as (u & E & H). apply massert_ok in E. apply unwrap_ok in H.
  unfold massert, require. rewrite E. cbn [bind a_orders a_set_orders].
  rewrite nth_error_set_nth_eq; [reflexivity|]. apply nth_error_Some. congruence.
Qed.
Lemma order_at_set_other a i j oo : i <> j -> 0 <= i -> order_at (set_order_at a i oo) j = order_at a j.
Proof.
  unfold order_at, set_order_at. intros Hn Hi. unfold massert, require. destruct (0 <=? j) eqn:E; [|reflexivity].
  cbn [bind a_orders a_set_orders]. rewrite nth_error_set_nth_neq; [reflexivity|]. lia.
Qed.
Lemma order_at_nonneg a i oo : order_at a i = Ok oo -> 0 <= i.
Proof. unfold order_at. intros H. apply bind_ok in H as (u & E & _). apply massert_ok in E. lia. Qed.
Lemma used_set_same a i oo oo' : order_at a i = Ok oo -> used (set_order_at a i oo') i = if oo_free oo' then 0 else 1.
Proof. intros H. unfold used. rewrite (order_at_set_same _ _ _ _ H). reflexivity. Qed.
Lemma used_set_other a i j oo : i <> j -> 0 <= i -> used (set_order_at a i oo) j = used a j.
Proof. intros H1 H2. unfold used. rewrite order_at_set_other by assumption. reflexivity. Qed.
Lemma used_pos a p i : used (a_set_pos a p) i = used a i.
Proof. reflexivity. Qed.
Lemma len_set a i oo : length (a_orders (set_order_at a i oo)) = length (a_orders a).
Proof. unfold set_order_at. cbn [a_orders a_set_orders]. apply set_nth_length. Qed.

(** ** Amounts of pieces *)
Lemma piece_amounts m p : cfg_sound (m_cfg m) -> piece_ok m p ->
  1 <= qls m /\ 1 <= bls m /\ 0 < pc_qty p * bls m /\ 0 < pc_qty p * pc_lp p * qls m /\
  pc_qty p * pc_lp p <= 9223372036854775807 /\ pc_qty p <= 9223372036854775807.
Proof.
  intros Hc [H1 H2 H3 H4 H5 H6]. destruct Hc as [C1 C2 _ _ _]. unfold i64_max in *. fold (qls m) in C1. fold (bls m) in C2.
  split; [lia|]. split; [lia|]. split; [nia|].
  assert (0 < pc_qty p * pc_lp p) by nia. split; [nia|]. split; nia.
Qed.
Lemma fill_amounts m f id : cfg_sound (m_cfg m) -> piece_ok m (PFill f id) ->
  1 <= qls m /\ 1 <= bls m /\ 0 < fe_qty f * bls m <= 9223372036854775807 /\
  0 < fill_quote m f <= 9223372036854775807 /\ 0 < fill_locked m f <= 9223372036854775807 /\
  (fill_side f = Bid -> fill_quote m f <= fill_locked m f) /\
  0 < fe_qty f * fe_price f <= 9223372036854775807 /\ 0 < fe_qty f * fill_lp f <= 9223372036854775807 /\
  0 <= fill_rebate m f <= fill_quote m f /\ 0 <= fill_fee m f <= fill_quote m f.
Proof.
  intros Hc Hp. destruct (piece_amounts m _ Hc Hp) as (A1 & A2 & A3 & A4 & A5 & A6).
  destruct Hp as [H1 H2 H3 H4 H5 (H6 & H7 & H8)]. cbn [pc_qty pc_lp] in *.
  assert (B1 : 0 < fe_qty f * fe_price f) by nia.
  assert (B2 : 0 < fill_quote m f) by (unfold fill_quote; nia).
  assert (B3 : fe_qty f * fe_price f <= fill_quote m f) by (unfold fill_quote; nia).
  split; [lia|]. split; [lia|]. split; [lia|]. split; [lia|]. split; [unfold fill_locked; lia|].
  split; [intros E; specialize (H8 E); unfold fill_quote, fill_locked; apply Z.mul_le_mono_nonneg_r; [lia|]; nia|].
  split; [lia|]. split; [nia|].
  pose proof (maker_gets_bounds m (fill_quote m f) Hc ltac:(lia)). pose proof (maker_pays_bounds m (fill_quote m f) Hc ltac:(lia)).
  unfold fill_rebate, fill_fee. destruct (fill_self f); lia.
Qed.
Lemma base_claim_nonneg m p : cfg_sound (m_cfg m) -> piece_ok m p -> 0 <= base_claim m p.
Proof.
  intros Hc Hp. destruct (piece_amounts m p Hc Hp) as (A1 & A2 & A3 & A4 & A5 & A6).
  destruct p as [s t l lp|e lp id|f id]; cbn [base_claim pc_side pc_qty] in *.
  - destruct s; lia.
  - destruct (oe_side e); lia.
  - destruct (fill_side f); lia.
Qed.
Lemma quote_claim_nonneg m p : cfg_sound (m_cfg m) -> piece_ok m p -> 0 <= quote_claim m p.
Proof.
  intros Hc Hp. destruct (piece_amounts m p Hc Hp) as (A1 & A2 & A3 & A4 & A5 & A6).
  destruct p as [s t l lp|e lp id|f id]; cbn [quote_claim pc_side pc_qty pc_lp] in *.
  - destruct s; lia.
  - destruct (oe_side e); lia.
  - pose proof (fill_amounts m f id Hc Hp) as (_ & _ & _ & F1 & F2 & F3 & _ & _ & F4 & _). destruct (fill_side f); [|lia].
    specialize (F3 eq_refl). lia.
Qed.
Lemma fee_need_nonneg m p : cfg_sound (m_cfg m) -> piece_ok m p -> 0 <= fee_need m p.
Proof.
  intros Hc Hp. destruct (piece_amounts m p Hc Hp) as (A1 & A2 & A3 & A4 & A5 & A6).
  unfold fee_need. destruct (pc_side p); [|lia]. destruct p as [s t l lp|e lp id|f id]; cbn [pc_qty pc_lp] in *.
  - apply maker_locks_bounds; [exact Hc|lia].
  - apply maker_locks_bounds; [exact Hc|lia].
  - pose proof (fill_amounts m f id Hc Hp) as (_ & _ & _ & F1 & F2 & F3 & _ & _ & _ & F4).
    destruct (fill_pegged f); [|lia]. apply maker_pays_bounds; [exact Hc|lia].
Qed.

(** ** Cancelling an order of an account *)
Lemma cancel_inv a i qty m a' oo : cfg_sound (m_cfg m) -> order_at a i = Ok oo -> 0 <= qty ->
  qty * bls m <= 9223372036854775807 -> 0 <= oo_locked_price oo ->
  qty * oo_locked_price oo * qls m <= 9223372036854775807 ->
  ooa_cancel_order a i qty m = Ok a' ->
  let p' := cancelled_pos m (a_pos a) (oo_side oo) qty (oo_locked_price oo) in
  a' = freed a i p' /\ oo_free oo = false /\
  match oo_side oo with Bid => u64_ok (p_quote_free p') /\ u64_ok (p_locked_fees p') | Ask => u64_ok (p_base_free p') end.
Proof.
  intros Hc Ho Hq Hb Hl Hqq H p'. unfold ooa_cancel_order in H. rewrite Ho in H. cbn [bind] in H. cbv zeta in H.
  destruct Hc as [C1 C2 C3 C4 C5]. unfold i64_max in *. fold (qls m) in C1. fold (bls m) in C2.
  apply bind_ok in H as (x1 & E & H). apply chk_i64_ok in E as [-> _].
  apply bind_ok in H as (x2 & E & H). apply chk_i64_ok in E as [-> _].
  apply bind_ok in H as (x3 & E & H). apply chk_i64_ok in E as [-> _].
  assert (B1 : 0 <= qty * bls m) by nia. assert (B2 : 0 <= qty * oo_locked_price oo * qls m) by (apply Z.mul_nonneg_nonneg; [nia|lia]).
  rewrite (as_u64_id (qty * bls m)) in H by lia. rewrite (as_u64_id (qty * oo_locked_price oo * qls m)) in H by lia.
  apply bind_ok in H as (fees & E & H). apply maker_fees_ceil_ok in E; [|lia]. subst fees.
  apply bind_ok in H as (p1 & E & H). unfold remove_order in H. rewrite order_at_pos, Ho in H. cbn [bind] in H. cbv zeta in H.
  apply bind_ok in H as (u & Ef & H). apply massert_ok in Ef. apply bind_ok in H as (p2 & E2 & H). injection H as <-.
  cbn [a_pos a_set_pos] in E2. subst p'. unfold cancelled_pos. cbv zeta.
  destruct (oo_side oo) eqn:Es.
  - apply bind_ok in E as (y1 & E & E'). apply chk_u64_ok in E as [-> R1].
    apply bind_ok in E' as (y2 & E & E'). apply chk_u64_ok in E as [-> R2].
    apply bind_ok in E' as (y3 & E & E'). apply chk_u64_ok in E as [-> R3]. injection E' as <-.
    apply bind_ok in E2 as (z1 & E & E2). apply chk_i64_ok in E as [-> _].
    apply bind_ok in E2 as (z2 & E & E2). apply chk_i64_ok in E as [-> _].
    apply bind_ok in E2 as (z3 & E & E2). apply chk_i64_ok in E as [-> _]. injection E2 as <-.
    split; [reflexivity|]. split; [destruct (oo_free oo); [discriminate|reflexivity]|]. split; assumption.
  - apply bind_ok in E as (y1 & E & E'). apply chk_u64_ok in E as [-> R1]. injection E' as <-.
    apply bind_ok in E2 as (z1 & E & E2). apply chk_i64_ok in E as [-> _]. injection E2 as <-.
    split; [reflexivity|]. split; [destruct (oo_free oo); [discriminate|reflexivity]|]. assumption.
Qed.

Lemma cancel_succeeds a i qty m oo : cfg_sound (m_cfg m) -> order_at a i = Ok oo -> oo_free oo = false -> 0 <= qty ->
  qty * bls m <= 9223372036854775807 -> 0 <= oo_locked_price oo ->
  qty * oo_locked_price oo * qls m <= 9223372036854775807 ->
  let p' := cancelled_pos m (a_pos a) (oo_side oo) qty (oo_locked_price oo) in
  match oo_side oo with
  | Bid => u64_ok (p_quote_free p') /\ u64_ok (p_locked_fees p') /\ 0 <= p_quote_free (a_pos a) /\
           0 <= p_bids_base p' <= 9223372036854775807 /\ 0 <= p_bids_quote p' <= 9223372036854775807
  | Ask => u64_ok (p_base_free p') /\ 0 <= p_asks_base p' <= 9223372036854775807
  end -> ooa_cancel_order a i qty m = Ok (freed a i p').
Proof.
  intros Hc Ho Hfr Hq Hb Hl Hqq p' Hr. pose proof Hc as Hc'.
  destruct Hc' as [C1 C2 C3 C4 C5]. unfold i64_max in *. fold (qls m) in C1. fold (bls m) in C2.
  assert (B1 : 0 <= qty * bls m) by nia. assert (B0 : 0 <= qty * oo_locked_price oo) by nia.
  assert (B2 : 0 <= qty * oo_locked_price oo * qls m) by nia.
  assert (B3 : qty * oo_locked_price oo <= qty * oo_locked_price oo * qls m) by nia.
  pose proof (maker_locks_bounds m (qty * oo_locked_price oo * qls m) Hc B2) as Hlk.
  subst p'. unfold cancelled_pos in *. cbv zeta in *.
  unfold ooa_cancel_order. rewrite Ho. cbn [bind]. cbv zeta.
  rewrite (chk_i64_in (qty * bls m)) by lia. cbn [bind].
  rewrite (chk_i64_in (qty * oo_locked_price oo)) by lia. cbn [bind].
  rewrite (chk_i64_in (qty * oo_locked_price oo * qls m)) by lia. cbn [bind].
  rewrite (as_u64_id (qty * bls m)) by lia. rewrite (as_u64_id (qty * oo_locked_price oo * qls m)) by lia.
  set (q := qty * oo_locked_price oo * qls m) in *.
  assert (Ef : maker_fees_ceil chk_u64 m q = Ok (maker_locks m q)).
  { unfold chk_u64. rewrite maker_fees_ceil_in by (try exact Hc; lia). unfold maker_locks at 2.
    destruct (0 <? maker_fee m) eqn:E; [|reflexivity]. fold (chk_u64 (maker_locks m q)). rewrite chk_u64_in by lia.
    unfold maker_locks. rewrite E. reflexivity. }
  rewrite Ef. cbn [bind]. unfold remove_order.
  destruct (oo_side oo) eqn:Es; cbn [p_bids_base p_bids_quote p_asks_base p_quote_free p_locked_fees p_base_free] in Hr.
  - destruct Hr as (R1 & R2 & R0 & R3 & R4). unfold u64_ok in *.
    rewrite (chk_u64_in (q + maker_locks m q)) by lia. cbn [bind].
    rewrite chk_u64_in by lia. cbn [bind]. rewrite chk_u64_in by lia. cbn [bind].
    rewrite order_at_pos, Ho. cbn [bind]. rewrite Hfr. cbn [negb massert require bind a_pos a_set_pos]. rewrite Es.
    cbn [p_set_locked_fees p_set_quote_free p_bids_base p_bids_quote].
    rewrite chk_i64_in by lia. cbn [bind]. rewrite (chk_i64_in (qty * oo_locked_price oo)) by lia. cbn [bind].
    rewrite chk_i64_in by lia. cbn [bind]. reflexivity.
  - destruct Hr as (R1 & R3). unfold u64_ok in *.
    rewrite chk_u64_in by lia. cbn [bind].
    rewrite order_at_pos, Ho. cbn [bind]. rewrite Hfr. cbn [negb massert require bind a_pos a_set_pos]. rewrite Es.
    cbn [p_set_base_free p_asks_base]. rewrite chk_i64_in by lia. reflexivity.
Qed.

(** ** A maker's fill *)
Definition fill_fits (m : market) (a : ooa) (f : fill_event) : Prop :=
  let p' := filled_pos m (a_pos a) f in
  u64_ok (p_base_free p') /\ u64_ok (p_quote_free p') /\ u64_ok (p_rebates p') /\ u128_ok (p_maker_volume p') /\
  u64_ok (m_rebates_accrued (filled_mkt m f)) /\ u128_ok (m_maker_volume (filled_mkt m f)) /\
  u128_ok (m_fees_accrued (filled_mkt m f)) /\
  match fill_side f with Bid => u64_ok (p_locked_fees p') | Ask => True end.

(** The number of base lots changes hands; the rest is determined. *)
Lemma fill_lp_unpegged f : fill_pegged f = false -> fill_lp f = fe_price f.
Proof. unfold fill_lp. intros ->. reflexivity. Qed.
Lemma fill_pegged_bid f : fill_pegged f = true -> fill_side f = Bid /\ fill_lp f = fe_peg_limit f.
Proof.
  intros E. split; [|unfold fill_lp; rewrite E; reflexivity]. unfold fill_pegged in E. apply andb_prop in E as [_ E].
  destruct (fill_side f); [reflexivity|discriminate E].
Qed.

Lemma exec_inv m a f id a' m' oo : cfg_sound (m_cfg m) -> piece_ok m (PFill f id) ->
  (fe_maker_out f = true -> order_at a (fe_maker_slot f) = Ok oo /\ oo_side oo = fill_side f) ->
  u64_ok (p_base_free (a_pos a)) ->
  execute_maker a m f = Ok (a', m') ->
  a' = filled m a f /\ m' = filled_mkt m f /\ fill_fits m a f /\ (fe_maker_out f = true -> oo_free oo = false).
Proof.
  intros Hc Hp Hoo Hbf H. pose proof (fill_amounts m f id Hc Hp) as (A1 & A2 & A3 & A4 & A5 & A6 & A7 & A8 & A9 & A10).
  unfold execute_maker in H. cbv zeta in H. fold (fill_side f) in H. fold (fill_self f) in H.
  apply bind_ok in H as (x1 & E & H). apply chk_i64_ok in E as [-> _].
  apply bind_ok in H as (x2 & E & H). apply chk_i64_ok in E as [-> _]. fold (fill_quote m f) in H.
  rewrite (as_u64_id (fill_quote m f)) in H by lia.
  apply bind_ok in H as (mfee & E & H).
  assert (Ef : mfee = fill_fee m f).
  { unfold fill_fee. destruct (fill_self f); [injection E as <-; reflexivity|]. apply maker_fees_floor_ok in E; [exact E|lia]. }
  subst mfee. clear E.
  apply bind_ok in H as (mreb & E & H).
  assert (Er : mreb = fill_rebate m f).
  { unfold fill_rebate. destruct (fill_self f); [injection E as <-; reflexivity|]. apply maker_rebate_floor_ok in E; [exact E|lia]. }
  subst mreb. clear E.
  apply bind_ok in H as ([[lmf ab] lp] & E & H). fold (fill_pegged f) in E.
  assert (G : lp = fill_lp f /\ lmf = (if fill_pegged f then maker_pays m (fill_locked m f) else fill_fee m f) /\
    ab = fill_locked m f - fill_quote m f + (lmf - fill_fee m f)).
  { destruct (fill_pegged f) eqn:Ep.
    - destruct (fill_pegged_bid _ Ep) as [_ Elp]. unfold fill_locked in *. rewrite Elp in *.
      apply bind_ok in E as (y1 & E1 & E). apply chk_i64_ok in E1 as [-> _].
      apply bind_ok in E as (y2 & E1 & E). apply chk_i64_ok in E1 as [-> _].
      rewrite (as_u64_id (fe_qty f * fe_peg_limit f * qls m)) in E by lia.
      apply bind_ok in E as (y3 & E1 & E). apply chk_u64_ok in E1 as [-> _].
      apply bind_ok in E as (y4 & E1 & E). apply maker_fees_floor_ok in E1; [|lia]. subst y4.
      apply bind_ok in E as (y5 & E1 & E). apply chk_u64_ok in E1 as [-> _].
      apply bind_ok in E as (y6 & E1 & E). apply chk_u64_ok in E1 as [-> _]. injection E as <- <- <-.
      split; [reflexivity|]. split; reflexivity.
    - injection E as <- <- <-. rewrite (fill_lp_unpegged _ Ep). split; [reflexivity|]. split; [reflexivity|].
      unfold fill_locked, fill_quote. rewrite (fill_lp_unpegged _ Ep). lia. }
  clear E. destruct G as (-> & Elm & ->). rewrite Elm in H. clear Elm lmf.
  apply bind_ok in H as (p1 & E & H).
  apply bind_ok in H as (mv & Emv & H). apply chk_u128_ok in Emv as [-> Rmv].
  apply bind_ok in H as (rb & Erb & H). apply chk_u64_ok in Erb as [-> Rrb].
  apply bind_ok in H as (mr & Emr & H). apply chk_u64_ok in Emr as [-> Rmr].
  apply bind_ok in H as (mmv & Emm & H). apply chk_u128_ok in Emm as [-> Rmm].
  apply bind_ok in H as (mfa & Emf & H). apply chk_u128_ok in Emf as [-> Rmf].
  apply bind_ok in H as (a1 & Ea & H). apply bind_ok in H as (u & _ & H). injection H as <- <-.
  unfold fill_fits, filled, filled_pos, u64_ok, u128_ok in *. cbv zeta.
  destruct (fill_side f) eqn:Es.
  - apply bind_ok in E as (z1 & E1 & E). apply chk_i64_ok in E1 as [-> _].
    rewrite (as_u64_id (fe_qty f * bls m)) in E by lia.
    apply bind_ok in E as (z2 & E1 & E). apply chk_u64_ok in E1 as [-> S1].
    apply bind_ok in E as (z3 & E1 & E). apply chk_u64_ok in E1 as [-> S2].
    apply bind_ok in E as (z4 & E1 & E). apply chk_u64_ok in E1 as [-> S3].
    apply bind_ok in E as (z5 & E1 & E). apply chk_u64_ok in E1 as [-> S4]. injection E as <-.
    cbn [p_maker_volume p_rebates p_set_locked_fees p_set_quote_free p_set_base_free p_base_free p_quote_free p_locked_fees] in *.
    destruct (fe_maker_out f) eqn:Eo.
    + destruct (Hoo eq_refl) as [Ho Hs]. unfold remove_order in Ea. rewrite order_at_pos, Ho in Ea. cbn [bind] in Ea. cbv zeta in Ea.
      apply bind_ok in Ea as (u1 & Ef & Ea). apply massert_ok in Ef. rewrite Hs in Ea.
      apply bind_ok in Ea as (p2 & E2 & Ea). injection Ea as <-.
      apply bind_ok in E2 as (y1 & E1 & E2). apply chk_i64_ok in E1 as [-> _].
      apply bind_ok in E2 as (y2 & E1 & E2). apply chk_i64_ok in E1 as [-> _].
      apply bind_ok in E2 as (y3 & E1 & E2). apply chk_i64_ok in E1 as [-> _]. injection E2 as <-.
      split; [reflexivity|]. split; [reflexivity|]. split; [repeat (split; [assumption|]); assumption|].
      intros _. destruct (oo_free oo); [discriminate|reflexivity].
    + apply bind_ok in Ea as (y1 & E1 & Ea). apply chk_i64_ok in E1 as [-> _].
      apply bind_ok in Ea as (y2 & E1 & Ea). apply chk_i64_ok in E1 as [-> _].
      apply bind_ok in Ea as (y3 & E1 & Ea). apply chk_i64_ok in E1 as [-> _]. injection Ea as <-.
      split; [reflexivity|]. split; [reflexivity|]. split; [repeat (split; [assumption|]); assumption|discriminate].
  - apply bind_ok in E as (z2 & E1 & E). apply chk_u64_ok in E1 as [-> S1].
    apply bind_ok in E as (z3 & E1 & E). apply chk_u64_ok in E1 as [-> S2].
    apply bind_ok in E as (z4 & E1 & E). apply chk_u64_ok in E1 as [-> S3]. injection E as <-.
    cbn [p_maker_volume p_rebates p_set_locked_fees p_set_quote_free p_set_base_free p_base_free p_quote_free p_locked_fees] in *.
    destruct (fe_maker_out f) eqn:Eo.
    + destruct (Hoo eq_refl) as [Ho Hs]. unfold remove_order in Ea. rewrite order_at_pos, Ho in Ea. cbn [bind] in Ea. cbv zeta in Ea.
      apply bind_ok in Ea as (u1 & Ef & Ea). apply massert_ok in Ef. rewrite Hs in Ea.
      apply bind_ok in Ea as (p2 & E2 & Ea). injection Ea as <-.
      apply bind_ok in E2 as (y1 & E1 & E2). apply chk_i64_ok in E1 as [-> _]. injection E2 as <-.
      split; [reflexivity|]. split; [reflexivity|]. split; [repeat (split; [assumption|]); exact I|].
      intros _. destruct (oo_free oo); [discriminate|reflexivity].
    + apply bind_ok in Ea as (y1 & E1 & Ea). apply chk_i64_ok in E1 as [-> _]. injection Ea as <-.
      split; [reflexivity|]. split; [reflexivity|]. split; [repeat (split; [assumption|]); exact I|discriminate].
Qed.

Lemma exec_succeeds m a f id oo : cfg_sound (m_cfg m) -> piece_ok m (PFill f id) ->
  (fe_maker_out f = true -> order_at a (fe_maker_slot f) = Ok oo /\ oo_side oo = fill_side f /\ oo_free oo = false) ->
  pos_ok m (a_pos a) -> fill_fits m a f ->
  match fill_side f with
  | Bid => 0 <= p_bids_base (filled_pos m (a_pos a) f) <= 9223372036854775807 /\
           0 <= p_bids_quote (filled_pos m (a_pos a) f) <= 9223372036854775807
  | Ask => 0 <= p_asks_base (filled_pos m (a_pos a) f) <= 9223372036854775807
  end -> execute_maker a m f = Ok (filled m a f, filled_mkt m f).
Proof.
  intros Hc Hp Hoo Hpos Hfit Hloc.
  pose proof (fill_amounts m f id Hc Hp) as (A1 & A2 & A3 & A4 & A5 & A6 & A7 & A8 & A9 & A10).
  destruct Hpos as [P1 P2 P3 P4 P5 P6 P7 P8].
  unfold execute_maker. cbv zeta. fold (fill_side f). fold (fill_self f).
  rewrite (chk_i64_in (fe_qty f * fe_price f)) by lia. cbn [bind]. fold (fill_quote m f).
  rewrite (chk_i64_in (fill_quote m f)) by lia. cbn [bind]. rewrite (as_u64_id (fill_quote m f)) by lia.
  assert (Ef : (if fill_self f then Ok 0 else maker_fees_floor m (fill_quote m f)) = Ok (fill_fee m f)).
  { unfold fill_fee. destruct (fill_self f); [reflexivity|]. apply maker_fees_floor_in; [exact Hc|lia]. }
  rewrite Ef. cbn [bind].
  assert (Er : (if fill_self f then Ok 0 else maker_rebate_floor m (fill_quote m f)) = Ok (fill_rebate m f)).
  { unfold fill_rebate. destruct (fill_self f); [reflexivity|]. apply maker_rebate_floor_in; [exact Hc|lia]. }
  rewrite Er. cbn [bind]. fold (fill_pegged f).
  set (locked := if fill_pegged f then maker_pays m (fill_locked m f) else fill_fee m f).
  assert (Hlk : fill_side f = Bid -> 0 <= locked - fill_fee m f).
  { intros Es. unfold locked. destruct (fill_pegged f) eqn:Ep; [|lia]. specialize (A6 Es).
    pose proof (maker_pays_mono m _ _ A6). pose proof (maker_pays_bounds m (fill_quote m f) Hc ltac:(lia)).
    unfold fill_fee. destruct (fill_self f); lia. }
  assert (Hlk2 : fill_pegged f = true -> 0 <= maker_pays m (fill_locked m f) <= fill_locked m f)
    by (intros _; apply maker_pays_bounds; [exact Hc|lia]).
  match goal with |- bind ?X _ = _ => assert (El : X = Ok (locked, fill_locked m f - fill_quote m f + (locked - fill_fee m f), fill_lp f)) end.
  { unfold locked. destruct (fill_pegged f) eqn:Ep.
    - destruct (fill_pegged_bid _ Ep) as [Es Elp]. specialize (A6 Es). specialize (Hlk Es). unfold locked in Hlk.
      specialize (Hlk2 eq_refl).
      rewrite Elp in *. rewrite (chk_i64_in (fe_qty f * fe_peg_limit f)) by lia. cbn [bind].
      replace (fe_qty f * fe_peg_limit f * qls m) with (fill_locked m f) by (unfold fill_locked; rewrite Elp; reflexivity).
      rewrite (chk_i64_in (fill_locked m f)) by lia. cbn [bind]. rewrite (as_u64_id (fill_locked m f)) by lia.
      rewrite chk_u64_in by lia. cbn [bind]. rewrite maker_fees_floor_in by (try exact Hc; lia). cbn [bind].
      rewrite chk_u64_in by lia. cbn [bind]. rewrite chk_u64_in by lia. reflexivity.
    - rewrite (fill_lp_unpegged _ Ep). unfold fill_locked, fill_quote. rewrite (fill_lp_unpegged _ Ep).
      do 2 f_equal. f_equal. lia. }
  rewrite El. cbn [bind]. clear El.
  destruct Hfit as (F1 & F2 & F3 & F4 & F5 & F6 & F7 & F8).
  assert (Htk : forall m', m_cfg m' = m_cfg m ->
    (if (0 <? fill_quote m f) && negb (fill_self f) then taker_fees_ceil chk_u64 m' (fill_quote m f) else Ok 0) =
    Ok (if (0 <? fill_quote m f) && negb (fill_self f) then taker_pays m' (fill_quote m f) else 0)).
  { intros m' Em. destruct ((0 <? fill_quote m f) && negb (fill_self f)); [|reflexivity]. unfold chk_u64.
    assert (Hc' : cfg_sound (m_cfg m')) by (rewrite Em; exact Hc).
    rewrite taker_fees_ceil_in by (try exact Hc'; lia). fold (chk_u64 (taker_pays m' (fill_quote m f))).
    apply chk_u64_in. pose proof (taker_pays_bounds m' (fill_quote m f) Hc' ltac:(lia)). lia. }
  unfold filled_pos, filled_mkt in *. fold locked in F1, F2, F3, F4, F8, Hloc. cbv zeta in F1, F2, F3, F4, F8, Hloc.
  unfold filled, filled_pos. fold locked. cbv zeta.
  cbn [m_set_fees_accrued m_set_maker_volume m_set_rebates_accrued m_rebates_accrued m_maker_volume m_fees_accrued] in F5, F6, F7.
  unfold u64_ok, u128_ok in *.
  destruct (fill_side f) eqn:Es;
    cbn [p_base_free p_quote_free p_rebates p_maker_volume p_locked_fees p_bids_base p_bids_quote p_asks_base] in F1, F2, F3, F4, F8, Hloc.
  - destruct Hloc as [HL1 HL2]. specialize (Hlk eq_refl). specialize (A6 eq_refl).
    rewrite (chk_i64_in (fe_qty f * bls m)) by lia. cbn [bind]. rewrite (as_u64_id (fe_qty f * bls m)) by lia.
    rewrite chk_u64_in by lia. cbn [bind]. rewrite chk_u64_in by lia. cbn [bind]. rewrite chk_u64_in by lia. cbn [bind].
    rewrite chk_u64_in by lia. cbn [bind p_set_locked_fees p_set_quote_free p_set_base_free p_maker_volume p_rebates].
    rewrite chk_u128_in by lia. cbn [bind]. rewrite chk_u64_in by lia. cbn [bind]. rewrite chk_u64_in by lia. cbn [bind].
    rewrite chk_u128_in by lia. cbn [bind]. rewrite chk_u128_in by lia. cbn [bind].
    destruct (fe_maker_out f) eqn:Eo.
    + destruct (Hoo eq_refl) as (Ho & Hs & Hfr). unfold remove_order. rewrite order_at_pos, Ho. cbn [bind]. rewrite Hfr, Hs.
      cbn [negb massert require bind a_pos a_set_pos p_set_rebates p_set_maker_volume p_set_locked_fees p_set_quote_free p_set_base_free p_bids_base p_bids_quote].
      rewrite chk_i64_in by lia. cbn [bind]. rewrite chk_i64_in by lia. cbn [bind]. rewrite chk_i64_in by lia. cbn [bind].
      rewrite Htk by reflexivity. reflexivity.
    + cbn [p_set_rebates p_set_maker_volume p_set_locked_fees p_set_quote_free p_set_base_free p_bids_base p_bids_quote].
      rewrite chk_i64_in by lia. cbn [bind]. rewrite chk_i64_in by lia. cbn [bind]. rewrite chk_i64_in by lia. cbn [bind].
      rewrite Htk by reflexivity. reflexivity.
  - rewrite chk_u64_in by lia. cbn [bind]. rewrite chk_u64_in by lia. cbn [bind]. rewrite chk_u64_in by lia.
    cbn [bind p_set_locked_fees p_set_quote_free p_set_base_free p_maker_volume p_rebates].
    rewrite chk_u128_in by lia. cbn [bind]. rewrite chk_u64_in by lia. cbn [bind]. rewrite chk_u64_in by lia. cbn [bind].
    rewrite chk_u128_in by lia. cbn [bind]. rewrite chk_u128_in by lia. cbn [bind].
    destruct (fe_maker_out f) eqn:Eo.
    + destruct (Hoo eq_refl) as (Ho & Hs & Hfr). unfold remove_order. rewrite order_at_pos, Ho. cbn [bind]. rewrite Hfr, Hs.
      cbn [negb massert require bind a_pos a_set_pos p_set_rebates p_set_maker_volume p_set_quote_free p_asks_base].
      rewrite chk_i64_in by lia. cbn [bind]. rewrite Htk by reflexivity. reflexivity.
    + cbn [p_set_rebates p_set_maker_volume p_set_quote_free p_asks_base].
      rewrite chk_i64_in by lia. cbn [bind]. rewrite Htk by reflexivity. reflexivity.
Qed.
