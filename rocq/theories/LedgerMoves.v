(** Turning pieces into events and events into balances. *)
From Coq Require Import ZArith List Bool Lia ZifyBool Permutation.
From Verif Require Import Base Nodes OrderTree BookSide Heap Market OpenOrders Order Book
  BaseFacts SpecBook SpecFees FeeFacts Steps SpecLedger SpecEvents Ledger LedgerOps.
Import ListNotations.
Open Scope Z_scope.

Lemma in_slot_nonneg k i p : 0 <= in_slot k i p.
Proof. unfold in_slot. destruct (_ && _); lia. Qed.
Lemma with_seq_nonneg s q p : 0 <= with_seq s q p.
Proof. unfold with_seq. destruct (_ && _); lia. Qed.
Lemma in_slot_own p : pc_last p = true -> in_slot (pc_owner p) (pc_slot p) p = 1.
Proof. intros E. unfold in_slot. rewrite E, !Z.eqb_refl. reflexivity. Qed.

Lemma slot_excl m ac q P p : Led m ac (q :: P) -> pc_last q = true -> In p P -> pc_last p = true ->
  pc_owner p = pc_owner q -> pc_slot p <> pc_slot q.
Proof.
  intros HL Hq Hin Hp Eo Es. destruct (ld_back _ _ _ HL q (or_introl eq_refl)) as (a & Ha & Hb).
  destruct (Hb Hq) as (oo & Ho & Hs & _). pose proof (ac_slots _ _ _ _ (ld_acct _ _ _ HL _ _ Ha) (pc_slot q)) as E.
  unfold used in E. rewrite Ho, Hs, psum_cons, (in_slot_own q Hq) in E.
  pose proof (psum_in (in_slot (pc_owner q) (pc_slot q)) P p (fun r _ => in_slot_nonneg _ _ r) Hin) as G.
  rewrite <- Eo, <- Es, (in_slot_own p Hp) in G. rewrite <- Eo, <- Es in E. lia.
Qed.

Lemma same_bal_perm m ac P Q m' ac' P' Q' db dq dv df dl dt : Permutation P Q -> Permutation P' Q' ->
  same_bal m ac P m' ac' P' db dq dv df dl dt -> same_bal m ac Q m' ac' Q' db dq dv df dl dt.
Proof.
  intros H1 H2 [B1 B2 B3 B4 B5 B6]. unfold base_gap, quote_gap, vol_all, fee_all in *.
  rewrite !(psum_perm _ _ _ H1) in *. rewrite !(psum_perm _ _ _ H2) in *. constructor; assumption.
Qed.
Lemma same_bal_trans m ac P m1 ac1 P1 m2 ac2 P2 a1 a2 a3 a4 a5 a6 b1 b2 b3 b4 b5 b6 :
  same_bal m ac P m1 ac1 P1 a1 a2 a3 a4 a5 a6 -> same_bal m1 ac1 P1 m2 ac2 P2 b1 b2 b3 b4 b5 b6 ->
  same_bal m ac P m2 ac2 P2 (a1 + b1) (a2 + b2) (a3 + b3) (a4 + b4) (a5 + b5) (a6 + b6).
Proof. intros [A1 A2 A3 A4 A5 A6] [B1 B2 B3 B4 B5 B6]. constructor; lia. Qed.
Lemma same_bal_refl m ac P : same_bal m ac P m ac P 0 0 0 0 0 0.
Proof. constructor; lia. Qed.
Lemma same_bal_eq m ac P m' ac' P' a1 a2 a3 a4 a5 a6 b1 b2 b3 b4 b5 b6 :
  same_bal m ac P m' ac' P' a1 a2 a3 a4 a5 a6 -> a1 = b1 -> a2 = b2 -> a3 = b3 -> a4 = b4 -> a5 = b5 -> a6 = b6 ->
  same_bal m ac P m' ac' P' b1 b2 b3 b4 b5 b6.
Proof. intros H <- <- <- <- <- <-. exact H. Qed.

Ltac open_bal := unfold base_gap, quote_gap, vol_all, fee_all, vol_lost, vol_taken.

Lemma of_side_own k s f p : pc_owner p = k -> of_side k s f p = if side_eqb (pc_side p) s then f p else 0.
Proof. intros E. unfold of_side. rewrite E, Z.eqb_refl. reflexivity. Qed.
Lemma of_acct_own k f p : pc_owner p = k -> of_acct k f p = f p.
Proof. intros E. unfold of_acct. rewrite E, Z.eqb_refl. reflexivity. Qed.

(** ** An out event is applied *)
Section Out.
Variables (m : market) (ac : accounts) (P : list piece) (e : out_event) (lp id : Z) (a : ooa).
Hypothesis HL : Led m ac (POut e lp id :: P).
Hypothesis Ha : acct_get (oe_owner e) ac = Some a.

Lemma out_slot : exists oo, order_at a (oe_slot e) = Ok oo /\ slot_of oo (POut e lp id).
Proof using HL Ha.
  destruct (ld_back _ _ _ HL _ (or_introl eq_refl)) as (b & Hb & Ho). cbn [pc_owner] in Hb. rewrite Ha in Hb.
  injection Hb as <-. exact (Ho eq_refl).
Qed.

Lemma led_out a' : ooa_cancel_order a (oe_slot e) (oe_qty e) m = Ok a' ->
  Led m (acct_set (oe_owner e) a' ac) P /\
  same_bal m ac (POut e lp id :: P) m (acct_set (oe_owner e) a' ac) P 0 0 0 0 0 0 /\
  a' = freed a (oe_slot e) (cancelled_pos m (a_pos a) (oe_side e) (oe_qty e) lp).
Proof using HL Ha.
  intros H. destruct out_slot as (oo & Ho & Hfr & Hsd & Hid & Hlp). cbn [pc_side pc_id] in Hsd, Hid.
  pose proof (ld_mkt _ _ _ HL) as Hm. pose proof (mk_cfg _ Hm) as Hc.
  pose proof (ld_piece _ _ _ HL _ (or_introl eq_refl)) as Hp.
  pose proof (piece_amounts m _ Hc Hp) as (A1 & A2 & A3 & A4 & A5 & A6).
  destruct Hp as [K1 K2 K3 K4 K5 _]. cbn [pc_qty pc_lp pc_side pc_id] in *.
  apply (cancel_inv _ _ _ _ _ oo Hc Ho) in H; [|lia|lia|lia|rewrite Hlp; lia].
  destruct H as (-> & _ & HR). rewrite Hsd, Hlp in *.
  pose proof (order_at_nonneg _ _ _ Ho) as Hi.
  destruct (ld_acct _ _ _ HL _ _ Ha) as [G1 G2 G3 G4 G5 G6 G7]. rewrite psum_cons in G3, G4, G5, G6.
  unfold of_side, of_acct in G3, G4, G5, G6. cbn [pc_owner pc_side pc_qty pc_lp] in G3, G4, G5, G6.
  rewrite Z.eqb_refl in G3, G4, G5, G6. cbn [andb] in G3, G4, G5, G6.
  fold (of_side (oe_owner e) Bid pc_qty) in G3. fold (of_side (oe_owner e) Ask pc_qty) in G4.
  fold (of_side (oe_owner e) Bid (fun p => pc_qty p * pc_lp p)) in G5. fold (of_acct (oe_owner e) (fee_need m)) in G6.
  unfold fee_need at 1 in G6. cbn [pc_side pc_qty pc_lp] in G6.
  split; [|split; [|reflexivity]].
  - apply (led_replace m ac [POut e lp id] P m (oe_owner e) a _ []);
      [exact HL|exact Ha|intros p [<-|[]]; reflexivity|intros p []|reflexivity|lia|lia|exact Hm| | | | | |].
    + unfold freed. constructor; cbn [app].
      * destruct G1 as [P1 P2 P3 P4 P5 P6 P7 (P8 & P9 & P10)]. unfold cancelled_pos, set_order_at in *. cbv zeta in *. destruct (oe_side e);
          cbn [a_pos a_set_orders a_set_pos] ; constructor; cbn; try assumption; try apply HR; repeat split; lia.
      * rewrite len_set. exact G2.
      * unfold cancelled_pos. destruct (oe_side e); cbn [a_pos set_order_at a_set_orders a_set_pos p_bids_base side_eqb] in *; lia.
      * unfold cancelled_pos. destruct (oe_side e); cbn [a_pos set_order_at a_set_orders a_set_pos p_asks_base side_eqb] in *; lia.
      * unfold cancelled_pos. destruct (oe_side e); cbn [a_pos set_order_at a_set_orders a_set_pos p_bids_quote side_eqb] in *; lia.
      * unfold cancelled_pos. destruct (oe_side e); cbn [a_pos set_order_at a_set_orders a_set_pos p_locked_fees side_eqb] in *; lia.
      * intros i. specialize (G7 i). rewrite psum_cons in G7.
        destruct (Z.eq_dec (oe_slot e) i) as [<-|Hne].
        -- rewrite (used_set_same _ _ oo) by exact Ho. cbn [oo_free open_order0].
           unfold used in G7. rewrite Ho, Hfr in G7. unfold in_slot at 1 in G7. cbn [pc_last pc_owner pc_slot andb] in G7.
           rewrite !Z.eqb_refl in G7. cbn [andb] in G7. lia.
        -- rewrite used_set_other by assumption. rewrite used_pos. unfold in_slot at 1 in G7.
           cbn [pc_last pc_owner pc_slot andb] in G7. replace (oe_slot e =? i) with false in G7 by lia.
           rewrite andb_false_r in G7. lia.
    + intros p [].
    + intros p [].
    + intros p Hin Eo El. unfold freed. rewrite order_at_set_other; [apply order_at_pos| |exact Hi].
      intros E. apply (slot_excl _ _ _ _ p HL eq_refl Hin El Eo). symmetry. exact E.
    + intros s q. cbn [app]. pose proof (ld_ids _ _ _ HL s q) as G. rewrite psum_cons in G.
      pose proof (with_seq_nonneg s q (POut e lp id)). lia.
    + unfold freed, cancelled_pos. destruct (oe_side e); reflexivity.
  - assert (E1 : base_claim m (POut e lp id) = match oe_side e with Bid => 0 | Ask => oe_qty e * bls m end) by reflexivity.
    assert (E2 : quote_claim m (POut e lp id) = match oe_side e with Bid => oe_qty e * lp * qls m | Ask => 0 end) by reflexivity.
    assert (E3 : vol_wait m (POut e lp id) = 0) by reflexivity. assert (E4 : fee_wait m (POut e lp id) = 0) by reflexivity.
    unfold freed, cancelled_pos. cbv zeta. constructor; open_bal; rewrite ?(asum_set _ _ _ _ _ Ha), ?psum_cons, ?E1, ?E2, ?E3, ?E4;
      cbn [pc_side pc_qty pc_lp set_order_at a_set_orders a_set_pos a_pos]; destruct (oe_side e);
      cbn [p_base_free p_quote_free p_locked_fees p_rebates p_maker_volume p_taker_volume]; lia.
Qed.

Lemma cancel_out_fits : quote_gap m ac (POut e lp id :: P) + m_quote_total m <= 18446744073709551615 ->
  base_gap m ac (POut e lp id :: P) + m_base_total m <= 18446744073709551615 ->
  exists a', ooa_cancel_order a (oe_slot e) (oe_qty e) m = Ok a'.
Proof using HL Ha.
  intros Hq Hb. destruct out_slot as (oo & Ho & Hfr & Hsd & Hid & Hlp). cbn [pc_side pc_id] in Hsd, Hid.
  pose proof (ld_mkt _ _ _ HL) as Hm. pose proof (mk_cfg _ Hm) as Hc.
  pose proof (ld_piece _ _ _ HL _ (or_introl eq_refl)) as Hp.
  pose proof (piece_amounts m _ Hc Hp) as (A1 & A2 & A3 & A4 & A5 & A6).
  destruct Hp as [K1 K2 K3 K4 K5 _]. cbn [pc_qty pc_lp pc_side pc_id] in *.
  destruct (ld_acct _ _ _ HL _ _ Ha) as [G1 G2 G3 G4 G5 G6 G7]. rewrite psum_cons in G3, G4, G5, G6.
  unfold of_side, of_acct in G3, G4, G5, G6. cbn [pc_owner pc_side pc_qty pc_lp] in G3, G4, G5, G6.
  rewrite Z.eqb_refl in G3, G4, G5, G6. cbn [andb] in G3, G4, G5, G6.
  fold (of_side (oe_owner e) Bid pc_qty) in G3. fold (of_side (oe_owner e) Ask pc_qty) in G4.
  fold (of_side (oe_owner e) Bid (fun p => pc_qty p * pc_lp p)) in G5. fold (of_acct (oe_owner e) (fee_need m)) in G6.
  unfold fee_need at 1 in G6. cbn [pc_side pc_qty pc_lp] in G6.
  assert (Hin : forall p, In p P -> piece_ok m p) by (intros p Hp; apply (ld_piece _ _ _ HL); right; exact Hp).
  assert (S1 : forall s, 0 <= psum (of_side (oe_owner e) s pc_qty) P).
  { intros s. apply psum_nonneg. intros p Hp. unfold of_side. pose proof (pk_qty _ _ (Hin p Hp)). destruct (_ && _); lia. }
  assert (S2 : 0 <= psum (of_side (oe_owner e) Bid (fun p => pc_qty p * pc_lp p)) P).
  { apply psum_nonneg. intros p Hp. unfold of_side. pose proof (pk_qty _ _ (Hin p Hp)). pose proof (pk_lp _ _ (Hin p Hp)).
    destruct (_ && _); nia. }
  assert (S3 : 0 <= psum (of_acct (oe_owner e) (fee_need m)) P).
  { apply psum_nonneg. intros p Hp. unfold of_acct. pose proof (fee_need_nonneg m p Hc (Hin p Hp)). destruct (_ =? _); lia. }
  assert (S4 : 0 <= psum (base_claim m) P) by (apply psum_nonneg; intros p Hp; apply base_claim_nonneg; auto).
  assert (S5 : 0 <= psum (quote_claim m) P) by (apply psum_nonneg; intros p Hp; apply quote_claim_nonneg; auto).
  pose proof (fun f => asum_del_le f _ _ _ (ld_keys _ _ _ HL) Ha) as S6.
  assert (Hpos : forall k b, acct_get k ac = Some b -> pos_ok m (a_pos b)) by (intros k b Hb'; apply (ac_pos _ _ _ _ (ld_acct _ _ _ HL _ _ Hb'))).
  pose proof (S6 p_base_free (fun k b H => proj1 (po_bf _ _ (Hpos k b H)))) as T1.
  pose proof (S6 p_quote_free (fun k b H => proj1 (po_qf _ _ (Hpos k b H)))) as T2.
  pose proof (S6 p_locked_fees (fun k b H => proj1 (po_lf _ _ (Hpos k b H)))) as T3.
  pose proof (S6 p_rebates (fun k b H => proj1 (po_rb _ _ (Hpos k b H)))) as T4.
  destruct (Hpos _ _ Ha) as [[P1 _] [P2 _] [P3 P3'] [P4 _] _ _ _ (B1 & B2 & B3)].
  unfold base_gap, quote_gap in *. rewrite psum_cons in Hq, Hb. unfold quote_claim at 1 in Hq. unfold base_claim at 1 in Hb.
  cbn [pc_side pc_qty pc_lp] in Hq, Hb. destruct Hm as [M1 [M2 M2'] [M3 M3'] [M4 _] _ _ _ _ _ _].
  eexists. apply (cancel_succeeds _ _ _ _ oo Hc Ho Hfr); rewrite ?Hlp, ?Hsd; try lia.
  pose proof (maker_locks_bounds m (oe_qty e * lp * qls m) Hc ltac:(lia)) as Hlk.
  pose proof (S1 Bid). pose proof (S1 Ask).
  unfold cancelled_pos, u64_ok. cbv zeta. destruct (oe_side e); cbn [p_quote_free p_locked_fees p_bids_base p_bids_quote p_base_free p_asks_base side_eqb] in *.
  - split; [|split; [|split; [|split]]]; try lia.
  - split; lia.
Qed.
Lemma cancel_out_ok : quote_gap m ac (POut e lp id :: P) <= 0 -> base_gap m ac (POut e lp id :: P) <= 0 ->
  exists a', ooa_cancel_order a (oe_slot e) (oe_qty e) m = Ok a'.
Proof using HL Ha.
  intros Hq Hb. pose proof (ld_mkt _ _ _ HL) as [_ [_ M2] [_ M3] _ _ _ _ _ _ _]. apply cancel_out_fits; lia.
Qed.
End Out.

(** ** A fill event is applied *)
Section Exec.
Variables (m : market) (ac : accounts) (P : list piece) (f : fill_event) (id : Z) (a : ooa).
Hypothesis HL : Led m ac (PFill f id :: P).
Hypothesis Ha : acct_get (fe_maker f) ac = Some a.

Lemma fill_slot : fe_maker_out f = true -> exists oo, order_at a (fe_maker_slot f) = Ok oo /\ slot_of oo (PFill f id).
Proof using HL Ha.
  intros E. destruct (ld_back _ _ _ HL _ (or_introl eq_refl)) as (b & Hb & Ho). cbn [pc_owner] in Hb. rewrite Ha in Hb.
  injection Hb as <-. exact (Ho E).
Qed.

Lemma fill_sums :
  p_bids_base (a_pos a) = (if side_eqb (fill_side f) Bid then fe_qty f else 0) + psum (of_side (fe_maker f) Bid pc_qty) P /\
  p_asks_base (a_pos a) = (if side_eqb (fill_side f) Ask then fe_qty f else 0) + psum (of_side (fe_maker f) Ask pc_qty) P /\
  p_bids_quote (a_pos a) = (if side_eqb (fill_side f) Bid then fe_qty f * fill_lp f else 0)
    + psum (of_side (fe_maker f) Bid (fun p => pc_qty p * pc_lp p)) P /\
  fee_need m (PFill f id) + psum (of_acct (fe_maker f) (fee_need m)) P <= p_locked_fees (a_pos a).
Proof using HL Ha.
  destruct (ld_acct _ _ _ HL _ _ Ha) as [G1 G2 G3 G4 G5 G6 G7]. rewrite psum_cons in G3, G4, G5, G6.
  rewrite (of_side_own _ _ _ (PFill f id)) in G3 by reflexivity. rewrite (of_side_own _ _ _ (PFill f id)) in G4 by reflexivity. rewrite (of_side_own _ _ _ (PFill f id)) in G5 by reflexivity. rewrite (of_acct_own _ _ (PFill f id)) in G6 by reflexivity.
  auto.
Qed.

Lemma led_exec a' m' : execute_maker a m f = Ok (a', m') ->
  Led m' (acct_set (fe_maker f) a' ac) P /\
  same_bal m ac (PFill f id :: P) m' (acct_set (fe_maker f) a' ac) P 0 0 0 0 0 0 /\
  a' = filled m a f /\ m' = filled_mkt m f.
Proof using HL Ha.
  intros H. pose proof (ld_mkt _ _ _ HL) as Hm. pose proof (mk_cfg _ Hm) as Hc.
  pose proof (ld_piece _ _ _ HL _ (or_introl eq_refl)) as Hp.
  pose proof (fill_amounts m f id Hc Hp) as (A1 & A2 & A3 & A4 & A5 & A6 & A7 & A8 & A9 & A10).
  pose proof (ld_acct _ _ _ HL _ _ Ha) as Hac. pose proof fill_sums as (S1 & S2 & S3 & S4).
  destruct Hac as [G1 G2 _ _ _ _ G7].
  assert (Hslot : exists oo, fe_maker_out f = true -> order_at a (fe_maker_slot f) = Ok oo /\ slot_of oo (PFill f id)).
  { destruct (fe_maker_out f) eqn:E; [|exists open_order0; discriminate]. destruct (fill_slot E) as (oo & Ho). exists oo. auto. }
  destruct Hslot as (oo & Hslot).
  apply (exec_inv m a f id a' m' oo Hc Hp) in H; [| |exact (po_bf _ _ G1)].
  2:{ intros E. destruct (Hslot E) as (Ho & Hsl). split; [exact Ho|]. apply Hsl. }
  destruct H as (-> & -> & HF & _). split; [|split; [|auto]].
  2:{ assert (E1 : base_claim m (PFill f id) = match fill_side f with Bid => fe_qty f * bls m | Ask => 0 end) by reflexivity.
      assert (E2 : quote_claim m (PFill f id) = match fill_side f with
        | Bid => fill_locked m f - fill_quote m f + fill_rebate m f | Ask => fill_quote m f + fill_rebate m f end) by reflexivity.
      assert (E3 : vol_wait m (PFill f id) = fill_quote m f) by reflexivity.
      assert (E4 : fee_wait m (PFill f id) = fill_fee m f) by reflexivity.
      assert (Epos : a_pos (filled m a f) = filled_pos m (a_pos a) f) by (unfold filled; destruct (fe_maker_out f); reflexivity).
      constructor; open_bal; rewrite ?(base_claims_cfg m (filled_mkt m f) eq_refl), ?(quote_claims_cfg m (filled_mkt m f) eq_refl),
        ?(vol_waits_cfg m (filled_mkt m f) eq_refl), ?(fee_waits_cfg m (filled_mkt m f) eq_refl),
        ?(asum_set _ _ _ _ _ Ha), ?psum_cons, ?E1, ?E2, ?E3, ?E4, ?Epos; unfold filled_pos, filled_mkt; cbv zeta;
        cbn [m_set_fees_accrued m_set_maker_volume m_set_rebates_accrued m_base_total m_quote_total m_fees_available m_maker_volume
             m_fees_accrued m_taker_volume_wo_oo];
        destruct (fill_side f); cbn [p_base_free p_quote_free p_locked_fees p_rebates p_maker_volume p_taker_volume]; lia. }
  destruct HF as (F1 & F2 & F3 & F4 & F5 & F6 & F7 & F8).
  assert (Hm' : mkt_ok (filled_mkt m f)).
  { destruct Hm as [M1 M2 M3 M4 M5 M6 M7 M8 M9 M10]. constructor; try assumption.
    - unfold u128_ok in F7. unfold filled_mkt in *. cbn [m_fees_accrued m_set_fees_accrued] in *. lia.
    - unfold u128_ok in F6. unfold filled_mkt in *. cbn [m_maker_volume m_set_fees_accrued m_set_maker_volume] in *. lia. }
  assert (Hpos : pos_ok (filled_mkt m f) (filled_pos m (a_pos a) f)).
  { pose proof (pk_qty _ _ Hp) as Hq0. cbn [pc_qty] in Hq0. destruct G1 as [P1 P2 P3 P4 P5 P6 P7 (P8 & P9 & P10)].
    unfold filled_pos, filled_mkt in *. cbv zeta in *. destruct (fill_side f);
      cbn [p_base_free p_quote_free p_locked_fees p_rebates p_maker_volume p_penalty p_taker_volume p_bids_base p_asks_base p_bids_quote
           m_maker_volume m_set_fees_accrued m_set_maker_volume] in *;
      constructor; cbn [p_base_free p_quote_free p_locked_fees p_rebates p_maker_volume p_penalty p_taker_volume p_bids_base p_asks_base p_bids_quote
           m_maker_volume m_set_fees_accrued m_set_maker_volume]; try assumption; try lia; repeat split; lia. }
  assert (Hsum : p_bids_base (filled_pos m (a_pos a) f) = psum (of_side (fe_maker f) Bid pc_qty) P /\
    p_asks_base (filled_pos m (a_pos a) f) = psum (of_side (fe_maker f) Ask pc_qty) P /\
    p_bids_quote (filled_pos m (a_pos a) f) = psum (of_side (fe_maker f) Bid (fun p => pc_qty p * pc_lp p)) P /\
    psum (of_acct (fe_maker f) (fee_need m)) P <= p_locked_fees (filled_pos m (a_pos a) f)).
  { unfold fee_need at 1 in S4. cbn [pc_side] in S4. unfold filled_pos. cbv zeta. destruct (fill_side f);
      cbn [p_bids_base p_asks_base p_bids_quote p_locked_fees side_eqb] in *; repeat split; lia. }
  destruct Hsum as (T1 & T2 & T3 & T4).
  apply (led_replace m ac [PFill f id] P (filled_mkt m f) (fe_maker f) a _ []);
    [exact HL|exact Ha|intros p [<-|[]]; reflexivity|intros p []|reflexivity|cbn; lia| |exact Hm'| | | | | |].
  - unfold filled_mkt. cbn [m_maker_volume m_set_fees_accrued m_set_maker_volume]. lia.
  - cbn [app]. unfold filled. destruct (fe_maker_out f) eqn:Eo.
    + destruct (Hslot eq_refl) as (Ho & Hfr & _). pose proof (order_at_nonneg _ _ _ Ho) as Hi.
      constructor; unfold freed; try assumption.
      * rewrite len_set. exact G2.
      * intros i. specialize (G7 i). rewrite psum_cons in G7. unfold in_slot at 1 in G7. cbn [pc_last pc_owner pc_slot] in G7.
        rewrite Eo, Z.eqb_refl in G7. cbn [andb] in G7.
        destruct (Z.eq_dec (fe_maker_slot f) i) as [<-|Hne].
        -- rewrite (used_set_same _ _ oo) by exact Ho. cbn [oo_free open_order0].
           unfold used in G7. rewrite Ho, Hfr, Z.eqb_refl in G7. lia.
        -- rewrite used_set_other by assumption. rewrite used_pos. replace (fe_maker_slot f =? i) with false in G7 by lia. lia.
    + constructor; try assumption.
      * intros i. specialize (G7 i). rewrite psum_cons in G7. unfold in_slot at 1 in G7. cbn [pc_last] in G7. rewrite Eo in G7.
        cbn [andb] in G7. rewrite used_pos. lia.
  - intros p [].
  - intros p [].
  - intros p Hin Eo El. unfold filled. destruct (fe_maker_out f) eqn:Emo; [|apply order_at_pos].
    destruct (Hslot eq_refl) as (Ho & _). pose proof (order_at_nonneg _ _ _ Ho) as Hi.
    unfold freed. rewrite order_at_set_other; [apply order_at_pos| |exact Hi].
    intros E. apply (slot_excl _ _ _ _ p HL Emo Hin El Eo). symmetry. exact E.
  - intros s q. cbn [app]. pose proof (ld_ids _ _ _ HL s q) as G. rewrite psum_cons in G.
    pose proof (with_seq_nonneg s q (PFill f id)). lia.
  - replace (a_pos (filled m a f)) with (filled_pos m (a_pos a) f) by (unfold filled; destruct (fe_maker_out f); reflexivity).
    unfold filled_pos, filled_mkt. cbv zeta. destruct (fill_side f);
      cbn [p_rebates m_rebates_accrued m_set_fees_accrued m_set_maker_volume m_set_rebates_accrued]; lia.
Qed.

Lemma exec_fits : quote_gap m ac (PFill f id :: P) + m_quote_total m <= 18446744073709551615 ->
  base_gap m ac (PFill f id :: P) + m_base_total m <= 18446744073709551615 ->
  vol_all m (PFill f id :: P) <= 340282366920938463463374607431768211455 ->
  fee_all m (PFill f id :: P) <= 340282366920938463463374607431768211455 ->
  exists a' m', execute_maker a m f = Ok (a', m').
Proof using HL Ha.
  intros Hq Hb Hv Hf. pose proof (ld_mkt _ _ _ HL) as Hm. pose proof (mk_cfg _ Hm) as Hc.
  pose proof (ld_piece _ _ _ HL _ (or_introl eq_refl)) as Hp.
  pose proof (fill_amounts m f id Hc Hp) as (A1 & A2 & A3 & A4 & A5 & A6 & A7 & A8 & A9 & A10).
  pose proof fill_sums as (S1 & S2 & S3 & S4).
  assert (Hpos : forall k b, acct_get k ac = Some b -> pos_ok m (a_pos b)) by (intros k b Hb'; apply (ac_pos _ _ _ _ (ld_acct _ _ _ HL _ _ Hb'))).
  assert (Hslot : exists oo, fe_maker_out f = true -> order_at a (fe_maker_slot f) = Ok oo /\ oo_side oo = fill_side f /\ oo_free oo = false).
  { destruct (fe_maker_out f) eqn:E; [|exists open_order0; discriminate]. destruct (fill_slot E) as (oo & Ho & Hfr & Hsd & _). exists oo. auto. }
  destruct Hslot as (oo & Hslot).
  assert (Hin : forall p, In p P -> piece_ok m p) by (intros p Hp'; apply (ld_piece _ _ _ HL); right; exact Hp').
  assert (N1 : forall s, 0 <= psum (of_side (fe_maker f) s pc_qty) P).
  { intros s. apply psum_nonneg. intros p Hp'. unfold of_side. pose proof (pk_qty _ _ (Hin p Hp')). destruct (_ && _); lia. }
  assert (N2 : 0 <= psum (of_side (fe_maker f) Bid (fun p => pc_qty p * pc_lp p)) P).
  { apply psum_nonneg. intros p Hp'. unfold of_side. pose proof (pk_qty _ _ (Hin p Hp')). pose proof (pk_lp _ _ (Hin p Hp')).
    destruct (_ && _); nia. }
  assert (N3 : 0 <= psum (of_acct (fe_maker f) (fee_need m)) P).
  { apply psum_nonneg. intros p Hp'. unfold of_acct. pose proof (fee_need_nonneg m p Hc (Hin p Hp')). destruct (_ =? _); lia. }
  assert (N4 : 0 <= psum (base_claim m) P) by (apply psum_nonneg; intros p Hp'; apply base_claim_nonneg; auto).
  assert (N5 : 0 <= psum (quote_claim m) P) by (apply psum_nonneg; intros p Hp'; apply quote_claim_nonneg; auto).
  assert (N6 : 0 <= psum (vol_wait m) P).
  { apply psum_nonneg. intros [s t l lp|e lp i|g i] Hp'; cbn [vol_wait]; try lia. pose proof (fill_amounts m g i Hc (Hin _ Hp')). lia. }
  assert (N7 : 0 <= psum (fee_wait m) P).
  { apply psum_nonneg. intros [s t l lp|e lp i|g i] Hp'; cbn [fee_wait]; try lia. pose proof (fill_amounts m g i Hc (Hin _ Hp')). lia. }
  pose proof (asum_del_le p_base_free _ _ _ (ld_keys _ _ _ HL) Ha (fun k b H => proj1 (po_bf _ _ (Hpos k b H)))) as T1.
  pose proof (asum_del_le p_quote_free _ _ _ (ld_keys _ _ _ HL) Ha (fun k b H => proj1 (po_qf _ _ (Hpos k b H)))) as T2.
  pose proof (asum_del_le p_locked_fees _ _ _ (ld_keys _ _ _ HL) Ha (fun k b H => proj1 (po_lf _ _ (Hpos k b H)))) as T3.
  pose proof (asum_del_le p_rebates _ _ _ (ld_keys _ _ _ HL) Ha (fun k b H => proj1 (po_rb _ _ (Hpos k b H)))) as T4.
  pose proof (ld_reb _ _ _ HL) as Hreb.
  pose proof (Hpos _ _ Ha) as Hpa. pose proof Hpa as [[P1 _] [P2 _] [P3 P3'] [P4 _] _ P6 P7 (B1 & B2 & B3)].
  unfold base_gap, quote_gap, vol_all, fee_all in *. rewrite psum_cons in Hq, Hb, Hv, Hf. unfold quote_claim at 1 in Hq. unfold base_claim at 1 in Hb.
  unfold vol_wait at 1 in Hv. unfold fee_wait at 1 in Hf.
  unfold fee_need at 1 in S4. cbn [pc_side] in S4.
  destruct Hm as [M1 [M2 M2'] [M3 M3'] [M4 _] [M5 _] _ M7 _ M9 _].
  exists (filled m a f), (filled_mkt m f). pose proof (N1 Bid). pose proof (N1 Ask).
  assert (Hpl : 0 <= maker_pays m (fill_locked m f)) by (apply maker_pays_bounds; [exact Hc|lia]).
  assert (Hlk : fill_side f = Bid -> fill_pegged f = true -> fill_fee m f <= maker_pays m (fill_locked m f)).
  { intros Es Ep. specialize (A6 Es). pose proof (maker_pays_mono m _ _ A6). unfold fill_fee. destruct (fill_self f); lia. }
  apply (exec_succeeds m a f id oo Hc Hp Hslot Hpa).
  - unfold fill_fits, filled_pos, filled_mkt, u64_ok, u128_ok. cbv zeta.
    cbn [m_set_fees_accrued m_set_maker_volume m_set_rebates_accrued m_rebates_accrued m_maker_volume m_fees_accrued].
    destruct (fill_side f); cbn [p_base_free p_quote_free p_rebates p_maker_volume p_locked_fees side_eqb] in *.
    + specialize (A6 eq_refl). specialize (Hlk eq_refl). destruct (fill_pegged f); [specialize (Hlk eq_refl)|]; repeat split; lia.
    + repeat split; lia.
  - pose proof (pk_qty _ _ Hp) as Hq0. cbn [pc_qty] in Hq0. unfold filled_pos. cbv zeta. destruct (fill_side f); cbn [p_bids_base p_bids_quote p_asks_base side_eqb] in *; lia.
Qed.
Lemma exec_ok : quote_gap m ac (PFill f id :: P) <= 0 -> base_gap m ac (PFill f id :: P) <= 0 ->
  vol_all m (PFill f id :: P) <= 340282366920938463463374607431768211455 ->
  fee_all m (PFill f id :: P) <= 340282366920938463463374607431768211455 ->
  exists a' m', execute_maker a m f = Ok (a', m').
Proof using HL Ha.
  intros Hq Hb. pose proof (ld_mkt _ _ _ HL) as [_ [_ M2] [_ M3] _ _ _ _ _ _ _]. apply exec_fits; lia.
Qed.
End Exec.

(** ** An order leaves the book as an out event *)
Definition out_of (s : side) (l : leaf) (ts sq : Z) : out_event := mkOut s (lf_slot l) ts sq (lf_owner l) (lf_qty l).

Lemma led_drop m ac P s t l lp ts sq : Led m ac (PLeaf s t l lp :: P) ->
  Led m ac (POut (out_of s l ts sq) lp (lf_key l) :: P) /\
  same_bal m ac (PLeaf s t l lp :: P) m ac (POut (out_of s l ts sq) lp (lf_key l) :: P) 0 0 0 0 0 0.
Proof.
  intros HL. split.
  2:{ constructor; open_bal; rewrite ?psum_cons; cbn [base_claim quote_claim vol_wait fee_wait pc_side pc_qty pc_lp oe_side oe_qty out_of]; lia. }
  destruct (ld_back _ _ _ HL _ (or_introl eq_refl)) as (a & Ha & Hb). cbn [pc_owner] in Ha.
  destruct (Hb eq_refl) as (oo & Ho & Hsl). cbn [pc_slot] in Ho.
  rewrite <- (set_get_id _ _ _ Ha).
  apply (led_replace m ac [PLeaf s t l lp] P m (lf_owner l) a a [POut (out_of s l ts sq) lp (lf_key l)]);
    [exact HL|exact Ha|intros p [<-|[]]; reflexivity|intros p [<-|[]]; reflexivity|reflexivity|lia|lia
    |exact (ld_mkt _ _ _ HL)| | | |intros; reflexivity| |lia].
  - destruct (ld_acct _ _ _ HL _ _ Ha). constructor; assumption.
  - intros p [<-|[]]. destruct (ld_piece _ _ _ HL _ (or_introl eq_refl)) as [K1 K2 K3 K4 K5 K6]. constructor; try assumption. exact I.
  - intros p [<-|[]] _. exists oo. split; [exact Ho|]. destruct Hsl as (H1 & H2 & H3 & H4 & _). repeat split; assumption.
  - exact (ld_ids _ _ _ HL).
Qed.

(** ** A resting order is filled *)
Definition left_over (s : side) (t : otree_id) (l : leaf) (lp q : Z) : list piece :=
  if lf_qty l =? q then [] else [PLeaf s t (lf_set_qty l (lf_qty l - q)) lp].

Lemma led_fill m ac P s t l lp f : Led m ac (PLeaf s t l lp :: P) ->
  fill_side f = s -> fe_maker f = lf_owner l -> fe_maker_slot f = lf_slot l -> fe_peg_limit f = lf_peg_limit l ->
  fe_maker_out f = (lf_qty l =? fe_qty f) -> 1 <= fe_qty f <= lf_qty l -> 1 <= fe_price f ->
  fill_quote m f <= 9223372036854775807 ->
  (s = Bid -> match t with Fixed => fe_price f = lf_key l / 2 ^ 64 | OraclePegged => fe_price f <= lf_peg_limit l end) ->
  let Q' := PFill f (lf_key l) :: left_over s t l lp (fe_qty f) in
  Led m ac (Q' ++ P) /\
  same_bal m ac (PLeaf s t l lp :: P) m ac (Q' ++ P)
    (match s with Bid => fe_qty f * bls m | Ask => - (fe_qty f * bls m) end)
    (match s with Bid => fill_rebate m f - fill_quote m f | Ask => fill_quote m f + fill_rebate m f end)
    (fill_quote m f) (fill_fee m f) 0 0.
Proof.
  intros HL Es Em Esl Epg Emo Hq Hpr Hfq Hprice Q'.
  pose proof (ld_mkt _ _ _ HL) as Hm. pose proof (mk_cfg _ Hm) as Hc.
  pose proof (ld_piece _ _ _ HL _ (or_introl eq_refl)) as Hp.
  pose proof (piece_amounts m _ Hc Hp) as (A1 & A2 & A3 & A4 & A5 & A6).
  destruct Hp as [K1 K2 K3 K4 K5 K6]. cbn [pc_qty pc_lp pc_side pc_id] in *.
  assert (Hlp : s = Bid -> fill_lp f = lp /\ fe_price f <= lp).
  { intros ->. specialize (Hprice eq_refl). unfold fill_lp, fill_pegged. rewrite Es, Epg. destruct t.
    - destruct K6 as [K6 K7]. rewrite K7. cbn. lia.
    - replace (lf_peg_limit l =? -1) with false by lia. cbn [negb andb side_eqb]. lia. }
  assert (Hlp1 : 1 <= fill_lp f).
  { unfold fill_lp. destruct (fill_pegged f) eqn:Ep; [|exact Hpr]. destruct (fill_pegged_bid _ Ep) as [E1 E2].
    rewrite Es in E1. destruct (Hlp E1) as [E3 _]. rewrite <- E2, E3. exact K2. }
  assert (Hlocked : fill_locked m f <= 9223372036854775807).
  { unfold fill_locked. destruct s.
    - destruct (Hlp eq_refl) as [-> _]. eapply Z.le_trans; [|exact K4]. apply Z.mul_le_mono_nonneg_r; [lia|]. nia.
    - unfold fill_lp, fill_pegged. rewrite Es, andb_false_r. exact Hfq. }
  assert (Hpf : piece_ok m (PFill f (lf_key l))).
  { constructor; cbn [pc_qty pc_lp pc_side pc_id]; try assumption.
    - lia.
    - nia.
    - rewrite Es. exact K5.
    - split; [exact Hpr|]. split; [exact Hfq|]. rewrite Es. intros E. destruct (Hlp E) as [-> ?]. lia. }
  pose proof (fill_amounts m f _ Hc Hpf) as (F1 & F2 & F3 & F4 & F5 & F6 & F7 & F8 & F9 & F10).
  destruct (ld_back _ _ _ HL _ (or_introl eq_refl)) as (a & Ha & Hb). cbn [pc_owner] in Ha.
  destruct (Hb eq_refl) as (oo & Ho & Hsl). cbn [pc_slot] in Ho.
  assert (Hk : forall (k : Z) x (g : piece -> Z), psum g (left_over s t l lp x) =
    if lf_qty l =? x then 0 else g (PLeaf s t (lf_set_qty l (lf_qty l - x)) lp)).
  { intros _ x g. unfold left_over. destruct (lf_qty l =? x); [reflexivity|]. rewrite psum_cons, psum_nil. lia. }
  split.
  2:{ assert (D : (lf_qty l =? fe_qty f) = true -> lf_qty l = fe_qty f) by lia.
      assert (HQ : s = Bid -> fill_locked m f = fe_qty f * lp * qls m) by (intros E; destruct (Hlp E) as [E' _]; unfold fill_locked; rewrite E'; reflexivity).
      constructor; open_bal; unfold Q'; cbn [app]; rewrite ?psum_cons, ?psum_app, ?(Hk 0);
        cbn [base_claim quote_claim vol_wait fee_wait pc_side pc_qty pc_lp lf_qty lf_set_qty]; rewrite ?Es;
        destruct (lf_qty l =? fe_qty f); destruct s; try lia.
      - rewrite D by reflexivity. rewrite (HQ eq_refl). lia.
      - rewrite (HQ eq_refl). nia. }
  rewrite <- (set_get_id _ _ _ Ha).
  destruct (ld_acct _ _ _ HL _ _ Ha) as [G1 G2 G3 G4 G5 G6 G7].
  apply (led_replace m ac [PLeaf s t l lp] P m (lf_owner l) a a Q');
    [exact HL|exact Ha|intros p [<-|[]]; reflexivity| |reflexivity|lia|lia
    |exact Hm| | | |intros; reflexivity| |lia].
  - unfold Q', left_over. destruct (lf_qty l =? fe_qty f); intros p Hin; cbn [In] in Hin;
      [destruct Hin as [<-|[]]|destruct Hin as [<-|[<-|[]]]]; try exact Em; reflexivity.
  - unfold Q'. cbn [app]. rewrite psum_cons in G3, G4, G5, G6.
    rewrite (of_side_own _ _ _ (PLeaf s t l lp)) in G3 by reflexivity. rewrite (of_side_own _ _ _ (PLeaf s t l lp)) in G4 by reflexivity. rewrite (of_side_own _ _ _ (PLeaf s t l lp)) in G5 by reflexivity. rewrite (of_acct_own _ _ (PLeaf s t l lp)) in G6 by reflexivity.
    cbn [pc_side pc_qty pc_lp] in G3, G4, G5.
    constructor; try assumption; rewrite ?psum_cons, ?psum_app, ?(Hk 0).
    + rewrite !(fun k u g => of_side_own k u g (PFill f (lf_key l))) by exact Em.
      rewrite !(fun k u g => of_side_own k u g (PLeaf s t (lf_set_qty l (lf_qty l - fe_qty f)) lp)) by reflexivity.
      cbn [pc_owner pc_side pc_qty pc_lp lf_owner lf_qty lf_set_qty]. rewrite Es.
      destruct (lf_qty l =? fe_qty f) eqn:D, s; cbn [side_eqb] in *; lia.
    + rewrite !(fun k u g => of_side_own k u g (PFill f (lf_key l))) by exact Em.
      rewrite !(fun k u g => of_side_own k u g (PLeaf s t (lf_set_qty l (lf_qty l - fe_qty f)) lp)) by reflexivity.
      cbn [pc_owner pc_side pc_qty pc_lp lf_owner lf_qty lf_set_qty]. rewrite Es.
      destruct (lf_qty l =? fe_qty f) eqn:D, s; cbn [side_eqb] in *; lia.
    + rewrite !(fun k u g => of_side_own k u g (PFill f (lf_key l))) by exact Em.
      rewrite !(fun k u g => of_side_own k u g (PLeaf s t (lf_set_qty l (lf_qty l - fe_qty f)) lp)) by reflexivity.
      cbn [pc_owner pc_side pc_qty pc_lp lf_owner lf_qty lf_set_qty]. rewrite Es.
      destruct s; cbn [side_eqb] in *; [|destruct (lf_qty l =? fe_qty f); lia]. destruct (Hlp eq_refl) as [-> _].
      destruct (lf_qty l =? fe_qty f) eqn:D; [|lia]. apply Z.eqb_eq in D. rewrite <- D. lia.
    + rewrite (of_acct_own _ _ (PFill f (lf_key l))) by exact Em.
      rewrite (of_acct_own _ _ (PLeaf s t (lf_set_qty l (lf_qty l - fe_qty f)) lp)) by reflexivity. unfold fee_need at 1 in G6. cbn [pc_side pc_qty pc_lp] in G6.
      assert (Hneed : fee_need m (PFill f (lf_key l)) + (if lf_qty l =? fe_qty f then 0 else fee_need m (PLeaf s t (lf_set_qty l (lf_qty l - fe_qty f)) lp))
        <= match s with Bid => maker_locks m (lf_qty l * lp * qls m) | Ask => 0 end).
      { unfold fee_need. cbn [pc_side pc_qty pc_lp lf_qty lf_set_qty]. rewrite Es. destruct s; [|destruct (_ =? _); lia].
        destruct (Hlp eq_refl) as [El Ele].
        assert (HQ : fill_locked m f = fe_qty f * lp * qls m) by (unfold fill_locked; rewrite El; reflexivity).
        assert (H1 : (if fill_pegged f then maker_pays m (fill_locked m f) else fill_fee m f) <= maker_pays m (fe_qty f * lp * qls m)).
        { rewrite HQ. destruct (fill_pegged f) eqn:Ep; [lia|]. pose proof (fill_lp_unpegged _ Ep) as E2.
          assert (E3 : fill_quote m f = fe_qty f * lp * qls m) by (unfold fill_quote; rewrite <- E2, El; reflexivity).
          unfold fill_fee. rewrite E3. pose proof (maker_pays_bounds m (fe_qty f * lp * qls m) Hc ltac:(lia)).
          destruct (fill_self f); lia. }
        destruct (lf_qty l =? fe_qty f) eqn:D.
        - apply Z.eqb_eq in D. rewrite D. pose proof (maker_pays_le_locks m (fe_qty f * lp * qls m)). lia.
        - pose proof (maker_locks_split m (fe_qty f * lp * qls m) ((lf_qty l - fe_qty f) * lp * qls m)) as HS.
          replace (fe_qty f * lp * qls m + (lf_qty l - fe_qty f) * lp * qls m) with (lf_qty l * lp * qls m) in HS by ring. lia. }
      destruct (lf_qty l =? fe_qty f); lia.
    + intros i. specialize (G7 i). rewrite psum_cons, psum_app, (Hk 0). rewrite psum_cons in G7. unfold in_slot at 1 2. unfold in_slot at 1 in G7.
      cbn [pc_last pc_owner pc_slot lf_owner lf_slot lf_set_qty] in *. rewrite Em, Esl, Emo. destruct (lf_qty l =? fe_qty f); cbn [andb] in *; lia.
  - unfold Q', left_over. intros p [<-|Hin]; [exact Hpf|]. destruct (lf_qty l =? fe_qty f) eqn:D; [destruct Hin|].
    destruct Hin as [<-|[]]. apply Z.eqb_neq in D. constructor; cbn [pc_qty pc_lp pc_side pc_id lf_qty lf_key lf_set_qty]; try assumption.
    + lia.
    + nia.
    + assert ((lf_qty l - fe_qty f) * lp <= lf_qty l * lp) by nia. nia.
  - unfold Q', left_over. intros p [<-|Hin] Hl.
    + cbn [pc_slot]. rewrite Esl. exists oo. split; [exact Ho|]. destruct Hsl as (H1 & H2 & H3 & H4 & H5).
      split; [exact H1|]. split; [rewrite H2; cbn [pc_side]; symmetry; exact Es|]. split; [exact H3|]. intros E. rewrite H4.
      rewrite Es in E. destruct (Hlp E) as [-> _]. reflexivity.
    + destruct (lf_qty l =? fe_qty f) eqn:D; [destruct Hin|]. destruct Hin as [<-|[]]. exists oo. split; [exact Ho|exact Hsl].
  - intros u q. unfold Q'. cbn [app]. rewrite psum_cons, psum_app, (Hk 0). pose proof (ld_ids _ _ _ HL u q) as G. rewrite psum_cons in G.
    unfold with_seq at 1 2. unfold with_seq at 1 in G. cbn [pc_last pc_side pc_id lf_key lf_set_qty] in *. rewrite Es, Emo.
    destruct (lf_qty l =? fe_qty f); cbn [andb] in *; lia.
Qed.
