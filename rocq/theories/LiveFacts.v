(** When placing an order goes through: the matching loop. *)
From Coq Require Import ZArith List Bool Lia ZifyBool Permutation.
From Verif Require Import Base Nodes OrderTree BookSide Heap Market OpenOrders Order Book
  BaseFacts NodesFacts HeapFacts TreeRep TreeFacts TreeOps TreeIter BookSideFacts BookSideOrder BookSpecProofs SpecBook SpecFees
  FeeFacts SpecOrder MatchFacts MatchBook OrderFacts PlaceFacts OrderSpecProofs OrderClaims Steps StepFacts SpecLedger SpecEvents Ledger LedgerOps LedgerMoves
  LedgerPlace LedgerOrder ConsumeFacts.
Import ListNotations.
Open Scope Z_scope.

(** ** Room on the heap *)
Definition heap_room (h : heap) (n : Z) : Prop :=
  h_count h + n <= 600 /\ 0 <= h_seq h /\ h_seq h + n <= 18446744073709551615.

Lemma room_le h n k : heap_room h n -> k <= n -> heap_room h k.
Proof. unfold heap_room. lia. Qed.

Lemma push_runs h P e n : hrep h P -> heap_room h n -> 1 <= n ->
  exists h', push_back h e = Ok h' /\ heap_room h' (n - 1).
Proof.
  intros (L & Hh & HP) (R1 & R2 & R3) Hn. pose proof Hh as (F & Hr). pose proof (hr_count _ _ _ Hr) as Hc.
  destruct (push_back_succeeds h L e Hh ltac:(lia) ltac:(lia) R2) as (h' & E). exists h'. split; [exact E|].
  destruct (push_back_rep _ _ _ _ _ Hr E) as (sl & F' & _ & _ & Hr' & Es). pose proof (hr_count _ _ _ Hr') as Hc'.
  rewrite app_length in Hc'. cbn [length] in Hc'. unfold heap_room. lia.
Qed.

Lemma load_get k ac a : acct_get k ac = Some a -> acct_load k ac = Ok a.
Proof. unfold acct_load. intros ->. reflexivity. Qed.

(** ** Room in the totals *)
Definition gaps_fit (m : market) (ac : accounts) (P : list piece) : Prop :=
  quote_gap m ac P + m_quote_total m <= 18446744073709551615 /\
  base_gap m ac P + m_base_total m <= 18446744073709551615.

(** An order leaves the book: its locked funds fit its owner's account. *)
Lemma leave_runs m ac P s t l : Led m ac P -> gaps_fit m ac P -> In (t, l) (pleaves s P) ->
  exists a a', acct_get (lf_owner l) ac = Some a /\ ooa_cancel_order a (lf_slot l) (lf_qty l) m = Ok a'.
Proof.
  intros HL [G1 G2] Hin. apply in_pleaves in Hin as (lp & P0 & HP). pose proof (led_perm _ _ _ _ HP HL) as HL0.
  destruct (gaps_perm m ac _ _ HP) as (E1 & E2 & _ & _).
  destruct (led_drop m ac P0 s t l lp 0 0 HL0) as [HL1 [B1 B2 _ _ _ _]].
  destruct (ld_back _ _ _ HL1 _ (or_introl eq_refl)) as (a & Ha & _). cbn [pc_owner oe_owner out_of] in Ha.
  exists a. destruct (cancel_out_fits m ac P0 (out_of s l 0 0) lp (lf_key l) a HL1 Ha) as (a' & Ea'); [lia|lia|].
  exists a'. split; [exact Ha|exact Ea'].
Qed.

Lemma mem_key_iff k l : mem_key k l = true <-> In k l.
Proof.
  unfold mem_key. rewrite existsb_exists. split.
  - intros (x & Hx & E). apply Z.eqb_eq in E as ->. exact Hx.
  - intros H. exists k. split; [exact H|apply Z.eqb_refl].
Qed.

Section Live.
Variables (taker : option Z) (owner : Z) (rem : list Z).
Hypothesis Htk : tk_ok taker owner.

Lemma out_runs w P s t l now sq n : Led (w_mkt w) (w_accts w) P -> hrep (w_heap w) P ->
  gaps_fit (w_mkt w) (w_accts w) P -> In (t, l) (pleaves s P) -> heap_room (w_heap w) n -> 1 <= n ->
  exists w', process_out_event w taker owner rem (mkOut s (lf_slot l) now sq (lf_owner l) (lf_qty l)) = Ok w' /\
    heap_room (w_heap w') (n - 1).
Proof using Htk.
  intros HL Hh HG Hin Hr Hn. destruct (leave_runs _ _ _ _ _ _ HL HG Hin) as (a & a' & Ha & Ea).
  unfold process_out_event. cbn [oe_owner oe_slot oe_qty].
  assert (Hq : exists w', bind (push_back (w_heap w) (EOut (mkOut s (lf_slot l) now sq (lf_owner l) (lf_qty l))))
      (fun h => Ok (w_set_heap w h)) = Ok w' /\ heap_room (w_heap w') (n - 1)).
  { destruct (push_runs _ _ (EOut (mkOut s (lf_slot l) now sq (lf_owner l) (lf_qty l))) _ Hh Hr Hn) as (h & E & Hr').
    rewrite E. cbn [bind]. eexists. split; [reflexivity|exact Hr']. }
  assert (Hr1 : heap_room (w_heap w) (n - 1)) by (apply (room_le _ _ _ Hr); lia).
  destruct taker as [k|].
  - assert (k = owner) as -> by (destruct Htk as [E|E]; congruence).
    destruct (Z.eqb_spec owner (lf_owner l)) as [E|E].
    + rewrite E, (load_get _ _ _ Ha). cbn [bind]. rewrite Ea. cbn [bind]. eexists. split; [reflexivity|exact Hr1].
    + destruct (mem_key (lf_owner l) rem); [|exact Hq]. unfold load_remaining, is_taker.
      replace (owner =? lf_owner l) with false by lia. rewrite (load_get _ _ _ Ha). cbn [bind]. rewrite Ea. cbn [bind].
      eexists. split; [reflexivity|exact Hr1].
  - destruct (mem_key (lf_owner l) rem); [|exact Hq]. unfold load_remaining, is_taker. rewrite (load_get _ _ _ Ha). cbn [bind].
    rewrite Ea. cbn [bind]. eexists. split; [reflexivity|exact Hr1].
Qed.

Hypothesis Hrem : taker <> None -> ~ In owner rem.

Lemma fill_runs o now w P i q np n : let s := invert_side (o_side o) in let m := w_mkt w in
  Led m (w_accts w) P -> hrep (w_heap w) P -> In (im_tree i, im_leaf i) (pleaves s P) -> act_known s m (AFill i q) ->
  quote_gap m (w_accts w) P + m_quote_total m + Z.max 0 (act_dq m (o_side o) owner (AFill i q)) <= 18446744073709551615 ->
  base_gap m (w_accts w) P + m_base_total m + Z.max 0 (act_db m (o_side o) (AFill i q)) <= 18446744073709551615 ->
  vol_all m P + q * im_price i * qls m <= 340282366920938463463374607431768211455 ->
  fee_all m P + q * im_price i * qls m <= 340282366920938463463374607431768211455 ->
  heap_room (w_heap w) n -> 1 <= n ->
  exists w' np', process_fill_event w taker rem np (fill_of o owner now (m_seq m) i q) = Ok (w', np') /\
    heap_room (w_heap w') (n - 1).
Proof using Htk Hrem.
  intros s m HL Hh Hin Hk Gq Gb Gv Gf Hr Hn. set (f := fill_of o owner now (m_seq m) i q).
  assert (Hr1 : heap_room (w_heap w) (n - 1)) by (apply (room_le _ _ _ Hr); lia).
  unfold process_fill_event. change (fe_maker f) with (lf_owner (im_leaf i)).
  destruct ((np <? FILL_EVENT_REMAINING_LIMIT) && mem_key (lf_owner (im_leaf i)) rem) eqn:C.
  2:{ destruct (push_runs _ _ (EFill f) _ Hh Hr Hn) as (h & E & Hr'). rewrite E. cbn [bind]. do 2 eexists. split; [reflexivity|exact Hr']. }
  apply andb_prop in C as [_ M]. apply mem_key_iff in M.
  destruct Hk as [K1 K2]. destruct (K1 eq_refl) as (K3 & K4 & K5). specialize (K2 eq_refl). cbn [act_base act_quote act_item] in *.
  set (t := im_tree i) in *. set (l := im_leaf i) in *.
  apply in_pleaves in Hin as (lp & P0 & HP). pose proof (led_perm _ _ _ _ HP HL) as HL0.
  destruct (gaps_perm m (w_accts w) _ _ HP) as (E1 & E2 & E3 & E4).
  assert (Es : fill_side f = s) by reflexivity.
  destruct (led_fill m (w_accts w) P0 s t l lp f HL0 Es eq_refl eq_refl eq_refl eq_refl K3 K4 K5 K2) as [HL1 [B1 B2 B3 B4 _ _]].
  cbn [app] in HL1, B1, B2, B3, B4.
  destruct (ld_back _ _ _ HL1 _ (or_introl eq_refl)) as (a & Ha & _). cbn [pc_owner] in Ha. change (fe_maker f) with (lf_owner l) in Ha.
  pose proof (mk_cfg _ (ld_mkt _ _ _ HL)) as Hc. pose proof (cs_qls _ Hc) as C1. change (c_qls (m_cfg m)) with (qls m) in C1.
  assert (Hfq : fill_quote m f = q * im_price i * qls m) by reflexivity.
  assert (Hff : fill_fee m f <= q * im_price i * qls m).
  { unfold fill_fee. rewrite Hfq. destruct (fill_self f); [nia|]. apply maker_pays_bounds; [exact Hc|nia]. }
  assert (Hq1 : quote_gap m (w_accts w) (PFill f (lf_key l) :: left_over s t l lp (fe_qty f) ++ P0) + m_quote_total m <= 18446744073709551615).
  { rewrite B2, <- E2. unfold act_dq, act_rebate, act_self in Gq. cbn [act_item act_quote] in Gq. fold l in Gq.
    assert (Er : fill_rebate m f = if lf_owner l =? owner then 0 else maker_gets m (q * im_price i * qls m)) by reflexivity.
    rewrite Er, Hfq. unfold s. revert Gq. destruct (lf_owner l =? owner), (o_side o); cbn [invert_side]; lia. }
  assert (Hb1 : base_gap m (w_accts w) (PFill f (lf_key l) :: left_over s t l lp (fe_qty f) ++ P0) + m_base_total m <= 18446744073709551615).
  { rewrite B1, <- E1. unfold act_db in Gb. cbn [act_base] in Gb. change (fe_qty f) with q. unfold s. revert Gb. destruct (o_side o); cbn [invert_side]; lia. }
  destruct (exec_fits m (w_accts w) _ f (lf_key l) a HL1 Ha Hq1 Hb1 ltac:(lia) ltac:(lia)) as (a' & m' & Ex).
  unfold load_remaining. replace (is_taker taker (lf_owner l)) with false.
  2:{ destruct taker as [k|]; [|reflexivity]. assert (k = owner) as -> by (destruct Htk as [E|E]; congruence). cbn [is_taker].
      destruct (Z.eqb_spec owner (lf_owner l)) as [E|E]; [|reflexivity]. exfalso. apply Hrem; [discriminate|]. rewrite E. exact M. }
  rewrite (load_get _ _ _ Ha). cbn [bind]. fold m. rewrite Ex. cbn [bind]. do 2 eexists. split; [reflexivity|exact Hr1].
Qed.
End Live.

(** ** The matching loop *)
Definition item_fit (s : side) (i : item) : Prop :=
  0 < lf_qty (im_leaf i) /\ 1 <= im_price i /\
  (is_valid i = true -> s = Bid -> match im_tree i with
     | Fixed => im_price i = lf_key (im_leaf i) / 2 ^ 64
     | OraclePegged => im_price i <= lf_peg_limit (im_leaf i)
     end).
Definition order_of (i : item) : otree_id * leaf := (im_tree i, im_leaf i).

Record ready (o : order) (extra : Z) (items : list item) (s : mstate) (P : list piece) : Prop := {
  rd_led : Led (w_mkt (ms_w s)) (w_accts (ms_w s)) P;
  rd_heap : hrep (w_heap (ms_w s)) P;
  rd_room : heap_room (w_heap (ms_w s)) (ms_limit s + (5 - ms_dropped s) + extra);
  rd_items : Forall (item_fit (invert_side (o_side o))) items;
  rd_in : forall i, In i items -> In (order_of i) (pleaves (invert_side (o_side o)) P);
  rd_nodup : NoDup (map order_of items);
  rd_base : 0 <= ms_base s <= 9223372036854775807;
  rd_quote : 0 <= ms_quote s /\ ms_quote s * qls (w_mkt (ms_w s)) <= 9223372036854775807;
  rd_dec : 0 <= ms_dec s /\ ms_dec s + ms_quote s <= 9223372036854775807;
  rd_reb : 0 <= ms_rebates s /\ ms_rebates s + ms_quote s * qls (w_mkt (ms_w s)) <= 9223372036854775807;
  rd_gq : quote_gap (w_mkt (ms_w s)) (w_accts (ms_w s)) P + m_quote_total (w_mkt (ms_w s))
            + 2 * (ms_quote s * qls (w_mkt (ms_w s))) <= 18446744073709551615;
  rd_gb : base_gap (w_mkt (ms_w s)) (w_accts (ms_w s)) P + m_base_total (w_mkt (ms_w s))
            + ms_base s * bls (w_mkt (ms_w s)) <= 18446744073709551615;
  rd_gv : vol_all (w_mkt (ms_w s)) P + ms_quote s * qls (w_mkt (ms_w s)) <= 340282366920938463463374607431768211455;
  rd_gf : fee_all (w_mkt (ms_w s)) P + ms_quote s * qls (w_mkt (ms_w s)) <= 340282366920938463463374607431768211455;
  rd_limit : 0 <= ms_limit s <= 255;
  rd_drop : 0 <= ms_dropped s <= 5 }.

Lemma effect_totals o tk owner rem now w a w' : effect o tk owner rem now w a w' ->
  m_base_total (w_mkt w') = m_base_total (w_mkt w) /\ m_quote_total (w_mkt w') = m_quote_total (w_mkt w) /\
  m_cfg (w_mkt w') = m_cfg (w_mkt w).
Proof. intros H. apply effect_rest in H as (_ & _ & _ & _ & (C & _ & E1 & E2 & _)). auto. Qed.

Section Step.
Variables (o : order) (taker : option Z) (owner : Z) (rem : list Z) (now extra : Z).

Lemma ready_step i r s P a s1 : ready o extra (i :: r) s P ->
  effect o taker owner rem now (ms_w s) a (ms_w s1) -> act_item a = i ->
  act_known (invert_side (o_side o)) (w_mkt (ms_w s)) a ->
  0 <= act_base a <= ms_base s -> 0 <= act_quote a <= ms_quote s ->
  ms_base s1 = ms_base s - act_base a -> ms_quote s1 = ms_quote s - act_quote a ->
  0 <= ms_dec s1 <= ms_dec s + act_quote a ->
  0 <= ms_rebates s1 <= ms_rebates s + act_quote a * qls (w_mkt (ms_w s)) ->
  0 <= ms_limit s1 <= 255 -> 0 <= ms_dropped s1 <= 5 ->
  heap_room (w_heap (ms_w s1)) (ms_limit s1 + (5 - ms_dropped s1) + extra) ->
  exists P1, ready o extra r s1 P1.
Proof.
  intros [HL Hh _ Hit Hin Hnd Hb Hq Hdec Hreb Gq Gb Gv Gf Hl Hd] He Ei Hk Ab Aq E1 E2 E3 E4 E5 E6 E7.
  pose proof (effect_totals _ _ _ _ _ _ _ _ He) as (T1 & T2 & T3).
  set (m := w_mkt (ms_w s)) in *. set (os := invert_side (o_side o)) in *.
  assert (Eqls : qls (w_mkt (ms_w s1)) = qls m) by (apply qls_eq; exact T3).
  assert (Ebls : bls (w_mkt (ms_w s1)) = bls m) by (apply bls_eq; exact T3).
  pose proof (mk_cfg _ (ld_mkt _ _ _ HL)) as Hc. pose proof (cs_qls _ Hc) as C1. change (c_qls (m_cfg m)) with (qls m) in C1.
  pose proof (cs_bls _ Hc) as C2. change (c_bls (m_cfg m)) with (bls m) in C2.
  destruct (effect_led _ _ _ _ _ _ _ _ P He HL Hh) as (P1 & R & HL1 & Hh1 & [B1 B2 B3 B4 _ _] & O1 & S1 & S2 & _).
  { rewrite Ei. apply (Hin i). left. reflexivity. }
  { exact Hk. }
  fold m os in B1, B2, B3, B4, S1, S2. rewrite Ei in S1, S2.
  assert (Hrb : act_rebate m owner a <= act_quote a * qls m).
  { unfold act_rebate. destruct (act_self owner a); [nia|]. apply maker_gets_bounds; [exact Hc|nia]. }
  assert (Hrb0 : 0 <= act_rebate m owner a).
  { unfold act_rebate. destruct (act_self owner a); [lia|]. apply maker_gets_bounds; [exact Hc|nia]. }
  assert (Hfe : act_fee m owner a <= act_quote a * qls m).
  { unfold act_fee. destruct (act_self owner a); [nia|]. apply maker_pays_bounds; [exact Hc|nia]. }
  exists P1. constructor; rewrite ?Eqls, ?Ebls, ?E1, ?E2, ?T1, ?T2; try assumption.
  - inversion Hit; assumption.
  - intros j Hj. cbn [map] in Hnd. inversion Hnd as [|? ? N1 _]; subst.
    assert (In (order_of j) (order_of (act_item a) :: R)).
    { apply (Permutation_in _ S1). apply Hin. right. exact Hj. }
    destruct H as [H|H]; [exfalso; apply N1; rewrite H; apply in_map; exact Hj|].
    apply (Permutation_in _ (Permutation_sym S2)). apply in_or_app. right. exact H.
  - cbn [map] in Hnd. inversion Hnd; assumption.
  - lia.
  - split; [lia|]. nia.
  - lia.
  - split; [lia|]. nia.
  - rewrite B2. unfold act_dq. destruct (o_side o); nia.
  - rewrite B1. unfold act_db. destruct (o_side o); nia.
  - rewrite B3. nia.
  - rewrite B4. nia.
Qed.
End Step.

Section Loop.
Variables (o : order) (price : Z) (taker : option Z) (owner : Z) (rem : list Z) (now extra : Z).
Hypothesis Htk : tk_ok taker owner.
Hypothesis Hrem : taker <> None -> ~ In owner rem.
Hypothesis Hextra : 0 <= extra.

Lemma known_fill os m i q : item_fit os i -> is_valid i = true -> 1 <= q <= lf_qty (im_leaf i) ->
  q * im_price i * qls m <= 9223372036854775807 -> act_known os m (AFill i q).
Proof.
  intros (I1 & I2 & I3) V H1 H2. constructor; intros _; cbn [act_base act_quote act_item].
  - split; [exact H1|]. split; [exact I2|exact H2].
  - intros E. apply I3; assumption.
Qed.
Lemma known_none os m a : is_fill a = false -> act_known os m a.
Proof. intros E. constructor; intros F; congruence. Qed.

Lemma ready_tl i r s P : ready o extra (i :: r) s P -> ready o extra r s P.
Proof.
  intros [HL Hh Hr Hit Hin Hnd Hb Hq Hdec Hreb Gq Gb Gv Gf Hl Hd]. constructor; try assumption.
  - inversion Hit; assumption.
  - intros j Hj. apply Hin. right. exact Hj.
  - cbn [map] in Hnd. inversion Hnd; assumption.
Qed.

Lemma ready_gaps items s P : ready o extra items s P -> gaps_fit (w_mkt (ms_w s)) (w_accts (ms_w s)) P.
Proof.
  intros [HL Hh Hr Hit Hin Hnd Hb Hq Hdec Hreb Gq Gb Gv Gf Hl Hd].
  pose proof (mk_cfg _ (ld_mkt _ _ _ HL)) as Hc. pose proof (cs_qls _ Hc) as C1. pose proof (cs_bls _ Hc) as C2.
  change (c_qls (m_cfg (w_mkt (ms_w s)))) with (qls (w_mkt (ms_w s))) in C1. change (c_bls (m_cfg (w_mkt (ms_w s)))) with (bls (w_mkt (ms_w s))) in C2.
  split; nia.
Qed.

(** The bookkeeping of one fill. *)
Lemma match_fill_runs i r s P dec reb : ready o extra (i :: r) s P -> is_valid i = true ->
  ms_limit s <> 0 -> ms_base s <> 0 -> Z.quot (ms_quote s) (im_price i) <> 0 ->
  let q := to_fill s i (Z.quot (ms_quote s) (im_price i)) in
  ms_dec s <= dec <= ms_dec s + q * im_price i ->
  ms_rebates s <= reb <= ms_rebates s + q * im_price i * qls (w_mkt (ms_w s)) ->
  exists s1 P1, match_fill o taker owner rem now i q (q * im_price i) dec reb s = Ok s1 /\ ready o extra r s1 P1.
Proof using Htk Hrem Hextra.
  intros HR V Hl0 Hb0 Hq0 q Hdec' Hreb'. pose proof HR as [HL Hh Hr Hit Hin Hnd Hb Hq Hdec Hreb Gq Gb Gv Gf Hl Hd].
  set (m := w_mkt (ms_w s)) in *.
  pose proof (mk_cfg _ (ld_mkt _ _ _ HL)) as Hc. pose proof (cs_qls _ Hc) as C1. change (c_qls (m_cfg m)) with (qls m) in C1.
  pose proof (cs_bls _ Hc) as C2. change (c_bls (m_cfg m)) with (bls m) in C2.
  assert (Hfit : item_fit (invert_side (o_side o)) i) by (inversion Hit; assumption). pose proof Hfit as (I1 & I2 & _).
  assert (Hquot : Z.quot (ms_quote s) (im_price i) = ms_quote s / im_price i) by (apply quot_nonneg; lia).
  pose proof (Z.mul_div_le (ms_quote s) (im_price i) ltac:(lia)) as Hmd.
  assert (Hdp : 0 <= ms_quote s / im_price i) by (apply Z.div_pos; lia).
  assert (Q1 : 1 <= q <= lf_qty (im_leaf i)) by (unfold q, to_fill; lia).
  assert (Q2 : q <= ms_base s) by (unfold q, to_fill; lia).
  assert (Q3 : q * im_price i <= ms_quote s) by (assert (q <= ms_quote s / im_price i) by (unfold q, to_fill; lia); nia).
  assert (Q4 : 0 <= q * im_price i) by nia.
  assert (Q5 : q * im_price i * qls m <= ms_quote s * qls m) by nia.
  assert (Hk : act_known (invert_side (o_side o)) m (AFill i q)) by (apply known_fill; try assumption; lia).
  assert (Hlq : 0 < lf_qty (im_leaf i)) by lia.
  assert (Hql : lf_qty (im_leaf i) <= 9223372036854775807).
  { specialize (Hin i (or_introl eq_refl)). apply leaf_piece in Hin as (lp & Hin). apply (ld_piece _ _ _ HL) in Hin.
    destruct Hin as [_ _ K3 _ _ _]. cbn [pc_qty] in K3. fold m in K3. nia. }
  unfold match_fill. rewrite (chk_i64_in (ms_base s - q)) by lia. cbn [bind].
  assert (Hms : ms_quote s <= 9223372036854775807) by nia.
  rewrite (chk_i64_in (ms_quote s - q * im_price i)) by lia. cbn [bind].
  replace (0 <=? ms_quote s - q * im_price i) with true by lia. cbn [massert require bind].
  rewrite (chk_i64_in (lf_qty (im_leaf i) - q)) by lia. cbn [bind]. cbv zeta.
  assert (Hrb : maker_gets m (q * im_price i * qls m) <= q * im_price i * qls m) by (apply maker_gets_bounds; [exact Hc|nia]).
  destruct (fill_runs taker owner rem Htk Hrem o now (ms_w s) P i q (ms_processed s) (ms_limit s + (5 - ms_dropped s) + extra))
    as (w1 & np & Ep & Hr1).
  { exact HL. } { exact Hh. } { apply (Hin i). left. reflexivity. } { exact Hk. }
  { fold m. unfold act_dq, act_rebate. cbn [act_quote]. destruct (act_self owner (AFill i q)), (o_side o); lia. }
  { fold m. unfold act_db. cbn [act_base]. destruct (o_side o); nia. }
  { fold m. lia. } { fold m. lia. } { exact Hr. } { lia. }
  fold m in Ep. unfold fill_of in Ep. rewrite <- eqb_sub_zero in Ep. fold m. rewrite Ep. cbn [bind].
  unfold chk, in_range, u8_max. replace ((0 <=? ms_limit s - 1) && (ms_limit s - 1 <=? 255)) with true by lia. cbn [bind].
  eexists. 
  match goal with |- exists P1, Ok ?st = _ /\ _ => destruct (ready_step o taker owner rem now extra i r s P (AFill i q) st HR) as (P1 & HR1) end;
    cbn [ms_w ms_base ms_quote ms_dec ms_rebates ms_limit ms_dropped act_base act_quote act_item]; fold m; try lia; try reflexivity.
  - apply process_fill_effect with (np := ms_processed s) (np' := np). fold m. unfold fill_of. rewrite <- eqb_sub_zero. exact Ep.
  - exact Hk.
  - eapply room_le; [exact Hr1|lia].
  - exists P1. split; [reflexivity|exact HR1].
Qed.

(** An order of the taker's own account that the order would trade with. *)
Definition own_meets (j : item) : Prop :=
  taker = Some owner /\ is_valid j = true /\ is_price_within_limit (o_side o) (im_price j) price = true /\ owner = lf_owner (im_leaf j).
Lemma match_loop_runs items : forall s P, ready o extra items s P ->
  (exists s', match_loop o price taker owner rem now items s = Ok s' /\ heap_room (w_heap (ms_w s')) extra) \/
  (o_self_trade o = AbortTransaction /\ match_loop o price taker owner rem now items s = Err WouldSelfTrade /\
   exists j, In j items /\ own_meets j).
Proof using Htk Hrem Hextra.
  induction items as [|i r IH]; intros s P HR; pose proof HR as [HL Hh Hr Hit Hin Hnd Hb Hq Hdec Hreb Gq Gb Gv Gf Hl Hd]; cbn [match_loop].
  { left. exists s. split; [reflexivity|]. eapply room_le; [exact Hr|lia]. }
  assert (Hw : forall R : res mstate,
    (exists s', R = Ok s' /\ heap_room (w_heap (ms_w s')) extra) \/
      (o_self_trade o = AbortTransaction /\ R = Err WouldSelfTrade /\ exists j, In j r /\ own_meets j) ->
    (exists s', R = Ok s' /\ heap_room (w_heap (ms_w s')) extra) \/
      (o_self_trade o = AbortTransaction /\ R = Err WouldSelfTrade /\ exists j, In j (i :: r) /\ own_meets j)).
  { intros R [X|(X1 & X2 & j & X3 & X4)]; [left; exact X|right]. split; [exact X1|]. split; [exact X2|]. exists j. split; [right; exact X3|exact X4]. }
  assert (Hend : heap_room (w_heap (ms_w s)) extra) by (eapply room_le; [exact Hr|lia]).
  assert (Hend' : heap_room (w_heap (ms_w (ms_stop s))) extra) by exact Hend.
  destruct ((ms_base s =? 0) || (ms_quote s =? 0)) eqn:B; [left; eauto|].
  apply orb_false_elim in B as [B1 B2]. apply Z.eqb_neq in B1, B2.
  destruct (is_valid i) eqn:V; cbn [negb].
  2:{ unfold match_invalid. destruct (ms_dropped s <? DROP_EXPIRED_ORDER_LIMIT) eqn:D.
      - apply Z.ltb_lt in D. unfold DROP_EXPIRED_ORDER_LIMIT in D. cbv zeta.
        destruct (out_runs taker owner rem Htk (ms_w s) P (invert_side (o_side o)) (im_tree i) (im_leaf i) now (h_seq (w_heap (ms_w s)))
          (ms_limit s + (5 - ms_dropped s) + extra) HL Hh (ready_gaps _ _ _ HR) (Hin i (or_introl eq_refl)) Hr ltac:(lia)) as (w1 & E & Hr1).
        rewrite E. cbn [bind].
        match goal with |- context [match_loop _ _ _ _ _ _ r ?st] => destruct (ready_step o taker owner rem now extra i r s P (ADrop i) st HR) as (P1 & HR1) end;
          cbn [ms_w ms_base ms_quote ms_dec ms_rebates ms_limit ms_dropped act_base act_quote act_item]; try lia; try reflexivity.
        + constructor. eapply process_out_effect; [exact Htk|exact E].
        + apply known_none. reflexivity.
        + eapply room_le; [exact Hr1|lia].
        + apply Hw, (IH _ _ HR1).
      - cbn [bind]. apply Hw, (IH _ _ (ready_tl _ _ _ _ HR)). }
  destruct (is_price_within_limit (o_side o) (im_price i) price) eqn:Hwl; cbn [negb]; [|left; eauto].
  destruct (is_post_only o); [left; eauto|].
  destruct (Z.eqb_spec (ms_limit s) 0) as [L|L]; [left; eauto|].
  set (m := w_mkt (ms_w s)) in *.
  pose proof (mk_cfg _ (ld_mkt _ _ _ HL)) as Hc. pose proof (cs_qls _ Hc) as C1. change (c_qls (m_cfg m)) with (qls m) in C1.
  assert (Hfit : item_fit (invert_side (o_side o)) i) by (inversion Hit; assumption). pose proof Hfit as (I1 & I2 & _).
  assert (Hquot : Z.quot (ms_quote s) (im_price i) = ms_quote s / im_price i) by (apply quot_nonneg; lia).
  pose proof (Z.mul_div_le (ms_quote s) (im_price i) ltac:(lia)) as Hmd.
  assert (Hdp : 0 <= ms_quote s / im_price i) by (apply Z.div_pos; lia).
  assert (Hms : ms_quote s <= 9223372036854775807) by nia.
  assert (Hdv : div_i64 (ms_quote s) (im_price i) = Ok (Z.quot (ms_quote s) (im_price i))).
  { unfold div_i64. replace (im_price i =? 0) with false by lia. apply chk_i64_in. nia. }
  rewrite Hdv. cbn [bind].
  destruct (Z.eqb_spec (Z.quot (ms_quote s) (im_price i)) 0) as [Q0|Q0]; [left; eauto|]. cbv zeta.
  fold (to_fill s i (Z.quot (ms_quote s) (im_price i))).
  set (q := to_fill s i (Z.quot (ms_quote s) (im_price i))).
  assert (Q1 : 1 <= q) by (unfold q, to_fill; lia).
  assert (Q3 : q * im_price i <= ms_quote s) by (assert (q <= ms_quote s / im_price i) by (unfold q, to_fill; lia); nia).
  rewrite (chk_i64_in (q * im_price i)) by nia. cbn [bind].
  destruct (negb match taker with Some _ => false | None => true end && (owner =? lf_owner (im_leaf i))) eqn:S.
  - apply andb_prop in S as [S1 S2]. destruct (o_self_trade o) eqn:ST.
    + rewrite chk_i64_in by nia. cbn [bind].
      destruct (match_fill_runs i r s P (ms_dec s + q * im_price i) (ms_rebates s) HR V L B1 Q0) as (s1 & P1 & E & HR1); fold q; [lia|fold m; nia|].
      fold q in E. rewrite E. cbn [bind]. apply Hw, (IH _ _ HR1).
    + destruct taker as [k|] eqn:Etk; [|discriminate S1]. assert (k = owner) as -> by (destruct Htk as [E|E]; congruence).
      cbn [unwrap bind]. apply Z.eqb_eq in S2.
      destruct (leave_runs _ _ _ _ _ _ HL (ready_gaps _ _ _ HR) (Hin i (or_introl eq_refl))) as (a & a' & Ha & Ea).
      rewrite S2. rewrite (load_get _ _ _ Ha). cbn [bind]. fold m in Ea. rewrite Ea. cbn [bind]. rewrite <- S2.
      match goal with |- context [match_loop _ _ _ _ _ _ r ?st] => destruct (ready_step o (Some owner) owner rem now extra i r s P (AOwn i) st HR) as (P1 & HR1) end;
        cbn [ms_w ms_base ms_quote ms_dec ms_rebates ms_limit ms_dropped act_base act_quote act_item]; try lia; try reflexivity.
      * rewrite S2. eapply ef_own; [reflexivity|exact Ha|exact Ea].
      * apply known_none. reflexivity.
      * exact Hr.
      * apply Hw, (IH _ _ HR1).
    + right. split; [reflexivity|]. split; [reflexivity|]. exists i. split; [left; reflexivity|]. apply Z.eqb_eq in S2.
      split; [destruct taker as [k|]; [|discriminate S1]; destruct Htk as [E|E]; [exact E|discriminate E]|]. auto.
  - fold m. rewrite (chk_i64_in (q * im_price i * qls m)) by nia. cbn [bind].
    rewrite as_u64_id by nia. rewrite maker_rebate_floor_in by (try exact Hc; nia). cbn [bind].
    pose proof (maker_gets_bounds m (q * im_price i * qls m) Hc ltac:(nia)) as Hrb.
    rewrite chk_u64_in by nia. cbn [bind].
    destruct (match_fill_runs i r s P (ms_dec s) (ms_rebates s + maker_gets m (q * im_price i * qls m)) HR V L B1 Q0) as (s1 & P1 & E & HR1); fold q; [nia|fold m; lia|].
    fold q in E. rewrite E. cbn [bind]. apply Hw, (IH _ _ HR1).
Qed.
End Loop.
