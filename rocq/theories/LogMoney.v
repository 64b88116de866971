(** The events of single calls, and the money they stand for. *)
From Coq Require Import ZArith List Bool Lia ZifyBool Permutation.
From Verif Require Import Base Nodes OrderTree BookSide Heap Market OpenOrders Order Book Instructions Logs
  BaseFacts NodesFacts HeapFacts TreeRep TreeFacts TreeOps TreeIter BookSideFacts BookSideOrder SpecBook BookSpecProofs
  SpecHeap HeapSpecProofs SpecFees SpecOrder MatchFacts MatchBook FeeFacts OrderFacts PlaceFacts OrderSpecProofs OrderClaims Steps StepFacts TokenFacts
  SpecLedger SpecEvents Ledger LedgerOps LedgerMoves LedgerPlace LedgerOrder LedgerInv SpecSystem SystemFacts Solvency
  ConsumeFacts SpecControl ControlFacts AuthFacts SpecTrade TradeFacts TradeIx SpecLogs LogFacts LogOrder LogTally LogSteps LogProofs.
Import ListNotations.
Open Scope Z_scope.

(** ** One order *)
Lemma one_total L b s t p r f : (forall sel g, totals sel g L = if b && sel t then g s p r f else 0) ->
  log_totals L = if b then [LTotal s t p r f] else [].
Proof.
  intros H.
  assert (E : forall sel g, totals sel g L = sumZ (map (fun l => match l with LTotal s t p r f => if sel t then g s p r f else 0 | _ => 0 end) (log_totals L))).
  { intros sel g. unfold totals, log_totals. clear H. induction L as [|x L IH]; [reflexivity|]. cbn [map filter]. rewrite sumZ_cons, IH.
    destruct x; cbn [map]; rewrite ?sumZ_cons; try lia. }
  assert (Hall : Forall (fun l => match l with LTotal _ _ _ _ _ => True | _ => False end) (log_totals L)).
  { apply Forall_forall. intros x Hx. apply filter_In in Hx as [_ Hx]. destruct x; try discriminate Hx; exact I. }
  revert E Hall. generalize (log_totals L). intros T E Hall.
  assert (Hn : forall U, Forall (fun l => match l with LTotal _ _ _ _ _ => True | _ => False end) U ->
    0 <= sumZ (map (fun l => match l with LTotal s t p r f => if anyone t then 1 else 0 | _ => 0 end) U) /\
    (sumZ (map (fun l => match l with LTotal s t p r f => if anyone t then 1 else 0 | _ => 0 end) U) = 0 -> U = [])).
  { clear. intros U HU. induction HU as [|x U Hx HU IH]; [split; [cbn; lia|reflexivity]|]. cbn [map]. rewrite sumZ_cons.
    destruct x; try contradiction Hx. destruct IH as [IH _]. unfold anyone in *. cbn beta iota in *. split; [lia|]. intros Hz. exfalso. lia. }
  destruct T as [|x T].
  - specialize (E anyone (fun _ _ _ _ => 1)). rewrite H in E. cbn in E. destruct b; [discriminate E|reflexivity].
  - apply Forall_cons_iff in Hall as [Hx Hall]. destruct x as [| | |s' t' p' r' f'| | | |]; try contradiction Hx.
    assert (E1 := E anyone (fun _ _ _ _ => 1)). rewrite H in E1. cbn [map] in E1. rewrite sumZ_cons in E1.
    destruct (Hn T Hall) as [N1 N2]. unfold anyone in E1, N1, N2. cbn beta iota in E1, N1, N2. rewrite andb_true_r in E1. destruct b; [|lia]. rewrite N2 in E by lia. rewrite N2 by lia.
    assert (E2 : forall (sel : Z -> bool) (g : side -> Z -> Z -> Z -> Z), (if sel t then g s p r f else 0) = (if sel t' then g s' p' r' f' else 0)).
    { intros sel g. specialize (E sel g). rewrite H in E. cbn [map andb] in E. rewrite sumZ_cons in E. cbn in E. lia. }
    assert (t = t') as <-. { specialize (E2 (Z.eqb t') (fun _ _ _ _ => 1)). cbn beta in E2. rewrite Z.eqb_refl in E2. destruct (Z.eqb_spec t' t); [congruence|discriminate E2]. }
    pose proof (E2 anyone (fun _ p _ _ => p)) as P1. pose proof (E2 anyone (fun _ _ r _ => r)) as P2. pose proof (E2 anyone (fun _ _ _ f => f)) as P3.
    pose proof (E2 anyone (fun s _ _ _ => match s with Bid => 1 | Ask => 2 end)) as P4. unfold anyone in P1, P2, P3, P4. cbn beta iota in P1, P2, P3, P4. subst.
    destruct s, s'; try discriminate P4; reflexivity.
Qed.

Lemma report_sum m (g : fill_log -> Z) (h : fill_event -> Z) M : (forall f, g (report m f) = h f) -> log_sum g (map (report m) M) = fsum h M.
Proof. intros E. rewrite log_sum_map. apply fsum_ext. exact E. Qed.

Definition order_paid (w : world) (r : order_amounts) (F : list fill_log) : Prop :=
  oa_base_taken r = log_sum (fun f => fl_qty f * bls (w_mkt w)) F /\ oa_quote_taken r = log_sum (log_quote (w_mkt w)) F /\
  oa_taker_fees r - oa_referrer r = log_sum (log_rebate (w_mkt w)) F.

Lemma order_reported w db dq cl ct P o oracle taker owner now limit rem w' r :
  Inv w db dq cl ct P -> sane_order o -> taker = Some owner \/ (taker = None /\ acct_get owner (w_accts w) = None) ->
  new_order w o oracle taker owner now limit rem = Ok (w', r) ->
  exists F, order_report w (o_side o) owner (order_logs w o oracle taker owner now limit rem) F w' /\ order_paid w r F.
Proof.
  intros HI Hso Htk H. destruct (order_tallied _ _ _ _ _ _ _ _ _ _ _ _ _ _ _ HI Hso Htk H) as (items & acts & gone & put & D & _ & T & HT & G). cbv zeta in G.
  set (L := order_logs w o oracle taker owner now limit rem) in *. set (M := fills_of o owner now (m_seq (w_mkt w) + 1) acts) in *.
  destruct T as [_ T2 T3 T4 _ _ _ _ _ _]. destruct G as (G1 & G2 & G3 & G4 & G5). set (m := w_mkt w) in *.
  exists (map (report m) M).
  assert (Eb : log_sum (fun f => fl_qty f * bls m) (map (report m) M) = oa_base_taken r) by (rewrite G1; apply report_sum; reflexivity).
  assert (Eq : log_sum (log_quote m) (map (report m) M) = oa_quote_taken r) by (rewrite G2; apply report_sum; reflexivity).
  assert (Ec : log_sum (log_charged m) (map (report m) M) = fsum (charged m) M) by (apply report_sum; reflexivity).
  assert (Er : log_sum (log_rebate m) (map (report m) M) = fsum (fill_rebate m) M) by (apply report_sum; reflexivity).
  split; [constructor; fold m|].
  - pose proof HI as [HR _ _ _ _ _ _ _]. destruct (rp_heap _ _ HR) as (q & Hq & _). destruct (T2 q Hq) as (q' & Hq' & E).
    cbv zeta. unfold waiting_fills, waiting. rewrite (queue_ok _ _ Hq), (queue_ok _ _ Hq'), T3, <- !map_app. apply Permutation_map. symmetry. exact E.
  - rewrite T4, map_map. reflexivity.
  - apply Forall_forall. intros f Hf. apply in_map_iff in Hf as (f0 & <- & Hf). split; [exact (fills_taker _ _ _ _ _ _ Hf)|].
    subst M. unfold fills_of in Hf. apply in_flat_map in Hf as (a & _ & Hf). destruct a; try contradiction Hf. destruct Hf as [<-|[]]. reflexivity.
  - cbv zeta. rewrite Eb, Eq, Ec, <- G3.
    rewrite (one_total L (0 <? base_lots acts) (o_side o) owner
      (match o_side o with Bid => oa_quote_taken r + oa_taker_fees r | Ask => oa_base_taken r end)
      (match o_side o with Bid => oa_base_taken r | Ask => oa_quote_taken r - oa_taker_fees r end) (oa_taker_fees r)).
    + rewrite G5. destruct M; cbn [map]; destruct (o_side o); reflexivity.
    + intros sel g. rewrite HT. destruct (o_side o); reflexivity.
  - unfold order_paid. fold m. rewrite Eb, Eq, Er. split; [reflexivity|]. split; [reflexivity|]. lia.
Qed.

Lemma waiting_calm w w' q : heap_ok (w_heap w) q -> calm w w' -> waiting_fills w' = waiting_fills w.
Proof.
  intros Hq [_ _ _ _ C]. destruct (C q Hq) as (q' & Hq' & E). unfold waiting_fills, waiting. rewrite (queue_ok _ _ Hq), (queue_ok _ _ Hq'). exact E.
Qed.
Lemma report_after w sd t L F w1 w2 q : order_report w sd t L F w1 -> heap_ok (w_heap w1) q -> calm w1 w2 -> order_report w sd t L F w2.
Proof.
  intros [A1 A2 A3 A4] Hq C. constructor; try assumption. cbv zeta in *. rewrite (waiting_calm _ _ _ Hq C). exact A1.
Qed.
Lemma log_sum_ext g g' F : (forall f, g f = g' f) -> log_sum g F = log_sum g' F.
Proof. intros E. unfold log_sum. f_equal. apply map_ext. exact E. Qed.
Lemma report_before w0 w sd t L F w1 q : order_report w sd t L F w1 -> heap_ok (w_heap w0) q -> calm w0 w -> order_report w0 sd t L F w1.
Proof.
  intros [A1 A2 A3 A4] Hq C. pose proof (waiting_calm _ _ _ Hq C) as Ew. destruct C as [Ec _ _ _ _]. constructor; try assumption; cbv zeta in *.
  - rewrite Ew in A1. rewrite !(map_ext _ _ (fun f => report_cfg (w_mkt w0) (w_mkt w) f Ec)) in A1. exact A1.
  - assert (E1 : bls (w_mkt w) = bls (w_mkt w0)) by (unfold bls; rewrite Ec; reflexivity).
    assert (E2 : forall f, log_quote (w_mkt w) f = log_quote (w_mkt w0) f) by (intros f; unfold log_quote, qls; rewrite Ec; reflexivity).
    assert (E3 : forall f, log_charged (w_mkt w) f = log_charged (w_mkt w0) f) by (intros f; unfold log_charged; rewrite E2; reflexivity).
    assert (E4 : forall z, taker_pays (w_mkt w) z = taker_pays (w_mkt w0) z) by (intros z; unfold taker_pays, taker_fee; rewrite Ec; reflexivity).
    rewrite E1, E4, (log_sum_ext _ _ F E2), (log_sum_ext _ _ F E3) in A4. exact A4.
Qed.
Lemma report_none w sd t q w' : heap_ok (w_heap w) q -> calm w w' -> order_report w sd t [] [] w'.
Proof.
  intros Hq C. constructor; try reflexivity; cbv zeta; [|constructor]. rewrite (waiting_calm _ _ _ Hq C), app_nil_r. apply Permutation_refl.
Qed.

Lemma inv_heap w db dq cl ct P : Inv w db dq cl ct P -> exists q, heap_ok (w_heap w) q.
Proof. intros [HR _ _ _ _ _ _ _]. destruct (rp_heap _ _ HR) as (q & Hq & _). exists q. exact Hq. Qed.
Lemma place_report e s x o limit s' id cl ct P : Inv (s_w s) 0 0 cl ct P -> params_sane (o_params o) -> 0 <= limit ->
  place_order_ix e s x o limit = Ok (s', id) -> exists F, order_report (s_w s) (o_side o) (px_acct x) (place_logs e s x o limit) F (s_w s').
Proof.
  intros HI Hp Hl H. unfold place_order_ix in H. unfold place_logs.
  apply bind_ok in H as (u1 & E1 & H). apply require_ok in E1. apply bind_ok in H as (u2 & E2 & H). apply require_ok in E2.
  cbv zeta in *. apply bind_ok in H as (u3 & _ & H). apply bind_ok in H as (u4 & _ & H).
  apply bind_ok in H as (now & En & H). rewrite En. apply now_u64_ok in En. apply bind_ok in H as (oracle & Eor & H). rewrite Eor. cbn [bind ok_or].
  apply bind_ok in H as ([w1 r] & Eo & H). apply bind_ok in H as ([w2 d] & Ek & H).
  apply bind_ok in H as (t & _ & H). injection H as <- _. cbn [s_w].
  assert (Hso : sane_order o) by (constructor; [lia|lia|exact Hp]).
  destruct (order_reported _ _ _ _ _ _ _ _ _ _ _ _ _ _ _ HI Hso (or_introl eq_refl) Eo) as (F & HF & _).
  destruct (wstep_inv _ _ _ _ _ _ _ _ _ _ (ws_place (Some (px_acct x)) (s_w s) 0 0 o oracle (Some (px_acct x)) (px_acct x) now limit (px_rem x) w1 r Hso (or_introl eq_refl) Hl En Eo eq_refl) HI) as (P1 & HI1).
  destruct (inv_heap _ _ _ _ _ _ HI1) as (q & Hq). exists F. eapply report_after; [exact HF|exact Hq|]. eapply calm_lock. exact Ek.
Qed.

Lemma edit_report e s x cid expected o limit s' id cl ct P : Inv (s_w s) 0 0 cl ct P -> params_sane (o_params o) -> 0 <= limit ->
  edit_order_ix e s x cid expected o limit = Ok (s', id) -> exists F, order_report (s_w s) (o_side o) (px_acct x) (edit_logs e s x cid expected o limit) F (s_w s').
Proof.
  intros HI Hp Hl H. unfold edit_order_ix in H. unfold edit_logs. apply bind_ok in H as (u1 & _ & H). apply bind_ok in H as ([w q] & E & H).
  rewrite E. cbn [bind]. pose proof (calm_cancel_orders _ _ _ _ _ _ _ E) as Hcalm. apply cancel_orders_steps in E. cbv zeta in H.
  destruct (inv_heap _ _ _ _ _ _ HI) as (q0 & Hq0). destruct (wsteps_inv _ _ _ _ _ _ _ cl ct E P HI) as (P1 & HI1).
  apply bind_ok in H as (f & Ef & H). rewrite Ef. cbn [bind].
  match type of H with (if ?c then _ else _) = _ => destruct c end.
  - apply bind_ok in H as (mb & Em & H). rewrite Em. cbn [bind ok_or].
    apply (place_report _ _ _ _ _ _ _ cl ct P1) in H; [|exact HI1|exact Hp|exact Hl]. destruct H as (F & HF). exists F.
    eapply report_before; [exact HF|exact Hq0|exact Hcalm].
  - injection H as <- _. cbn [ok_or s_set_w s_w]. exists []. eapply report_none; [exact Hq0|exact Hcalm].
Qed.

Lemma take_report e s x o limit s' cl ct P : Inv (s_w s) 0 0 cl ct P -> params_sane (o_params o) -> 0 <= limit ->
  place_take_ix e s x o limit = Ok s' -> exists F, order_report (s_w s) (o_side o) (tx_signer x) (take_logs e s x o limit) F (s_w s') /\
    forall oracle w1 r, oracle_input (w_mkt (s_w s)) e = Ok oracle ->
      new_order (s_w s) o oracle None (tx_signer x) (e_now e) limit (tx_rem x) = Ok (w1, r) -> order_paid (s_w s) r F.
Proof.
  intros HI Hp Hl H. unfold place_take_ix in H. unfold take_logs.
  apply bind_ok in H as (u1 & E1 & H). apply require_ok in E1. apply bind_ok in H as (u2 & E2 & H). apply require_ok in E2.
  cbv zeta in *. apply bind_ok in H as (u3 & _ & H).
  apply bind_ok in H as (now & En & H). rewrite En.
  assert (now = e_now e) as -> by (unfold now_u64 in En; apply bind_ok in En as (? & _ & En); congruence). apply now_u64_ok in En.
  apply bind_ok in H as (oracle & Eor & H). rewrite Eor. cbn [bind ok_or].
  apply bind_ok in H as (u5 & E5 & H). apply require_ok in E5.
  apply bind_ok in H as ([w1 r] & Eo & H). apply bind_ok in H as (reb & Er & H).
  assert (Hn : acct_get (tx_signer x) (w_accts (s_w s)) = None) by (destruct (acct_get (tx_signer x) (w_accts (s_w s))); [discriminate E5|reflexivity]).
  assert (Hso : sane_order o) by (constructor; [lia|lia|exact Hp]).
  destruct (order_reported _ _ _ _ _ _ _ _ _ _ _ _ _ _ _ HI Hso (or_intror (conj eq_refl Hn)) Eo) as (F & HF & Hpd).
  destruct (wstep_inv _ _ _ _ _ _ _ _ _ _ (ws_place None (s_w s) 0 0 o oracle None (tx_signer x) (e_now e) limit (tx_rem x) w1 r Hso (or_intror (conj eq_refl Hn)) Hl En Eo eq_refl) HI) as (P1 & HI1).
  destruct (inv_heap _ _ _ _ _ _ HI1) as (q & Hq). exists F. split.
  - eapply report_after; [exact HF|exact Hq|].
    destruct (o_side o); do 3 (apply bind_ok in H as (? & _ & H)); apply bind_ok in H as (t1 & _ & H); apply bind_ok in H as (t2 & _ & H); injection H as <-; cbn [s_w];
      apply calm_mkt; reflexivity.
  - intros oracle' w1' r' Eo1 Eo2. congruence.
Qed.

Lemma args_side now g o : order_of_args now g = Ok (Some o) -> o_side o = pa_side g.
Proof.
  unfold order_of_args. intros H. apply bind_ok in H as (? & _ & H). destruct (tif_from_expiry _ _) as [t|]; try discriminate H.
  apply bind_ok in H as (? & _ & H). injection H as <-. reflexivity.
Qed.
Lemma peg_side m now g o : order_of_peg_args m now g = Ok (Some o) -> o_side o = ga_side g.
Proof.
  unfold order_of_peg_args. intros H. do 2 (apply bind_ok in H as (? & _ & H)). destruct (tif_from_expiry _ _) as [t|]; try discriminate H.
  apply bind_ok in H as (? & _ & H). injection H as <-. reflexivity.
Qed.

Lemma exec_report e s i s' out sd taker : reachable s -> exec e s i = Ok (s', out) -> order_by i = Some (sd, taker) ->
  exists F, order_report (s_w s) sd taker (exec_logs e s i) F (s_w s').
Proof.
  intros Hr H Hi. destruct (reachable_queue _ Hr) as (cl & ct & P & HI & Hq & _).
  unfold exec in H. destruct (s_closed s && needs_market i); [discriminate H|]. unfold exec_open in H. unfold exec_logs. cbv zeta in *.
  destruct i as [x g|x g|x cid ex g|x cid ex g|x g| | | | | | | | | | | | | | | | | | | | | | |]; try discriminate Hi; cbn [order_by] in Hi; injection Hi as <- <-.
  - apply bind_ok in H as (u1 & E1 & H). apply bind_ok in H as (u2 & _ & H). apply bind_ok in H as (now & En & H). rewrite En. cbn [bind].
    apply bind_ok in H as (oo & Eo & H). rewrite Eo. cbn [bind ok_or]. destruct oo as [o|]; [|injection H as <- _; exists []; exact (report_none _ _ _ _ _ Hq (calm_refl _))].
    unfold lift_id in H. apply bind_ok in H as ([s1 id] & E & H). injection H as <- _.
    apply check_place_ok in E1 as [E1 E2]. assert (Es : o_side o = pa_side g) by (eapply args_side; exact Eo). rewrite <- Es.
    eapply place_report; [exact HI|eapply order_of_args_sane; eassumption|exact E2|exact E].
  - apply bind_ok in H as (u1 & E1 & H). apply bind_ok in H as (u2 & _ & H). apply bind_ok in H as (now & En & H). rewrite En. cbn [bind].
    apply bind_ok in H as (oo & Eo & H). rewrite Eo. cbn [bind ok_or]. destruct oo as [o|]; [|injection H as <- _; exists []; exact (report_none _ _ _ _ _ Hq (calm_refl _))].
    unfold lift_id in H. apply bind_ok in H as ([s1 id] & E & H). injection H as <- _.
    apply check_peg_ok in E1. assert (Es : o_side o = ga_side g) by (eapply peg_side; exact Eo). rewrite <- Es.
    eapply place_report; [exact HI|eapply order_of_peg_sane; eassumption|exact E1|exact E].
  - apply bind_ok in H as (u1 & E1 & H). apply bind_ok in H as (u2 & _ & H). apply bind_ok in H as (u3 & _ & H).
    apply bind_ok in H as (u4 & _ & H). apply bind_ok in H as (now & En & H). rewrite En. cbn [bind].
    apply bind_ok in H as (oo & Eo & H). rewrite Eo. cbn [bind ok_or]. destruct oo as [o|]; [|injection H as <- _; exists []; exact (report_none _ _ _ _ _ Hq (calm_refl _))].
    unfold lift_id in H. apply bind_ok in H as ([s1 id] & E & H). injection H as <- _.
    apply check_place_ok in E1 as [E1 E2]. assert (Es : o_side o = pa_side g) by (eapply args_side; exact Eo). rewrite <- Es.
    eapply edit_report; [exact HI|eapply order_of_args_sane; eassumption|exact E2|exact E].
  - apply bind_ok in H as (u1 & E1 & H). apply bind_ok in H as (u2 & _ & H). apply bind_ok in H as (u3 & _ & H).
    apply bind_ok in H as (u4 & _ & H). apply bind_ok in H as (now & En & H). rewrite En. cbn [bind].
    apply bind_ok in H as (oo & Eo & H). rewrite Eo. cbn [bind ok_or]. destruct oo as [o|]; [|injection H as <- _; exists []; exact (report_none _ _ _ _ _ Hq (calm_refl _))].
    unfold lift_id in H. apply bind_ok in H as ([s1 id] & E & H). injection H as <- _.
    apply check_peg_ok in E1. assert (Es : o_side o = ga_side g) by (eapply peg_side; exact Eo). rewrite <- Es.
    eapply edit_report; [exact HI|eapply order_of_peg_sane; eassumption|exact E1|exact E].
  - apply bind_ok in H as (u1 & E1 & H). apply bind_ok in H as (u2 & _ & H). apply bind_ok in H as (u3 & _ & H).
    apply bind_ok in H as (o & Eo & H). rewrite Eo. cbn [bind ok_or]. unfold lift_s in H. apply bind_ok in H as (s1 & E & H). injection H as <- _.
    apply check_take_ok in E1 as [E1 E2]. destruct (take_types _ _ Eo) as (_ & Es & _). rewrite <- Es.
    destruct (take_report _ _ _ _ _ _ _ _ _ HI (order_of_take_sane _ _ E1 Eo) E2 E) as (F & HF & _). exists F. exact HF.
Qed.

(** ** Direct take orders *)
Lemma take_wallets e s x g s' out : reachable s -> exec e s (IPlaceTake x g) = Ok (s', out) ->
  owns s (tx_signer x) (tx_user_base x) -> owns s (tx_signer x) (tx_user_quote x) ->
  exists F, order_report (s_w s) (ta_side g) (tx_signer x) (exec_logs e s (IPlaceTake x g)) F (s_w s') /\
    let m := w_mkt (s_w s) in
    in_wallet s' (tx_user_base x) - in_wallet s (tx_user_base x) =
      (match ta_side g with Bid => 1 | Ask => -1 end) * log_sum (fun f => fl_qty f * bls m) F /\
    in_wallet s' (tx_user_quote x) - in_wallet s (tx_user_quote x) =
      (match ta_side g with Bid => -1 | Ask => 1 end) * log_sum (log_quote m) F - log_sum (log_rebate m) F.
Proof.
  intros Hr H O1 O2. destruct (take_money _ _ _ _ _ _ Hr H O1 O2) as (o & oracle & w1 & r & Eo & Eor & _ & Hn & _ & M1 & M2).
  destruct (reachable_queue _ Hr) as (cl & ct & P & HI & Hq & _).
  unfold exec in H. destruct (s_closed s && needs_market (IPlaceTake x g)); [discriminate H|]. unfold exec_open in H. unfold exec_logs. cbv zeta in *.
  apply bind_ok in H as (u1 & E1 & H). apply bind_ok in H as (u2 & _ & H). apply bind_ok in H as (u3 & _ & H).
  apply bind_ok in H as (o' & Eo' & H). rewrite Eo in Eo'. injection Eo' as <-. rewrite Eo. cbn [bind ok_or]. unfold lift_s in H. apply bind_ok in H as (s1 & E & H). injection H as <- _.
  apply check_take_ok in E1 as [E1 E2]. destruct (take_types _ _ Eo) as (_ & Es & _). rewrite <- Es in *.
  destruct (take_report _ _ _ _ _ _ _ _ _ HI (order_of_take_sane _ _ E1 Eo) E2 E) as (F & HF & Hp). exists F. split; [exact HF|].
  destruct (Hp _ _ _ Eor Hn) as (P1 & P2 & P3). rewrite M1, M2, <- P1, <- P2, <- P3. destruct (o_side o); lia.
Qed.

(** ** Deposits, settlements, sweeps and delegates *)
Lemma deposit_report e s i s' out : reachable s -> exec e s i = Ok (s', out) ->
  match i with
  | IDeposit u k ub uq _ _ | IRefill u k ub uq _ _ =>
      exists a b q, acct_get k (w_accts (s_w s)) = Some a /\ deposited s k ub uq b q a s' /\
        exec_logs e s i = if (b =? 0) && (q =? 0) then [] else [LDeposit k u b q]
  | _ => True
  end.
Proof.
  intros Hr H. destruct i; try exact I.
  - assert (Ha : exists a, acct_get k (w_accts (s_w s)) = Some a /\ 0 <= base /\ 0 <= quote).
    { pose proof H as H0. unfold exec in H0. destruct (s_closed s && _); [discriminate H0|]. unfold exec_open in H0. cbv zeta in H0.
      apply bind_ok in H0 as (? & E1 & H0). apply bind_ok in H0 as (? & E2 & H0). apply bind_ok in H0 as (? & _ & H0). unfold lift_s in H0. apply bind_ok in H0 as (s1 & E & H0).
      unfold u64_arg in *. apply require_ok in E1. apply require_ok in E2. unfold in_u64, in_range in *.
      unfold deposit_ix in E. cbv zeta in E. do 2 (apply bind_ok in E as (? & _ & E)). apply bind_ok in E as (a & Ea & _). apply acct_load_ok in Ea. exists a. split; [exact Ea|lia]. }
    destruct Ha as (a & Ha & Hb & Hq). destruct (exec_deposit _ _ _ _ _ _ _ _ _ _ _ H Ha) as [_ D]. exists a, base, quote. split; [exact Ha|]. split; [exact D|].
    cbn [exec_logs]. unfold deposit_logs. replace ((0 <? base) || (0 <? quote)) with (negb ((base =? 0) && (quote =? 0))) by lia.
    destruct ((base =? 0) && (quote =? 0)); reflexivity.
  - assert (Ha : exists a, acct_get k (w_accts (s_w s)) = Some a /\
      refill_logs s signer k base quote = deposit_logs signer k (Z.max 0 (base - p_base_free (a_pos a))) (Z.max 0 (quote - p_quote_free (a_pos a)))).
    { pose proof H as H0. unfold exec in H0. destruct (s_closed s && _); [discriminate H0|]. unfold exec_open in H0. cbv zeta in H0.
      do 3 (apply bind_ok in H0 as (? & _ & H0)). unfold lift_s in H0. apply bind_ok in H0 as (s1 & E & H0).
      unfold refill_ix in E. apply bind_ok in E as (a & Ea & E). unfold refill_logs. rewrite Ea. cbn [bind]. apply acct_load_ok in Ea. exists a. split; [exact Ea|].
      apply bind_ok in E as (q1 & X1 & E). rewrite X1. cbn [bind]. apply chk_u64_ok in X1 as [E3 _]. apply bind_ok in E as (b1 & X2 & E). rewrite X2. cbn [bind ok_or]. apply chk_u64_ok in X2 as [E4 _].
      f_equal; lia. }
    destruct Ha as (a & Ha & El). destruct (exec_refill _ _ _ _ _ _ _ _ _ _ _ Hr H Ha) as [_ D].
    exists a, (Z.max 0 (base - p_base_free (a_pos a))), (Z.max 0 (quote - p_quote_free (a_pos a))). split; [exact Ha|]. split; [exact D|].
    cbn [exec_logs]. rewrite El. set (b := Z.max 0 (base - p_base_free (a_pos a))). set (q := Z.max 0 (quote - p_quote_free (a_pos a))). unfold deposit_logs.
    replace ((0 <? b) || (0 <? q)) with (negb ((b =? 0) && (q =? 0))) by lia.
    destruct ((b =? 0) && (q =? 0)); reflexivity.
Qed.

Lemma settle_report e s i k ub uq ref s' out : reachable s -> exec e s i = Ok (s', out) -> settles i k ub uq ref ->
  exists b q r, exec_logs e s i = [LSettle k b q r ref] /\
    let c := m_cfg (w_mkt (s_w s)) in
    transferred ((b, c_base_vault c, ub) :: (q, c_quote_vault c, uq) ::
      match ref with Some rf => [(r, c_quote_vault c, rf)] | None => [] end) (s_tok s) (s_tok s') /\
    m_fees_available (w_mkt (s_w s')) = m_fees_available (w_mkt (s_w s)) + match ref with Some _ => 0 | None => r end.
Proof.
  intros Hr H Hi. destruct (exec_settle _ _ _ _ _ _ _ _ _ H Hi) as (a & Ha & Hc & _).
  pose proof (settle_settlement _ _ _ _ _ _ _ Hr Hc Ha) as [S1 S2 _ _ _ _ _]. cbv zeta in S1.
  exists (p_base_free (a_pos a)), (p_quote_free (a_pos a)), (p_rebates (a_pos a) + leftover (w_mkt (s_w s)) (a_pos a)).
  split; [|split; [exact S1|exact S2]].
  assert (El : exec_logs e s i = settle_logs s k ref) by (destruct Hi as [(u & ->)|(u & ->)]; reflexivity).
  rewrite El. unfold settle_logs. unfold acct_load. rewrite Ha. cbn [bind]. cbv zeta. fold (leftover (w_mkt (s_w s)) (a_pos a)).
  unfold settle_core in Hc. cbv zeta in Hc. apply bind_ok in Hc as (a' & Ea & Hc). apply acct_load_ok in Ea. rewrite Ha in Ea. injection Ea as <-.
  apply bind_ok in Hc as (rb & X1 & _). apply chk_u64_ok in X1 as [X1 X2].
  assert (Ex : rb = p_rebates (a_pos a) + leftover (w_mkt (s_w s)) (a_pos a)).
  { rewrite X1. unfold leftover. destruct ((0 <? maker_fee (w_mkt (s_w s))) && (p_bids_base (a_pos a) =? 0)); reflexivity. }
  rewrite chk_u64_in by (rewrite <- Ex; rewrite X1; exact X2). reflexivity.
Qed.

Lemma sweep_report e s u dest s' out : reachable s -> exec e s (ISweep u dest) = Ok (s', out) ->
  exists n, exec_logs e s (ISweep u dest) = [LSweep n dest] /\
    transferred [(n, c_quote_vault (m_cfg (w_mkt (s_w s))), dest)] (s_tok s) (s_tok s') /\ m_fees_available (w_mkt (s_w s')) = m_fees_available (w_mkt (s_w s)) - n.
Proof.
  intros Hr H. destruct (reachable_inv _ Hr) as (cl & ct & P & HI). pose proof (mk_avail _ (ld_mkt _ _ _ (iv_led _ _ _ _ _ _ HI))) as [Hf _].
  unfold exec in H. destruct (s_closed s && _); [discriminate H|]. unfold exec_open in H. cbv zeta in H. unfold lift_s in H. apply bind_ok in H as (s1 & E & H). injection H as <- _.
  unfold sweep_fees_ix in E. cbv zeta in E. do 3 (apply bind_ok in E as (? & _ & E)). apply bind_ok in E as (t & T & E). injection E as <-. cbn [s_w s_tok].
  exists (m_fees_available (w_mkt (s_w s))). split; [reflexivity|]. split; [|cbn; lia].
  intros v. rewrite (transfer_at _ _ _ _ _ _ v T Hf). destruct (s_tok s v) as [y|]; [|reflexivity]. cbn [option_map]. f_equal. f_equal.
  unfold net. cbn [map fst snd]. unfold sumZ. cbn [fold_left fold_right]. lia.
Qed.

Lemma delegate_report e s u k d s' out : exec e s (ISetDelegate u k d) = Ok (s', out) ->
  exec_logs e s (ISetDelegate u k d) = [LDelegate k d] /\ exists a, acct_get k (w_accts (s_w s')) = Some a /\ a_delegate a = d.
Proof.
  intros H. split; [reflexivity|]. unfold exec in H. destruct (s_closed s && _); [discriminate H|]. unfold exec_open in H. cbv zeta in H.
  unfold lift_w in H. apply bind_ok in H as (w1 & E & H). injection H as <- _. unfold set_delegate_ix in E. apply bind_ok in E as (a & Ea & E). apply acct_load_ok in Ea.
  apply bind_ok in E as (? & _ & E). injection E as <-. cbn [s_w s_set_w w_set_acct w_set_accts w_accts]. rewrite acct_get_set, Z.eqb_refl, Ea. eexists. split; reflexivity.
Qed.
