(** The events of whole executions. *)
From Coq Require Import ZArith List Bool Lia ZifyBool Permutation.
From Verif Require Import Base Nodes OrderTree BookSide Heap Market OpenOrders Order Book Instructions Logs
  BaseFacts NodesFacts HeapFacts TreeRep TreeFacts TreeOps TreeIter BookSideFacts BookSideOrder SpecBook BookSpecProofs
  SpecHeap HeapSpecProofs SpecFees SpecOrder MatchFacts MatchBook FeeFacts OrderFacts PlaceFacts OrderSpecProofs OrderClaims Steps StepFacts
  SpecLedger SpecEvents Ledger LedgerOps LedgerMoves LedgerPlace LedgerOrder LedgerInv SpecSystem SystemFacts
  ConsumeFacts SpecControl ControlFacts SpecLogs LogFacts LogOrder LogTally LogSteps.
Import ListNotations.
Open Scope Z_scope.

(** ** Since the market was created *)
Lemma emitted_reachable s L : emitted s L -> reachable s.
Proof. induction 1 as [now t c te s H|e s i s' out L _ IH H]; [eapply reach_create; exact H|eapply reach_step; [exact IH|exact H]]. Qed.

Lemma waiting_queue s q : reachable s -> heap_ok (w_heap (s_w s)) q -> waiting_fills (s_w s) = ev_fills (map fst q).
Proof. intros _ Hq. unfold waiting_fills, waiting. rewrite (queue_ok _ _ Hq). reflexivity. Qed.

Record accounted (s : sys) (L : list log) (D M : list fill_event) : Prop := {
  ac_perm : Permutation M (D ++ waiting_fills (s_w s));
  ac_fills : log_fills L = map (report (w_mkt (s_w s))) D;
  ac_seqs : log_seqs L = map fe_seq M;
  ac_volume : m_maker_volume (w_mkt (s_w s)) = fsum (fill_quote (w_mkt (s_w s))) D;
  ac_fees : m_fees_accrued (w_mkt (s_w s)) =
    total_fees anyone L + fsum (fill_fee (w_mkt (s_w s))) D - fsum (fill_rebate (w_mkt (s_w s))) M;
  ac_base : forall sel, total_base sel L = fsum (by_taker sel (fun f => fe_qty f * bls (w_mkt (s_w s)))) M;
  ac_quote : forall sel, total_quote sel L = fsum (by_taker sel (fill_quote (w_mkt (s_w s)))) M;
  ac_paid : forall sel, total_fees sel L <= fsum (by_taker sel (fill_taker_fee (w_mkt (s_w s)))) M <=
    total_fees sel L + fsum (by_taker sel (fun _ => 1)) M }.

Lemma accounted_step s L D M D' M' L' s' q' : accounted s L D M -> heap_ok (w_heap (s_w s)) (queue_of (s_w s)) -> reachable s' ->
  tallied (s_w s) D' M' L' (s_w s') -> heap_ok (w_heap (s_w s')) q' -> accounted s' (L ++ L') (D ++ D') (M ++ M').
Proof.
  intros [A1 A2 A3 A4 A5 A6 A7 A8] Hq Hr' [T1 T2 T3 T4 T5 T6 T7 T8 T9 _] Hq'.
  set (m := w_mkt (s_w s)) in *. set (m' := w_mkt (s_w s')) in *.
  assert (Eb : bls m' = bls m) by (unfold bls; rewrite T1; reflexivity).
  assert (X1 : forall F, fsum (fill_quote m') F = fsum (fill_quote m) F) by (intros F; apply fsum_ext; intros f; apply fill_quote_cfg; exact T1).
  assert (X2 : forall F, fsum (fill_fee m') F = fsum (fill_fee m) F) by (intros F; apply fsum_ext; intros f; apply fill_fee_cfg; exact T1).
  assert (X3 : forall F, fsum (fill_rebate m') F = fsum (fill_rebate m) F) by (intros F; apply fsum_ext; intros f; apply fill_rebate_cfg; exact T1).
  constructor; fold m'.
  - destruct (T2 _ Hq) as (q1 & Hq1 & E). rewrite (waiting_queue s' q1 Hr' Hq1).
    rewrite A1. unfold waiting_fills, waiting. rewrite <- app_assoc, E, app_assoc. apply Permutation_refl.
  - rewrite log_fills_app, map_app, A2, T3. f_equal; apply map_ext; intros f; symmetry; apply report_cfg; exact T1.
  - rewrite log_seqs_app, map_app, A3, T4. reflexivity.
  - rewrite T5, A4, X1, fsum_app. lia.
  - unfold total_fees in *. rewrite T6, A5, totals_app, X2, X3, !fsum_app. lia.
  - intros sel. unfold total_base in *. rewrite totals_app, fsum_app, A6, T7, Eb. reflexivity.
  - intros sel. unfold total_quote in *. rewrite totals_app, fsum_app, A7, T8.
    f_equal; apply by_taker_ext; intros f; symmetry; apply fill_quote_cfg; exact T1.
  - intros sel. unfold total_fees in *. rewrite totals_app, !fsum_app. specialize (A8 sel). specialize (T9 sel).
    rewrite !(by_taker_ext sel (fill_taker_fee m') (fill_taker_fee m)) by (intros f; apply fill_taker_fee_cfg; exact T1). lia.
Qed.

Lemma emitted_accounted s L : emitted s L -> exists D M, accounted s L D M.
Proof.
  intros H. induction H as [now t c te s H|e s i s' out L HL IH H].
  - exists [], []. pose proof (create_market_inv _ _ _ _ _ H) as [HR _ _ _ _ _ _ _]. destruct (rp_heap _ _ HR) as (q & Hq & HP).
    cbn [pevents flat_map] in HP. apply Permutation_sym, Permutation_nil in HP.
    assert (Em : m_maker_volume (w_mkt (s_w s)) = 0 /\ m_fees_accrued (w_mkt (s_w s)) = 0).
    { unfold create_market_ix in H. do 8 (apply bind_ok in H as (? & _ & H)). injection H as <-. split; reflexivity. }
    constructor; try reflexivity.
    + unfold waiting_fills, waiting. rewrite (queue_ok _ _ Hq), HP. constructor.
    + exact (proj1 Em).
    + exact (proj2 Em).
    + intros sel. unfold total_fees, totals, fsum. cbn. lia.
  - destruct IH as (D & M & HA). pose proof (emitted_reachable _ _ HL) as Hr.
    assert (Hr' : reachable s') by (eapply reach_step; [exact Hr|exact H]).
    destruct (reachable_queue _ Hr) as (cl & ct & P & HI & Hq & _). destruct (reachable_queue _ Hr') as (_ & _ & _ & _ & Hq' & _).
    pose proof (exec_tally _ _ _ _ _ (reachable_sound _ Hr) H) as HT.
    assert (G : (exists D' M', tallied (s_w s) D' M' (exec_logs e s i) (s_w s')) \/ exists u k a, i = ICloseAccount u k /\ closes (s_w s) (s_w s') k a).
    { destruct i; try (left; destruct (HT cl ct P HI) as [_ G]; exact G). right. destruct HT as (a & HT). eexists _, _, a. split; [reflexivity|exact HT]. }
    destruct G as [(D' & M' & T)|(u & k & a & -> & Hcl)].
    + exists (D ++ D'), (M ++ M'). eapply accounted_step; eassumption.
    + exists D, M. destruct (closes_tallied _ _ _ _ Hcl) as (E1 & E2 & _). cbn [exec_logs]. rewrite app_nil_r.
      destruct HA as [A1 A2 A3 A4 A5 A6 A7 A8]. constructor; rewrite ?E1; try assumption.
      unfold waiting_fills, waiting, queue_of in *. rewrite E2. exact A1.
Qed.

Lemma log_sum_map g m F : log_sum g (map (report m) F) = fsum (fun f => g (report m f)) F.
Proof. unfold log_sum, fsum. rewrite map_map. reflexivity. Qed.
Lemma fsum_perm g F F' : Permutation F F' -> fsum g F = fsum g F'.
Proof. intros H. unfold fsum. apply sum_perm. apply Permutation_map. exact H. Qed.

Lemma every_match s L : emitted s L ->
  let m := w_mkt (s_w s) in
  Permutation (log_seqs L) (map fl_seq (all_fills s L)) /\
  (forall sel, total_base sel L = log_sum (of_taker sel (fun f => fl_qty f * bls m)) (all_fills s L)) /\
  (forall sel, total_quote sel L = log_sum (of_taker sel (log_quote m)) (all_fills s L)) /\
  m_maker_volume m = log_sum (log_quote m) (log_fills L) /\
  m_fees_accrued m = total_fees anyone L + log_sum fl_maker_fee (log_fills L) - log_sum (log_rebate m) (all_fills s L) /\
  Forall (log_true m) (log_fills L).
Proof.
  intros H. cbv zeta. destruct (emitted_accounted _ _ H) as (D & M & [A1 A2 A3 A4 A5 A6 A7 _]).
  set (m := w_mkt (s_w s)) in *. unfold all_fills. fold m. rewrite A2, <- map_app.
  split; [|split; [|split; [|split; [|split]]]].
  - rewrite A3, map_map. apply (Permutation_map (fun f => fl_seq (report m f))) in A1. exact A1.
  - intros sel. rewrite A6, log_sum_map. exact (fsum_perm (by_taker sel (fun f => fe_qty f * bls m)) _ _ A1).
  - intros sel. rewrite A7, log_sum_map. exact (fsum_perm (by_taker sel (fill_quote m)) _ _ A1).
  - rewrite A4, log_sum_map. reflexivity.
  - rewrite A5, !log_sum_map. rewrite (fsum_perm (fill_rebate m) _ _ A1). reflexivity.
  - apply Forall_forall. intros f Hf. apply in_map_iff in Hf as (f0 & <- & _). split; reflexivity.
Qed.

Lemma fees_stated s L sel : emitted s L ->
  total_fees sel L <= log_sum (of_taker sel fl_taker_fee) (all_fills s L) <=
    total_fees sel L + log_sum (of_taker sel (fun _ => 1)) (all_fills s L).
Proof.
  intros H. destruct (emitted_accounted _ _ H) as (D & M & [A1 A2 _ _ _ _ _ A8]).
  set (m := w_mkt (s_w s)) in *. unfold all_fills. fold m. rewrite A2, <- map_app, !log_sum_map. specialize (A8 sel).
  rewrite (fsum_perm _ _ _ A1), (fsum_perm (by_taker sel (fun _ => 1)) _ _ A1) in A8. exact A8.
Qed.

(** ** One account *)
Lemma exec_reachable e s i s' out : reachable s -> exec e s i = Ok (s', out) -> reachable s'.
Proof. intros Hr H. eapply reach_step; [exact Hr|exact H]. Qed.

Lemma of_maker_sum m k D : log_sum (of_maker k (log_quote m)) (map (report m) D) = fsum (quote_of_maker m k) D.
Proof. rewrite log_sum_map. reflexivity. Qed.

Lemma account_volumes s l L s' k a : emits s l L s' -> reachable s -> (forall u, ~ In (ICloseAccount u k) l) ->
  acct_get k (w_accts (s_w s)) = Some a ->
  exists a', acct_get k (w_accts (s_w s')) = Some a' /\
    p_maker_volume (a_pos a') = p_maker_volume (a_pos a) + log_sum (of_maker k (log_quote (w_mkt (s_w s)))) (log_fills L) /\
    p_taker_volume (a_pos a') = p_taker_volume (a_pos a) + total_quote (Z.eqb k) L.
Proof.
  intros H. revert a. induction H as [s|e s i s1 out l L s2 H HL IH]; intros a Hr Hcl Ha.
  - exists a. split; [exact Ha|]. unfold log_sum, total_quote, totals. cbn. lia.
  - assert (Hr1 : reachable s1) by (eapply exec_reachable; eassumption).
    destruct (reachable_queue _ Hr) as (cl & ct & P & HI & _ & _).
    pose proof (exec_tally _ _ _ _ _ (reachable_sound _ Hr) H) as HT.
    assert (Hcl1 : forall u, ~ In (ICloseAccount u k) l) by (intros u X; exact (Hcl u (or_intror X))).
    assert (G : exists a1, acct_get k (w_accts (s_w s1)) = Some a1 /\ m_cfg (w_mkt (s_w s1)) = m_cfg (w_mkt (s_w s)) /\
      p_maker_volume (a_pos a1) = p_maker_volume (a_pos a) + log_sum (of_maker k (log_quote (w_mkt (s_w s)))) (log_fills (exec_logs e s i)) /\
      p_taker_volume (a_pos a1) = p_taker_volume (a_pos a) + total_quote (Z.eqb k) (exec_logs e s i)).
    { assert (G : (exists D' M', tallied (s_w s) D' M' (exec_logs e s i) (s_w s1)) \/ exists u k a, i = ICloseAccount u k /\ closes (s_w s) (s_w s1) k a).
      { destruct i; try (left; destruct (HT cl ct P HI) as [_ G]; exact G). right. destruct HT as (a0 & HT). eexists _, _, a0. split; [reflexivity|exact HT]. }
      destruct G as [(D' & M' & [T1 _ T3 _ _ _ _ _ _ T10])|(u & k0 & a0 & -> & Hc0)].
      - destruct (T10 k a Ha) as (a1 & Ha1 & V1 & V2). exists a1. split; [exact Ha1|]. split; [exact T1|]. rewrite T3, of_maker_sum. split; assumption.
      - destruct (closes_tallied _ _ _ _ Hc0) as (E1 & _ & E3). exists a. rewrite E3, E1.
        + split; [exact Ha|]. split; [reflexivity|]. unfold log_sum, total_quote, totals. cbn. lia.
        + intros ->. exact (Hcl u (or_introl eq_refl)). }
    destruct G as (a1 & Ha1 & Ec & V1 & V2). destruct (IH a1 Hr1 Hcl1 Ha1) as (a2 & Ha2 & V3 & V4).
    exists a2. split; [exact Ha2|].
    assert (Eq : forall F, log_sum (of_maker k (log_quote (w_mkt (s_w s1)))) F = log_sum (of_maker k (log_quote (w_mkt (s_w s)))) F).
    { intros F. unfold log_sum. f_equal. apply map_ext. intros f. unfold of_maker, log_quote, qls. rewrite Ec. reflexivity. }
    rewrite Eq in V3. unfold total_quote in *. rewrite log_fills_app, totals_app. unfold log_sum in *. rewrite map_app, sumZ_app. lia.
Qed.

(** ** Consuming *)
Lemma delivery_heap h : forall es w, delivery_logs (w_set_heap w h) es = delivery_logs w es.
Proof.
  induction es as [|e r IH]; intros w; [reflexivity|]. cbn [delivery_logs].
  assert (E : delivered (w_set_heap w h) e = w_set_heap (delivered w e) h).
  { unfold delivered. cbn [w_set_heap w_accts w_mkt]. destruct (acct_get (ev_owner e) (w_accts w)); [|reflexivity]. destruct e; reflexivity. }
  rewrite E, IH. destruct e; reflexivity.
Qed.

Lemma consume_one_delivery w cl ct P q rem e slot w' : Inv w 0 0 cl ct P -> heap_ok (w_heap w) q -> In (e, slot) q ->
  consume_one w rem slot = Ok w' -> consume_one_logs w rem slot = if present rem (e, slot) then delivery_logs w [e] else [].
Proof.
  intros HI Hh Hin H. pose proof HI as [HR HL _ _ _ _ _ _]. pose proof (rep_sound _ _ HR HL) as [Hc _].
  pose proof (at_slot_in _ _ _ _ Hh Hin) as He. unfold consume_one_logs. rewrite He, H. unfold present. cbn [fst ev_owner delivery_logs].
  destruct e as [f|o]; cbn [ev_owner]; [|destruct (mem_key _ _); reflexivity].
  destruct (consume_one_ok _ _ _ _ _ rem _ _ HI Hh Hin) as (w1 & H1 & G). rewrite H in H1. injection H1 as <-.
  unfold present in G. cbn [fst ev_owner] in G.
  apply consume_one_inv in H as (ev & Ea & H0). rewrite He in Ea. injection Ea as <-.
  destruct (mem_key (fe_maker f) rem); [|reflexivity].
  destruct H0 as (a & a' & m' & h' & x & Ha & Hx & Hd & Ew).
  destruct (event_piece _ _ _ _ (rp_heap _ _ HR) He) as (Q & Q1 & Q2 & _ & _ & _ & P0 & (id & HP) & _).
  assert (Hk : 0 <= fe_qty f * fe_price f).
  { pose proof (ld_piece _ _ _ HL (PFill f id) (Permutation_in _ (Permutation_sym HP) (or_introl eq_refl))) as K. destruct K as [K1 _ _ _ _ (K6 & _)].
    cbn [pc_qty] in K1. apply Z.mul_nonneg_nonneg; lia. }
  destruct (maker_numbers _ _ _ _ _ Hc Hk Hx) as (_ & _ & _ & _ & _ & _ & _ & N8).
  unfold fill_logs. rewrite N8, app_nil_r. f_equal. destruct G as [_ G]. unfold pos_logs. rewrite G. reflexivity.
Qed.

Lemma consume_loop_delivery : forall xs w cl ct P q rem, Inv w 0 0 cl ct P -> heap_ok (w_heap w) q ->
  NoDup (map snd xs) -> incl xs q -> consume_loop_logs w rem (map snd xs) = delivery_logs w (map fst (filter (present rem) xs)).
Proof.
  induction xs as [|[e slot] xs IH]; intros w cl ct P q rem HI Hh Hnd Hin; [reflexivity|].
  cbn [map snd] in Hnd. apply NoDup_cons_iff in Hnd as [Hns Hnd].
  destruct (consume_one_ok _ _ _ _ _ rem _ _ HI Hh (Hin _ (or_introl eq_refl))) as (w1 & H1 & Hw1).
  destruct (consume_led _ _ _ _ _ _ _ _ _ HI H1) as (P1 & HI1).
  cbn [map snd consume_loop_logs filter]. rewrite H1. cbn [bind ok_or].
  rewrite (consume_one_delivery _ _ _ _ _ _ _ _ _ HI Hh (Hin _ (or_introl eq_refl)) H1).
  destruct (present rem (e, slot)).
  - destruct Hw1 as [Hh1 Ew1]. rewrite (IH w1 cl ct P1 (without [(e, slot)] q) rem HI1 Hh1 Hnd).
    + cbn [map fst delivery_logs]. rewrite app_nil_r. f_equal. rewrite Ew1. apply delivery_heap.
    + intros x Hx. apply without_in. split; [apply Hin; right; exact Hx|]. cbn [map snd]. intros [E|[]].
      apply Hns. rewrite E. apply in_map. exact Hx.
  - subst w1. cbn [app]. exact (IH w cl ct P1 q rem HI1 Hh Hnd (fun x Hx => Hin x (or_intror Hx))).
Qed.

Lemma consume_logs_delivery s limit slots rem : reachable s -> Forall (fun z => 0 <= z < 600) slots ->
  consume_logs (s_w s) limit slots rem =
  delivery_logs (s_w s) (map fst (filter (present rem) (looked_at (queue_of (s_w s)) slots (Z.to_nat (Z.min limit 8))))).
Proof.
  intros Hr Hs. destruct (reachable_queue _ Hr) as (cl & ct & P & HI & Hh & _). set (q := queue_of (s_w s)) in *.
  destruct (targets_entries q slots (Z.min limit 8) (heap_ok_nodup _ _ Hh)) as (xs & E & Hin & Hnd).
  rewrite (targets_looked _ _ _ _ (heap_ok_nodup _ _ Hh) E Hin).
  rewrite <- (consume_loop_delivery xs _ cl ct P q rem HI Hh Hnd Hin).
  unfold consume_logs, slots_to_consume, MAX_EVENTS_CONSUME. rewrite (heap_iter_rep _ _ Hh). cbn [bind]. cbv zeta.
  rewrite (given_in _ _ _ Hh Hs). unfold targets in E. cbn [ok_or]. rewrite E. reflexivity.
Qed.

Lemma consume_reported e s i s' out : reachable s -> is_consume i = true -> exec e s i = Ok (s', out) ->
  exists done, consumes s done s' /\ incl done (queue_of (s_w s)) /\ NoDup (map snd done) /\
    exec_logs e s i = delivery_logs (s_w s) (map fst done).
Proof.
  intros Hr Hi H. assert (Hc : s_closed s = false).
  { unfold exec in H. destruct (s_closed s); [|reflexivity]. destruct i; discriminate. }
  destruct i; try discriminate Hi.
  - pose proof H as H0. unfold exec in H0. rewrite Hc in H0. cbn [andb] in H0. unfold exec_open in H0. cbn beta iota zeta in H0.
    apply bind_ok in H0 as (u & E1 & H0). apply bind_ok in H0 as (u' & E2 & _). apply require_ok in E1. apply require_ok in E2.
    destruct (consume_ix_ok s limit [] rem Hr (Forall_nil _)) as (w' & Hw & G). cbv zeta in G.
    exists (filter (present rem) (looked_at (queue_of (s_w s)) [] (Z.to_nat (Z.min limit 8)))).
    assert (Es : s' = s_set_w s w').
    { unfold exec in H. rewrite Hc in H. cbn [andb] in H. unfold exec_open in H. cbn beta iota zeta in H. unfold u64_arg in H. rewrite E1, E2 in H.
      cbn [require bind] in H. rewrite Hw in H. cbn [lift_w bind] in H. congruence. }
    rewrite Es. destruct G as (G1 & G2 & G3). split; [exact G1|]. split; [exact G2|]. split; [exact G3|].
    cbn [exec_logs]. apply consume_logs_delivery; [exact Hr|constructor].
  - pose proof H as H0. unfold exec in H0. rewrite Hc in H0. cbn [andb] in H0. unfold exec_open in H0. cbn beta iota zeta in H0.
    apply bind_ok in H0 as (u & E1 & H0). apply bind_ok in H0 as (u' & E2 & _). apply require_ok in E1. apply require_ok in E2.
    pose proof (proj1 (slots_range slots) E2) as Hs.
    destruct (consume_ix_ok s (Z.of_nat (length slots)) slots rem Hr Hs) as (w' & Hw & G). cbv zeta in G.
    exists (filter (present rem) (looked_at (queue_of (s_w s)) slots (Z.to_nat (Z.min (Z.of_nat (length slots)) 8)))).
    assert (Es : s' = s_set_w s w').
    { unfold exec in H. rewrite Hc in H. cbn [andb] in H. unfold exec_open in H. cbn beta iota zeta in H. rewrite E1, E2 in H.
      cbn [require bind] in H. rewrite Hw in H. cbn [lift_w bind] in H. congruence. }
    rewrite Es. destruct G as (G1 & G2 & G3). split; [exact G1|]. split; [exact G2|]. split; [exact G3|].
    cbn [exec_logs]. apply consume_logs_delivery; [exact Hr|exact Hs].
Qed.
