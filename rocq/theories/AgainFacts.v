(** Closed markets, and markets created again at their addresses. *)
From Coq Require Import ZArith List Bool Lia ZifyBool.
From Verif Require Import Base Nodes OrderTree BookSide Heap Market OpenOrders Order Book Instructions
  BaseFacts HeapFacts SpecBook SpecFees SpecOrder MatchFacts OrderFacts PlaceFacts OrderSpecProofs
  Steps StepFacts TokenFacts SpecLedger SpecEvents Ledger LedgerOps LedgerMoves LedgerPlace LedgerOrder LedgerInv SpecSystem SystemFacts Solvency SpecControl ControlFacts LifeFacts IdFacts AuthFacts EndFacts
  SpecCreate CreateFacts SpecSol SolProofs Again SpecAgain.
Import ListNotations.
Open Scope Z_scope.

Lemma acct_del_sub k k' l a : acct_get k' (acct_del k l) = Some a -> In (k', a) l.
Proof.
  induction l as [|[j b] l IH]; cbn [acct_del acct_get]; [discriminate|]. destruct (k =? j).
  - intros H. right. clear IH. induction l as [|[j' b'] l IH]; cbn [acct_get] in H; [discriminate|].
    destruct (Z.eqb_spec k' j') as [->|]; [injection H as ->; left; reflexivity|right; auto].
  - cbn [acct_get]. destruct (Z.eqb_spec k' j) as [->|]; [intros H; injection H as ->; left; reflexivity|intros H; right; auto].
Qed.

(** Market, books and heap are the same, and no account is new. *)
Definition remains (w w' : world) : Prop :=
  w_mkt w' = w_mkt w /\ w_bids w' = w_bids w /\ w_asks w' = w_asks w /\ w_heap w' = w_heap w /\
  forall k a', acct_get k (w_accts w') = Some a' ->
    exists a, acct_get k (w_accts w) = Some a /\ same_holdings a a'.

Lemma remains_same w w' : w' = w -> remains w w'.
Proof. intros ->. unfold remains. do 4 (split; [reflexivity|]). intros k a' H. exists a'. split; [exact H|]. unfold same_holdings. auto. Qed.

Lemma closed_step e s i s' out : reachable s -> s_closed s = true -> exec e s i = Ok (s', out) ->
  s_closed s' = true /\ remains (s_w s) (s_w s').
Proof.
  intros R C H. unfold exec in H. rewrite C in H. cbn [andb] in H.
  destruct i; cbn [needs_market] in H; try discriminate H; unfold exec_open in H; cbv zeta in H.
  - unfold lift_w in H. apply bind_ok in H as (w1 & E & H). injection H as <- _. cbn [s_set_w s_w s_closed]. split; [exact C|].
    unfold close_account_ix in E. apply bind_ok in E as (a & Ea & E). apply bind_ok in E as (? & _ & E). apply bind_ok in E as (? & _ & E). injection E as <-.
    unfold remains. do 4 (split; [reflexivity|]). cbn [w_set_accts w_accts]. intros j a' G. apply acct_del_sub in G.
    destruct (reachable_inv _ R) as (cl & ct & P & HI). exists a'. split; [|unfold same_holdings; auto].
    apply acct_in_get; [exact (ld_keys _ _ _ (iv_led _ _ _ _ _ _ HI))|exact G].
  - unfold lift_w in H. apply bind_ok in H as (w1 & E & H). injection H as <- _. cbn [s_set_w s_w s_closed]. split; [exact C|].
    unfold set_delegate_ix in E. apply bind_ok in E as (a & Ea & E). apply bind_ok in E as (? & _ & E). injection E as <-.
    assert (Ea' : acct_get k (w_accts (s_w s)) = Some a) by (unfold acct_load in Ea; destruct (acct_get k (w_accts (s_w s))); [injection Ea as ->; reflexivity|discriminate Ea]).
    unfold remains. do 4 (split; [reflexivity|]). intros j a' G.
    change (acct_get j (acct_set k (a_set_delegate a delegate) (w_accts (s_w s))) = Some a') in G. rewrite acct_get_set in G.
    destruct (Z.eqb_spec j k) as [->|]; [|exists a'; split; [exact G|unfold same_holdings; auto]].
    rewrite Ea' in G. cbn [option_map] in G. injection G as <-. exists a. split; [exact Ea'|]. unfold same_holdings. auto.
  - repeat (apply bind_ok in H as (? & _ & H)). injection H as <- _. split; [exact C|apply remains_same; reflexivity].
  - repeat (apply bind_ok in H as (? & _ & H)). injection H as <- _. split; [exact C|apply remains_same; reflexivity].
  - repeat (apply bind_ok in H as (? & _ & H)). injection H as <- _. split; [exact C|apply remains_same; reflexivity].
  - repeat (apply bind_ok in H as (? & _ & H)). injection H as <- _. split; [exact C|apply remains_same; reflexivity].
  - repeat (apply bind_ok in H as (? & _ & H)). injection H as <- _. split; [exact C|apply remains_same; reflexivity].
  - repeat (apply bind_ok in H as (? & _ & H)). injection H as <- _. split; [exact C|apply remains_same; reflexivity].
Qed.

Lemma closes_only e s i s' out : exec e s i = Ok (s', out) -> s_closed s = false -> s_closed s' = true -> exists u, i = ICloseMarket u.
Proof.
  intros H C C'. destruct (closes_market i) eqn:E; [|rewrite (exec_closed _ _ _ _ _ H E), C in C'; discriminate C'].
  destruct i; try discriminate E. eexists. reflexivity.
Qed.

Lemma same_orders w w' sd : w_bids w' = w_bids w -> w_asks w' = w_asks w -> orders w' sd = orders w sd.
Proof. intros B A. unfold orders. assert (E : w_book w' sd = w_book w sd) by (destruct sd; [exact B|exact A]). rewrite E. reflexivity. Qed.
Lemma same_waiting w w' : w_heap w' = w_heap w -> waiting w' = waiting w.
Proof. intros E. unfold waiting, queue_of. rewrite E. reflexivity. Qed.
Lemma same_empty a a' : same_holdings a a' -> empty_handed a -> empty_handed a'.
Proof. unfold same_holdings, empty_handed. intros (P & _ & O) H. cbv zeta in *. rewrite P. decompose [and] H. repeat (split; [assumption|]). intros i oo G. rewrite O in G. eauto. Qed.

Lemma closed_rests s : reachable s -> s_closed s = true -> over s.
Proof.
  intros R. induction R as [now t c te s H|e s i s' out R IH H].
  - intros C. pose proof (proj1 (created _ _ _ _ _ H)) as F. rewrite (fm_open _ _ _ F) in C. discriminate C.
  - intros C'. destruct (s_closed s) eqn:C.
    + specialize (IH eq_refl). destruct (closed_step _ _ _ _ _ R C H) as (_ & M & B & A & Q & K). destruct IH as [I1 I2 I3 I4 I5]. split.
      * intros sd. rewrite (same_orders _ _ sd B A). apply I1.
      * rewrite (same_waiting _ _ Q). exact I2.
      * intros k a' G. destruct (K k a' G) as (a & Ga & S). exact (same_empty _ _ S (I3 k a Ga)).
      * rewrite M. exact I4.
      * rewrite M. exact I5.
    + assert (D : exists u, i = ICloseMarket u) by exact (closes_only e s i s' out H C C').
      destruct D as (u & ->). destruct (close_market_ok _ _ _ _ _ R H) as (_ & _ & O & W & K & B & Q & E & _). split; rewrite E; assumption.
Qed.

(** ** Later, and again *)
Lemma goes_on_closed s s' : goes_on s s' -> reachable s -> s_closed s = true ->
  reachable s' /\ s_closed s' = true /\ remains (s_w s) (s_w s').
Proof.
  induction 1 as [s|e s i s1 out s2 H _ IH]; intros R C; [split; [exact R|split; [exact C|apply remains_same; reflexivity]]|].
  destruct (closed_step _ _ _ _ _ R C H) as (C1 & M & B & A & Q & K). destruct (IH (reach_step _ _ _ _ _ R H) C1) as (R2 & C2 & M2 & B2 & A2 & Q2 & K2).
  split; [exact R2|]. split; [exact C2|]. unfold remains. do 4 (split; [congruence|]). intros k a' G. destruct (K2 k a' G) as (a1 & G1 & S1). destruct (K k a1 G1) as (a & Ga & S).
  exists a. split; [exact Ga|]. destruct S as (P & O & T), S1 as (P1 & O1 & T1). split; [congruence|]. split; [congruence|]. intros i0. rewrite T1. apply T.
Qed.

Lemma sum_zero f (l : list (Z * ooa)) : (forall x, In x l -> f (a_pos (snd x)) = 0) -> sumZ (map (fun ka => f (a_pos (snd ka))) l) = 0.
Proof. induction l as [|x l IH]; intros H; [reflexivity|]. cbn [map]. change (f (a_pos (snd x)) + sumZ (map (fun ka => f (a_pos (snd ka))) l) = 0). rewrite (H x (or_introl eq_refl)), IH; [reflexivity|]. intros y Hy. apply H. right. exact Hy. Qed.

Lemma empty_things fo fe w : (forall sd, orders w sd = []) -> waiting w = [] -> things_sum fo fe w = 0.
Proof. intros O W. unfold things_sum. rewrite !O, W. reflexivity. Qed.

Lemma again_ok now s c te s2 : reachable s -> create_again now s c te = Ok s2 ->
  s_closed s = true /\ s_closed s2 = false /\ m_cfg (w_mkt (s_w s2)) = c /\ over s2 /\ backed (s_w s2) /\ solvent s2 /\
  w_accts (s_w s2) = w_accts (s_w s).
Proof.
  intros R H. unfold create_again in H. apply bind_ok in H as (u0 & C & H). apply require_ok in C. apply bind_ok in H as (s1 & E & H). injection H as <-.
  pose proof (closed_rests s R C) as V. pose proof (proj1 (created _ _ _ _ _ E)) as F. pose proof (reach_create _ _ _ _ _ E) as R1.
  pose proof (reachable_backed _ R1) as K1. pose proof (reachable_solvent _ R1) as V1.
  set (w2 := w_set_accts (s_w s1) (w_accts (s_w s))).
  assert (O : forall sd, orders w2 sd = []) by exact (fm_orders _ _ _ F). assert (W : waiting w2 = []) by exact (fm_events _ _ _ F).
  assert (N : map (fun f => f (w_mkt (s_w s1))) [m_seq; m_fees_accrued; m_fees_to_referrers; m_rebates_accrued; m_fees_available;
    m_maker_volume; m_taker_volume_wo_oo; m_base_total; m_quote_total] = repeat 0 9) by exact (fm_counters _ _ _ F).
  cbn [map repeat] in N. injection N as N1 N2 N3 N4 N5 N6 N7 N8 N9.
  pose proof (ov_accts _ V) as Z.
  assert (I : forall x, In x (w_accts (s_w s)) -> empty_handed (snd x)).
  { intros [k a] G. destruct (reachable_inv _ R) as (cl & ct & P & HI). apply (Z k a). apply acct_in_get; [exact (ld_keys _ _ _ (iv_led _ _ _ _ _ _ HI))|exact G]. }
  cbn [s_set_w s_w s_closed]. split; [exact C|]. split; [exact (fm_open _ _ _ F)|]. split; [exact (fm_terms _ _ _ F)|].
  split; [split; [exact O|exact W|exact Z|exact N8|exact N9]|]. split; [|split; [|reflexivity]].
  - fold w2. split.
    + exact (bk_read _ K1).
    + intros sd t l G. rewrite O in G. destruct G.
    + intros ev G. rewrite W in G. destruct G.
    + intros k a i G. unfold occupants. rewrite (empty_things _ _ _ O W). destruct (Z k a G) as (_ & _ & _ & _ & _ & _ & _ & T).
      unfold slot_used. destruct (order_at a i) as [oo|] eqn:Eo; [rewrite (T i oo Eo)|]; reflexivity.
    + intros k a G. unfold lots. rewrite (empty_things _ _ _ O W). destruct (Z k a G) as (T & _). exact T.
    + intros k a G. unfold lots. rewrite (empty_things _ _ _ O W). destruct (Z k a G) as (_ & T & _). exact T.
    + intros k a G. unfold bid_quote. rewrite (empty_things _ _ _ O W). destruct (Z k a G) as (_ & _ & _ & _ & _ & _ & T & _). exact T.
    + intros k a G. unfold fees_to_come. cbv zeta. rewrite (empty_things _ _ _ O W). destruct (Z k a G) as (_ & _ & _ & _ & T & _). lia.
  - split.
    + exact (sv_base _ V1).
    + exact (sv_quote _ V1).
    + cbn [s_w s_set_w]. change (sumZ (map (fun ka => p_base_free (a_pos (snd ka))) (w_accts (s_w s))) <= m_base_total (w_mkt (s_w s1))).
      rewrite (sum_zero p_base_free); [lia|]. intros x1 Hx. destruct (I x1 Hx) as (_ & _ & T & _). exact T.
    + cbn [s_w s_set_w]. change (sumZ (map (fun ka => (fun p => p_quote_free p + p_rebates p + p_locked_fees p) (a_pos (snd ka))) (w_accts (s_w s))) + m_fees_available (w_mkt (s_w s1)) <= m_quote_total (w_mkt (s_w s1))).
      rewrite (sum_zero (fun p => p_quote_free p + p_rebates p + p_locked_fees p)); [lia|]. intros x1 Hx. destruct (I x1 Hx) as (_ & _ & _ & T1 & T2 & T3 & _). lia.
Qed.

Lemma again_vaults now s c te s2 : reachable s -> create_again now s c te = Ok s2 ->
  let old := m_cfg (w_mkt (s_w s)) in
  forall v, v = c_base_vault c \/ v = c_quote_vault c ->
    v <> c_base_vault old /\ v <> c_quote_vault old /\ (exists x, s_tok s2 v = Some x /\ t_amount x = 0).
Proof.
  cbv zeta. intros R H. unfold create_again in H. apply bind_ok in H as (u0 & C & H). apply bind_ok in H as (s1 & E & H). injection H as <-.
  pose proof (reachable_solvent _ R) as V. destruct (sv_base _ V) as (vb & X & _). destruct (sv_quote _ V) as (vq & Y & _).
  pose proof (proj1 (created _ _ _ _ _ E)) as F.
  assert (G : s_tok s (c_base_vault c) = None /\ s_tok s (c_quote_vault c) = None).
  { unfold create_market_ix, i64_arg in E. cbv zeta in E. repeat (apply bind_ok in E as ([] & ? & E)).
    destruct (s_tok s (c_base_vault c)); [discriminate|]. destruct (s_tok s (c_quote_vault c)); [discriminate|]. split; reflexivity. }
  destruct G as (G1 & G2). cbn [s_set_w s_tok]. intros v [-> | ->].
  - split; [congruence|]. split; [congruence|]. eexists. split; [exact (fm_base_vault _ _ _ F)|reflexivity].
  - split; [congruence|]. split; [congruence|]. eexists. split; [exact (fm_quote_vault _ _ _ F)|reflexivity].
Qed.
