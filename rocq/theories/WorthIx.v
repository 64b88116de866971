(** What others can do to an account, instruction by instruction. *)
From Coq Require Import ZArith List Bool Lia ZifyBool Permutation.
From Verif Require Import Base Nodes OrderTree BookSide Heap Market OpenOrders Order Book Instructions
  BaseFacts NodesFacts HeapFacts SpecBook SpecFees SpecHeap
  HeapSpecProofs FeeFacts SpecOrder MatchFacts MatchBook OrderFacts PlaceFacts OrderSpecProofs OrderClaims Steps StepFacts
  SpecLedger SpecEvents Ledger LedgerOps LedgerMoves LedgerPlace LedgerOrder LedgerInv SpecSystem SpecControl SystemFacts ConsumeFacts
  TradeFacts SpecExit ExitFacts DeferFacts DeferOrder SpecWorth WorthFacts WorthSteps WorthRuns.
Import ListNotations.
Open Scope Z_scope.

(** ** What is due is what there will be once all events are delivered, with the orders on the book *)
Lemma fold_due w k : forall es a,
  (forall e, In e es -> ev_owner e = k) -> NoDup (flat_map last_key es) ->
  (forall o, In (EOut o) es -> exists oo, order_at a (oe_slot o) = Ok oo /\ oo_side oo = oe_side o /\ event_lock w (EOut o) = oo_locked_price oo) ->
  let x := fold_left (ev_acct (w_mkt w)) es a in
  p_base_free (a_pos x) = p_base_free (a_pos a) + sumZ (map (event_base (w_mkt w)) es) /\
  p_quote_free (a_pos x) = p_quote_free (a_pos a) + sumZ (map (event_quote w) es).
Proof.
  induction es as [|e es IH]; intros a Ho Hn Hs; cbn [fold_left map].
  { change (sumZ []) with 0. cbv zeta. lia. }
  cbv zeta. rewrite !sumZ_cons. destruct (IH (ev_acct (w_mkt w) a e)) as [B Q].
  - intros x Hx. apply Ho. right. exact Hx.
  - cbn [flat_map] in Hn. eapply nodup_app_r. exact Hn.
  - intros o Hx. destruct (Hs o (or_intror Hx)) as (oo & H1 & H2 & H3). exists oo. split; [|split; assumption].
    rewrite <- H1. apply (ev_other_slot (w_mkt w) a e (EOut o)); [|reflexivity]. intros F1 F2.
    apply (keys_apart es e Hn (EOut o) Hx); [|exact F1|exact F2]. rewrite (Ho _ (or_introl eq_refl)), (Ho _ (or_intror Hx)). reflexivity.
  - cbv zeta in B, Q. rewrite B, Q. clear B Q IH.
    assert (G : p_base_free (a_pos (ev_acct (w_mkt w) a e)) = p_base_free (a_pos a) + event_base (w_mkt w) e /\
                p_quote_free (a_pos (ev_acct (w_mkt w) a e)) = p_quote_free (a_pos a) + event_quote w e).
    { destruct e as [f|o]; cbn [ev_acct].
      - assert (Ep : a_pos (filled (w_mkt w) a f) = filled_pos (w_mkt w) (a_pos a) f) by (unfold filled; destruct (fe_maker_out f); reflexivity).
        rewrite Ep. unfold filled_pos, event_base, event_quote. cbv zeta. cbn [ev_side].
        split; [destruct (fill_side f); cbn [p_base_free]; lia|]. destruct (fill_side f); cbn [p_quote_free]; [destruct (fill_pegged f)|]; lia.
      - destruct (Hs o (or_introl eq_refl)) as (oo & H1 & H2 & H3).
        destruct (cancelled_slots (w_mkt w) a (oe_slot o) (oe_qty o) oo H1) as [_ ->]. unfold cancelled_pos, event_base, event_quote. cbv zeta. cbn [ev_side].
        rewrite H2, H3. split; destruct (oe_side o); cbn [p_base_free p_quote_free]; unfold with_fees; lia. }
    lia.
Qed.
Lemma sum_if {A} (p : A -> bool) (g : A -> Z) l : sumZ (map (fun x => if p x then g x else 0) l) = sumZ (map g (filter p l)).
Proof.
  rewrite (sum_filter p) by (intros x ->; reflexivity). apply sum_ext. intros x Hx. apply filter_In in Hx as [_ ->]. reflexivity.
Qed.
Lemma due_fate w db dq cl ct P k a : Inv w db dq cl ct P -> acct_get k (w_accts w) = Some a ->
  exists x, fate w k = Some x /\ base_due k a w = p_base_free (a_pos x) + rest_b k (w_mkt w) (orders w) /\
    quote_due k a w = p_quote_free (a_pos x) + rest_q k (w_mkt w) (orders w).
Proof.
  intros HI Ha. pose proof (iv_rep _ _ _ _ _ _ HI) as HR. pose proof (iv_led _ _ _ _ _ _ HI) as HL. pose proof (rep_waiting _ _ HR) as HW.
  rewrite fate_deliver, deliver_get, Ha. cbn [option_map]. eexists. split; [reflexivity|].
  destruct (fold_due w k (mine k (waiting w)) a) as [B Q].
  - intros e He. apply mine_in in He as [_ E]. exact E.
  - pose proof (led_last_keys _ _ _ HL) as Hn. apply (Permutation_NoDup (Permutation_flat_map last_key (Permutation_sym HW))) in Hn.
    clear - Hn. unfold mine. induction (waiting w) as [|e es IH]; [constructor|]. cbn [flat_map] in Hn. cbn [filter].
    pose proof (nodup_app_r _ _ Hn) as Hr. specialize (IH Hr). destruct (ev_owner e =? k); [|exact IH].
    cbn [flat_map]. unfold last_key at 1. unfold last_key at 1 in Hn. destruct (ev_final e); [|exact IH]. cbn [app] in *. constructor; [|exact IH].
    inversion Hn as [|? ? N _]. intros G. apply N. apply in_flat_map in G as (y & Hy & G). apply filter_In in Hy as [Hy _]. apply in_flat_map. exists y. auto.
  - intros o Ho. apply mine_in in Ho as [Ho Eo]. cbn [ev_owner] in Eo. destruct (event_pieces _ _ _ HR Ho) as (p & Hp & lp & id & ->).
    destruct (ld_back _ _ _ HL _ Hp) as (b & Hb & Hk). cbn [pc_owner] in Hb. rewrite Eo, Ha in Hb. injection Hb as <-.
    destruct (Hk eq_refl) as (oo & H1 & H2). exists oo. cbn [pc_slot] in H1. split; [exact H1|].
    split; [unfold slot_of in H2; cbn [pc_side] in H2; tauto|]. cbn [event_lock]. rewrite Eo, Ha, H1. reflexivity.
  - cbv zeta in B, Q. rewrite B, Q. unfold base_due, quote_due, open_base, open_quote, things_sum. rewrite !sum_if. unfold mine, rest_b, rest_q, order_base, order_quote.
    rewrite !sum_if. split.
    + replace (filter (fun x => (lf_owner (snd x) =? k) && side_eqb Bid Ask) (orders w Bid)) with (@nil (otree_id * leaf)); [cbn [map]; change (sumZ []) with 0; lia|].
      symmetry. induction (orders w Bid) as [|x l IH]; [reflexivity|]. cbn [filter side_eqb]. rewrite andb_false_r. exact IH.
    + replace (filter (fun x => (lf_owner (snd x) =? k) && side_eqb Ask Bid) (orders w Ask)) with (@nil (otree_id * leaf)); [cbn [map]; change (sumZ []) with 0; lia|].
      symmetry. induction (orders w Ask) as [|x l IH]; [reflexivity|]. cbn [filter side_eqb]. rewrite andb_false_r. exact IH.
Qed.

(** ** Elementary steps *)
Lemma orders_positive w P : Rep w P -> Led (w_mkt w) (w_accts w) P -> positive (orders w).
Proof. intros HR HL s t l H. apply (Permutation_in _ (rep_orders _ _ s HR)) in H. exact (pool_positive _ _ _ HL s t l H). Qed.
Lemma orders_distinct w P k : Rep w P -> Led (w_mkt w) (w_accts w) P -> distinct k (orders w).
Proof.
  intros HR HL. pose proof (pool_distinct _ _ _ k HL) as H. unfold distinct, slots in *. eapply Permutation_NoDup; [|exact H].
  apply Permutation_map, perm_filter. unfold pool_of. rewrite (rep_orders _ _ Bid HR), (rep_orders _ _ Ask HR). reflexivity.
Qed.
Lemma tracked_idle w P w' k : Rep w P -> Led (w_mkt w) (w_accts w) P -> m_cfg (w_mkt w') = m_cfg (w_mkt w) -> fate w' k = fate w k ->
  (forall s, w_book w' s = w_book w s) -> tracked k w (orders w) w' (orders w') [].
Proof.
  intros HR HL Ec Ef Eb. apply tracked_same; [exact (orders_positive _ _ HR HL)|exact Ec|exact Ef|].
  intros s. rewrite (orders_kept _ _ _ (Eb s)). reflexivity.
Qed.

Lemma consume_delivers w db dq cl ct P rem slot w' : Inv w db dq cl ct P -> consume_one w rem slot = Ok w' ->
  w' = w \/ exists e h', Permutation (waiting w) (e :: waiting w') /\ w' = w_set_heap (delivered w e) h'.
Proof.
  intros HI H. pose proof HI as [HR HL _ _ _ _ _ _]. apply consume_one_inv in H as (ev & He & H).
  pose proof (at_slot_nonneg _ _ _ He) as Hs.
  destruct (event_piece _ _ _ _ (rp_heap _ _ HR) He) as (L & L1 & L2 & Hh & EL & HPL & P0 & Hev & HP0).
  assert (Hq : forall h' x w1, delete_slot (w_heap w) slot = Ok (h', x) -> Permutation (waiting w) (ev :: waiting (w_set_heap w1 h'))).
  { intros h' x w1 Hd. pose proof Hh as (F & Hr). rewrite EL in Hr. destruct (delete_slot_rep _ _ _ _ _ _ Hr) as (h2 & E2 & Hr2 & _).
    rewrite Hd in E2. injection E2 as <- <-. unfold waiting. rewrite (queue_ok w L Hh). rewrite (queue_ok (w_set_heap w1 h') (L1 ++ L2)) by (eexists; exact Hr2).
    rewrite EL, !map_app. cbn [map fst]. symmetry. apply Permutation_middle. }
  destruct ev as [f|e].
  - destruct (mem_key (fe_maker f) rem); [|left; exact H]. right.
    destruct Hev as (id & HP). destruct H as (a & a' & m' & h' & x & Ha & Hx & Hd & ->).
    pose proof (led_perm _ _ _ _ HP HL) as HL0.
    destruct (led_exec (w_mkt w) (w_accts w) P0 f id a HL0 Ha a' m' Hx) as (_ & _ & -> & ->).
    exists (EFill f), h'. split; [eapply Hq; exact Hd|]. unfold delivered. cbn [ev_owner]. rewrite Ha. reflexivity.
  - destruct (mem_key (oe_owner e) rem); [|left; exact H]. right.
    destruct Hev as (lp & id & HP). destruct H as (a & a' & h' & x & Ha & Hx & Hd & ->).
    pose proof (led_perm _ _ _ _ HP HL) as HL0. pose proof (cancel_cancelled _ _ _ _ _ _ _ _ HL0 Ha Hx) as ->.
    exists (EOut e), h'. split; [eapply Hq; exact Hd|]. unfold delivered. cbn [ev_owner]. rewrite Ha. reflexivity.
Qed.
Lemma consume_tracked w db dq cl ct P rem slot w' k : Inv w db dq cl ct P -> consume_one w rem slot = Ok w' -> tracked k w (orders w) w' (orders w') [].
Proof.
  intros HI H. pose proof HI as [HR HL _ _ _ _ _ _]. destruct (consume_delivers _ _ _ _ _ _ _ _ _ HI H) as [->|(e & h' & HP & ->)].
  - apply (tracked_idle w P w k HR HL); reflexivity.
  - apply (tracked_idle w P _ k HR HL).
    + apply (delivered_cfg w e).
    + set (w' := w_set_heap (delivered w e) h') in *. rewrite !fate_deliver.
      rewrite (deliver_perm _ _ HP). 
      2:{ eapply Permutation_NoDup; [apply (Permutation_flat_map last_key (Permutation_sym (rep_waiting _ _ HR)))|]. exact (led_last_keys _ _ _ HL). }
      rewrite deliver_cons, !deliver_get. reflexivity.
    + intros s. rewrite <- (delivered_book w e s). destruct s; reflexivity.
Qed.

Lemma set_acct_fate w k a j : j <> k -> fate (w_set_acct w k a) j = fate w j.
Proof. intros Hn. apply fate_same; [cbn [w_set_acct w_set_accts w_accts]; apply acct_get_set_other; exact Hn|reflexivity|reflexivity]. Qed.

Lemma wstep_tracked who w db dq w' db' dq' cl ct P k : wstep who w db dq w' db' dq' -> Inv w db dq cl ct P -> who <> Some k ->
  acct_get k (w_accts w) <> None -> exists F, tracked k w (orders w) w' (orders w') F.
Proof.
  intros H HI Hn Hk. pose proof HI as [HR HL _ _ _ _ _ _].
  destruct H as [w db dq o oracle taker owner now limit rem w' r Hso Htk Hl Hnw H Hw|w db dq j a oo ex w' l Ha Hoo Hfr H Hw|w db dq rem slot w' H
    |w db dq j a bf qf pen bt qt Ha _ _ _ _ _ Hw|w db dq bt qt _ _|w db dq j a rf Ha m' _ _ _ _ _ Hw|w db dq _|w db dq j ow dl num Ha Hz Hw|w db dq j a d Ha Hw|w db dq].
  - eapply new_order_tracked; [exact HI|exact Hso|exact Htk|exact H|]. destruct Htk as [E|[E1 E2]]; congruence.
  - exists []. destruct (cancel_led _ _ _ _ _ _ _ _ _ _ _ _ HI Ha Hoo Hfr H) as (P' & HI' & Ow & _ & _ & HP).
    apply book_cancel_inv in H as (b & a0 & a' & Erm & _ & _ & Hc & ->).
    assert (Hj : j <> k) by congruence.
    apply tracked_same; [exact (orders_positive _ _ HR HL)| | |].
    + cbn [w_set_acct w_set_accts w_mkt]. rewrite w_set_book_mkt. reflexivity.
    + rewrite set_acct_fate by congruence. destruct (oo_side oo); reflexivity.
    + intros s. pose proof (iv_rep _ _ _ _ _ _ HI') as HR'. rewrite (perm_filter _ _ _ (rep_orders _ _ s HR)), (perm_filter _ _ _ (rep_orders _ _ s HR')).
      symmetry. rewrite (perm_filter _ _ _ (pleaves_perm s _ _ HP)), pleaves_cons, filter_app. destruct (side_eqb (oo_side oo) s); [|reflexivity].
      cbn [filter]. replace (own k (oo_tree oo, l)) with false; [reflexivity|]. symmetry. apply Z.eqb_neq. cbn [snd]. congruence.
  - exists []. eapply consume_tracked; [exact HI|exact H].
  - exists []. apply (tracked_idle w P _ k HR HL); [reflexivity| |intros []; reflexivity]. rewrite set_acct_fate by congruence. apply fate_same; reflexivity.
  - exists []. apply (tracked_idle w P _ k HR HL); [reflexivity|apply fate_same; reflexivity|intros []; reflexivity].
  - exists []. apply (tracked_idle w P _ k HR HL); [reflexivity| |intros []; reflexivity]. rewrite set_acct_fate by congruence. apply fate_same; reflexivity.
  - exists []. apply (tracked_idle w P _ k HR HL); [reflexivity|apply fate_same; reflexivity|intros []; reflexivity].
  - exists []. apply (tracked_idle w P _ k HR HL); [reflexivity| |intros []; reflexivity]. apply fate_same; [|reflexivity|reflexivity].
    cbn [w_set_accts w_accts acct_get]. destruct (Z.eqb_spec k j) as [E|E]; [congruence|]. reflexivity.
  - exists []. apply (tracked_idle w P _ k HR HL); [reflexivity| |intros []; reflexivity]. apply set_acct_fate. congruence.
  - exists []. apply (tracked_idle w P _ k HR HL); [reflexivity|apply fate_same; reflexivity|intros []; reflexivity].
Qed.

Lemma tracked_known w db dq cl ct P w' L L' F k : Inv w db dq cl ct P -> acct_get k (w_accts w) <> None -> tracked k w L w' L' F -> acct_get k (w_accts w') <> None.
Proof.
  intros HI Hk [_ _ H]. destruct (acct_get k (w_accts w)) as [a|] eqn:E; [|congruence]. destruct (due_fate _ _ _ _ _ _ _ _ HI E) as (x & Hx & _).
  destruct (H x Hx) as (x' & Hx' & _). destruct (fate_acct _ _ _ Hx') as (b & ->). discriminate.
Qed.
Lemma wsteps_tracked who w db dq w' db' dq' cl ct k : wsteps who w db dq w' db' dq' -> who <> Some k -> forall P, Inv w db dq cl ct P ->
  acct_get k (w_accts w) <> None -> exists F, tracked k w (orders w) w' (orders w') F.
Proof.
  intros H Hn. induction H as [w db dq|w db dq w1 db1 dq1 w2 db2 dq2 H1 _ IH]; intros P HI Hk.
  - exists []. destruct HI as [HR HL _ _ _ _ _ _]. apply (tracked_idle w P w k HR HL); reflexivity.
  - destruct (wstep_tracked _ _ _ _ _ _ _ _ _ _ k H1 HI Hn Hk) as (F1 & T1). destruct (wstep_inv _ _ _ _ _ _ _ _ _ _ H1 HI) as (P1 & HI1).
    destruct (IH P1 HI1 (tracked_known _ _ _ _ _ _ _ _ _ _ _ HI Hk T1)) as (F2 & T2). exists (F1 ++ F2).
    destruct HI as [HR HL _ _ _ _ _ _]. eapply tracked_trans; [exact (orders_distinct _ _ k HR HL)|exact T1|exact T2].
Qed.

(** ** Instructions *)
Lemma exec_tracked e s i s' out k : reachable s -> exec e s i = Ok (s', out) -> actor i <> Some k -> acct_get k (w_accts (s_w s)) <> None ->
  exists F, tracked k (s_w s) (orders (s_w s)) (s_w s') (orders (s_w s')) F.
Proof.
  intros Hr H Hn Hk. destruct (reachable_inv _ Hr) as (cl & ct & P & HI). pose proof HI as [HR HL _ _ _ _ _ _].
  pose proof (rep_sound _ _ HR HL) as Hs. pose proof (exec_steps _ _ _ _ _ Hs H) as E.
  destruct i; try (eapply wsteps_tracked; [exact E|exact Hn|exact HI|exact Hk]).
  destruct E as (a & Ha & _ & ->). cbn [actor] in Hn. exists []. apply (tracked_idle _ P _ k HR HL); [reflexivity| |intros []; reflexivity].
  apply fate_same; [|reflexivity|reflexivity]. cbn [w_set_accts w_accts]. apply get_del_other. congruence.
Qed.

Lemma tracked_traded s s' k F a : reachable s -> reachable s' -> acct_get k (w_accts (s_w s)) = Some a ->
  tracked k (s_w s) (orders (s_w s)) (s_w s') (orders (s_w s')) F ->
  exists a', acct_get k (w_accts (s_w s')) = Some a' /\ traded k (s_w s) a (s_w s') a' F.
Proof.
  intros Hr Hr' Ha [Tc Tf Tw]. destruct (reachable_inv _ Hr) as (cl & ct & P & HI). destruct (reachable_inv _ Hr') as (cl' & ct' & P' & HI').
  destruct (due_fate _ _ _ _ _ _ _ _ HI Ha) as (x & Hx & Db & Dq). destruct (Tw x Hx) as (x' & Hx' & B & r & R & Q).
  destruct (fate_acct _ _ _ Hx') as (a' & Ha'). exists a'. split; [exact Ha'|].
  destruct (due_fate _ _ _ _ _ _ _ _ HI' Ha') as (y & Hy & Db' & Dq'). rewrite Hx' in Hy. injection Hy as <-.
  destruct (rest_cfg k (w_mkt (s_w s)) (w_mkt (s_w s')) (orders (s_w s')) Tc) as [E1 E2]. rewrite E1 in Db'. rewrite E2 in Dq'.
  constructor; [exact Tf|lia|]. exists r. split; [exact R|lia].
Qed.
Lemma acts_actor i k : ~ acts_for i k -> actor i <> Some k.
Proof. intros H E. apply H. destruct i; cbn [actor acts_for] in *; congruence. Qed.
Lemma others_tracked k s s' : others k s s' -> reachable s -> acct_get k (w_accts (s_w s)) <> None ->
  reachable s' /\ exists F, tracked k (s_w s) (orders (s_w s)) (s_w s') (orders (s_w s')) F.
Proof.
  induction 1 as [s|e s i s1 out s2 Hn H _ IH]; intros Hr Hk.
  - split; [exact Hr|]. destruct (reachable_inv _ Hr) as (cl & ct & P & HI). exists []. destruct HI as [HR HL _ _ _ _ _ _]. apply (tracked_idle _ P _ k HR HL); reflexivity.
  - destruct (exec_tracked _ _ _ _ _ k Hr H (acts_actor _ _ Hn) Hk) as (F1 & T1). destruct (reachable_inv _ Hr) as (cl & ct & P & HI).
    destruct IH as (Hr2 & F2 & T2).
    + exact (reach_step _ _ _ _ _ Hr H).
    + exact (tracked_known _ _ _ _ _ _ _ _ _ _ _ HI Hk T1).
    + split; [exact Hr2|]. exists (F1 ++ F2). destruct HI as [HR HL _ _ _ _ _ _]. eapply tracked_trans; [exact (orders_distinct _ _ k HR HL)|exact T1|exact T2].
Qed.
Theorem others_only_trade k s s' a : reachable s -> acct_get k (w_accts (s_w s)) = Some a -> others k s s' ->
  exists a' F, acct_get k (w_accts (s_w s')) = Some a' /\ traded k (s_w s) a (s_w s') a' F.
Proof.
  intros Hr Ha H. destruct (others_tracked _ _ _ H Hr ltac:(congruence)) as (Hr' & F & T). destruct (tracked_traded _ _ _ _ _ Hr Hr' Ha T) as (a' & A & B).
  exists a', F. split; [exact A|exact B].
Qed.
Theorem no_orders_safe k s s' a : reachable s -> acct_get k (w_accts (s_w s)) = Some a ->
  (forall sd t l, In (t, l) (orders (s_w s) sd) -> lf_owner l <> k) -> others k s s' ->
  exists a', acct_get k (w_accts (s_w s')) = Some a' /\ base_due k a' (s_w s') = base_due k a (s_w s) /\ quote_due k a' (s_w s') = quote_due k a (s_w s) /\
    (forall sd t l, In (t, l) (orders (s_w s') sd) -> lf_owner l <> k).
Proof.
  intros Hr Ha Hno H. destruct (others_only_trade _ _ _ _ Hr Ha H) as (a' & F & A & [[Of Ol _] B (r & R & Q)]). exists a'. split; [exact A|].
  assert (F = []) as ->.
  { destruct F as [|f F]; [reflexivity|]. exfalso. destruct (Of f (or_introl eq_refl)) as (_ & t & l & Hl & O & _). exact (Hno _ _ _ Hl O). }
  assert (r = 0) as ->. { unfold rounding in R. cbn [filter length] in R. destruct (0 <? _) in R; lia. }
  cbn [map] in B, Q. change (sumZ []) with 0 in B, Q. split; [lia|]. split; [lia|].
  intros sd t l Hl O. destruct (Ol _ _ _ Hl O) as (l0 & Hl0 & E & _). apply (Hno _ _ _ Hl0). rewrite E in O. exact O.
Qed.
