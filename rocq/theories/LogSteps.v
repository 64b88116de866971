(** The events of instructions add up. *)
From Coq Require Import ZArith List Bool Lia ZifyBool Permutation.
From Verif Require Import Base Nodes OrderTree BookSide Heap Market OpenOrders Order Book Instructions Logs
  BaseFacts NodesFacts HeapFacts TreeRep TreeFacts TreeOps TreeIter BookSideFacts BookSideOrder SpecBook BookSpecProofs
  SpecHeap HeapSpecProofs SpecFees SpecOrder MatchFacts MatchBook FeeFacts OrderFacts PlaceFacts OrderSpecProofs OrderClaims Steps StepFacts
  SpecLedger SpecEvents Ledger LedgerOps LedgerMoves LedgerPlace LedgerOrder LedgerInv SpecSystem SystemFacts
  ConsumeFacts SpecControl ControlFacts SpecLogs LogFacts LogOrder LogTally.
Import ListNotations.
Open Scope Z_scope.

Definition tally (w : world) (db dq : Z) (L : list log) (w' : world) (db' dq' : Z) : Prop :=
  forall cl ct P, Inv w db dq cl ct P -> (exists P', Inv w' db' dq' cl ct P') /\ exists D M, tallied w D M L w'.

Lemma tally_trans w db dq L w1 db1 dq1 L' w2 db2 dq2 : tally w db dq L w1 db1 dq1 -> tally w1 db1 dq1 L' w2 db2 dq2 ->
  tally w db dq (L ++ L') w2 db2 dq2.
Proof.
  intros H1 H2 cl ct P HI. destruct (H1 cl ct P HI) as ((P1 & I1) & D & M & T1). destruct (H2 cl ct P1 I1) as (I2 & D' & M' & T2).
  split; [exact I2|]. exists (D ++ D'), (M ++ M'). eapply tallied_trans; eassumption.
Qed.
Lemma tally_calm who w db dq w' db' dq' : wsteps who w db dq w' db' dq' -> calm w w' -> tally w db dq [] w' db' dq'.
Proof.
  intros Hs Hc cl ct P HI. split; [exact (wsteps_inv _ _ _ _ _ _ _ _ _ Hs P HI)|]. exists [], []. apply calm_tallied. exact Hc.
Qed.
Lemma tally_place who w db dq o oracle taker owner now limit rem w' r :
  sane_order o -> taker = Some owner \/ (taker = None /\ acct_get owner (w_accts w) = None) ->
  0 <= limit -> 0 <= now -> new_order w o oracle taker owner now limit rem = Ok (w', r) -> taker = who ->
  tally w db dq (order_logs w o oracle taker owner now limit rem) w' (db + owed_base o taker r) (dq + owed_quote o taker r).
Proof.
  intros Ho Ht Hl Hn H Hw cl ct P HI. split.
  - exact (wstep_inv _ _ _ _ _ _ _ _ _ _ (ws_place who w db dq o oracle taker owner now limit rem w' r Ho Ht Hl Hn H Hw) HI).
  - destruct (order_tallied _ _ _ _ _ _ _ _ _ _ _ _ _ _ _ HI Ho Ht H) as (items & acts & gone & put & D & _ & T & _).
    exists D. eexists. exact T.
Qed.

Lemma tally_consume w db dq rem slot w' : consume_one w rem slot = Ok w' -> tally w db dq (consume_one_logs w rem slot) w' db dq.
Proof.
  intros H cl ct P HI. split; [exact (wstep_inv _ _ _ _ _ _ _ _ _ _ (ws_consume None w db dq rem slot w' H) HI)|].
  pose proof HI as [HR HL _ _ _ _ _ _]. pose proof (rep_sound _ _ HR HL) as [Hc _].
  unfold consume_one_logs. rewrite H. pose proof H as H0. apply consume_one_inv in H0 as (ev & Ea & H0). rewrite Ea.
  destruct (event_piece _ _ _ _ (rp_heap _ _ HR) Ea) as (Q & Q1 & Q2 & Hh & EQ & _ & P0 & HP & _).
  destruct ev as [f|e].
  - destruct (mem_key (fe_maker f) rem); [|subst; exists [], []; apply calm_tallied, calm_refl].
    destruct H0 as (a & a' & m' & h' & x & Ha & Hx & Hd & ->). destruct HP as (id & HP).
    assert (Hk : 0 <= fe_qty f * fe_price f).
    { pose proof (ld_piece _ _ _ HL (PFill f id) (Permutation_in _ (Permutation_sym HP) (or_introl eq_refl))) as K. destruct K as [K1 _ _ _ _ (K6 & _)].
      cbn [pc_qty] in K1. apply Z.mul_nonneg_nonneg; lia. }
    destruct (maker_numbers _ _ _ _ _ Hc Hk Hx) as (_ & N2 & _ & N4 & N5 & N6 & N7 & N8).
    exists [f], []. destruct (fill_logs_facts w f (w_set_heap (w_set_acct (w_set_mkt w m') (fe_maker f) a') h')) as (F1 & F2 & F3).
    constructor; cbn [w_set_heap w_set_acct w_set_accts w_set_mkt w_mkt w_heap w_accts].
    + exact N2.
    + intros q Hq. destruct (delete_slot_ok _ _ _ _ _ Hq (at_slot_nonneg _ _ _ Ea) Hd) as (M1 & M2 & EM & Hok).
      exists (M1 ++ M2). split; [exact Hok|]. rewrite app_nil_r, EM, !map_app, !ev_fills_app. cbn [map fst].
      assert (Ex : x = EFill f).
      { pose proof (at_slot_in _ _ slot x Hq) as X. rewrite X in Ea; [congruence|]. rewrite EM. apply in_or_app. right. left. reflexivity. }
      rewrite Ex. cbn [ev_fills flat_map app]. apply Permutation_sym, Permutation_middle.
    + rewrite F1, N8. reflexivity.
    + exact F2.
    + rewrite N4. unfold fsum. cbn [map sumZ fold_right]. lia.
    + unfold total_fees. rewrite N5, F3. unfold fsum. cbn [map sumZ fold_right]. lia.
    + intros sel. apply F3.
    + intros sel. apply F3.
    + intros sel. unfold total_fees. rewrite F3. unfold fsum. cbn. lia.
    + intros k. unfold total_quote. rewrite F3. pose proof (vols_set k w m' (fe_maker f) a a' (fill_quote (w_mkt w) f) 0 Ha N6 ltac:(lia)) as V.
      unfold fsum. cbn [map sumZ fold_right]. rewrite Z.add_0_r. unfold quote_of_maker. destruct (fe_maker f =? k); exact V.
  - destruct (mem_key (oe_owner e) rem); [|subst; exists [], []; apply calm_tallied, calm_refl].
    destruct H0 as (a & a' & h' & x & Ha & Hx & Hd & ->). exists [], []. apply calm_tallied.
    apply cancel_vols in Hx as [X1 X2]. constructor; try reflexivity.
    + intros k. pose proof (vols_set0 k w (oe_owner e) a a' Ha X1 X2) as V. exact V.
    + intros q Hq. cbn [w_set_heap w_heap]. destruct (delete_slot_ok _ _ _ _ _ Hq (at_slot_nonneg _ _ _ Ea) Hd) as (M1 & M2 & EM & Hok).
      exists (M1 ++ M2). split; [exact Hok|]. rewrite EM, !map_app, !ev_fills_app. cbn [map fst].
      assert (Ex : x = EOut e).
      { pose proof (at_slot_in _ _ slot x Hq) as X. rewrite X in Ea; [congruence|]. rewrite EM. apply in_or_app. right. left. reflexivity. }
      rewrite Ex. reflexivity.
Qed.

(** ** Steps without fills *)
Lemma calm_set w m k a p : acct_get k (w_accts w) = Some a -> m_cfg m = m_cfg (w_mkt w) -> m_maker_volume m = m_maker_volume (w_mkt w) ->
  m_fees_accrued m = m_fees_accrued (w_mkt w) ->
  p_maker_volume p = p_maker_volume (a_pos a) -> p_taker_volume p = p_taker_volume (a_pos a) ->
  calm w (w_set_acct (w_set_mkt w m) k (a_set_pos a p)).
Proof.
  intros Ha E1 E2 E3 E4 E5. eapply calm_trans; [apply (calm_mkt w m E1 E2 E3)|]. eapply calm_acct; [exact Ha|exact E4|exact E5].
Qed.
Lemma calm_cancel w k id s t ex w' l : book_cancel_order w k id s t ex = Ok (w', l) -> calm w w'.
Proof.
  intros H. apply book_cancel_inv in H as (b & a & a' & _ & _ & Ha & Hx & ->). apply cancel_vols in Hx as [X1 X2].
  eapply calm_trans; [apply (calm_book w s b)|]. eapply calm_acct; [rewrite w_set_book_accts; exact Ha|exact X1|exact X2].
Qed.
Lemma calm_cancel_all n : forall i w k limit total so co w' q, cancel_all_loop n i w k limit total so co = Ok (w', q) -> calm w w'.
Proof.
  induction n as [|n IH]; intros i w k limit total so co w' q H; cbn [cancel_all_loop] in H.
  - injection H as <- _. apply calm_refl.
  - apply bind_ok in H as (a & Ea & H). apply bind_ok in H as (oo & Eo & H). cbv zeta in H.
    destruct (oo_free oo) eqn:Efr; [eapply IH; exact H|].
    destruct (match so with Some s => negb (side_eqb s (oo_side oo)) | None => false end); [eapply IH; exact H|].
    destruct (match co with Some c => negb (c =? oo_client_id oo) | None => false end); [eapply IH; exact H|].
    destruct (limit =? 0); [injection H as <- _; apply calm_refl|].
    destruct (book_cancel_order w k (oo_id oo) (oo_side oo) (oo_tree oo) None) as [[w1 l]|e] eqn:Ec.
    + apply bind_ok in H as (tot & _ & H). eapply calm_trans; [eapply calm_cancel; exact Ec|eapply IH; exact H].
    + destruct e; try discriminate H. eapply IH; exact H.
Qed.
Lemma calm_cancel_orders w k limit so co w' q : cancel_all_orders w k limit so co = Ok (w', q) -> calm w w'.
Proof. unfold cancel_all_orders. apply calm_cancel_all. Qed.

Lemma calm_lock w k s r grew w' d : lock_funds w k s r grew = Ok (w', d) -> calm w w'.
Proof.
  intros H. unfold lock_funds in H. apply bind_ok in H as (a & Ea & H). apply acct_load_ok in Ea.
  cbv zeta in H.
  apply bind_ok in H as ([[m' p'] dd] & E & H). apply bind_ok in H as (p'' & E2 & H). injection H as <- _.
  assert (G : m_cfg m' = m_cfg (w_mkt w) /\ m_maker_volume m' = m_maker_volume (w_mkt w) /\ m_fees_accrued m' = m_fees_accrued (w_mkt w) /\
    p_maker_volume p' = p_maker_volume (a_pos a) /\ p_taker_volume p' = p_taker_volume (a_pos a)).
  { destruct s; repeat (apply bind_ok in E as (? & _ & E)); injection E as <- <- _; repeat split; reflexivity. }
  destruct G as (G1 & G2 & G3 & G4 & G5).
  apply calm_set; try assumption.
  - destruct grew; [apply bind_ok in E2 as (n & _ & E2)|]; injection E2 as <-; exact G4.
  - destruct grew; [apply bind_ok in E2 as (n & _ & E2)|]; injection E2 as <-; exact G5.
Qed.
Lemma calm_deposit e s signer k ub uq base quote s' : deposit_ix e s signer k ub uq base quote = Ok s' -> calm (s_w s) (s_w s').
Proof.
  intros H. unfold deposit_ix in H. cbv zeta in H. apply bind_ok in H as (u1 & _ & H). apply bind_ok in H as (u2 & _ & H).
  apply bind_ok in H as (a & Ea & H). apply acct_load_ok in Ea. do 7 (apply bind_ok in H as (? & _ & H)).
  injection H as <-. cbn [s_w]. apply calm_set; try reflexivity. exact Ea.
Qed.
Lemma calm_settle s k ub uq ref s' : settle_core s k ub uq ref = Ok s' -> calm (s_w s) (s_w s').
Proof.
  intros H. unfold settle_core in H. cbv zeta in H. apply bind_ok in H as (a & Ea & H). apply acct_load_ok in Ea.
  apply bind_ok in H as (reb & _ & H). apply bind_ok in H as (m1 & X2 & H). do 7 (apply bind_ok in H as (? & _ & H)).
  injection H as <-. cbn [s_w].
  assert (G : m_cfg m1 = m_cfg (w_mkt (s_w s)) /\ m_maker_volume m1 = m_maker_volume (w_mkt (s_w s)) /\ m_fees_accrued m1 = m_fees_accrued (w_mkt (s_w s))).
  { destruct ref; repeat (apply bind_ok in X2 as (? & _ & X2)); injection X2 as <-; repeat split; reflexivity. }
  destruct G as (G1 & G2 & G3).
  apply calm_set; try assumption; destruct (_ && _); reflexivity.
Qed.

(** ** Instructions *)
Lemma tally_nil w db dq : tally w db dq [] w db dq.
Proof. apply (tally_calm None); [constructor|apply calm_refl]. Qed.

Lemma place_tally e s x o limit s' id : params_sane (o_params o) -> 0 <= limit ->
  place_order_ix e s x o limit = Ok (s', id) -> tally (s_w s) 0 0 (place_logs e s x o limit) (s_w s') 0 0.
Proof.
  intros Hp Hl H. unfold place_order_ix in H. unfold place_logs.
  apply bind_ok in H as (u1 & E1 & H). apply require_ok in E1. apply bind_ok in H as (u2 & E2 & H). apply require_ok in E2.
  cbv zeta in *. apply bind_ok in H as (u3 & _ & H). apply bind_ok in H as (u4 & _ & H).
  apply bind_ok in H as (now & En & H). rewrite En. apply now_u64_ok in En. apply bind_ok in H as (oracle & Eor & H). rewrite Eor. cbn [bind ok_or].
  apply bind_ok in H as ([w1 r] & Eo & H). apply bind_ok in H as ([w2 d] & Ek & H).
  apply bind_ok in H as (t & _ & H). injection H as <- _. cbn [s_w].
  rewrite <- (app_nil_r (order_logs _ _ _ _ _ _ _ _)). eapply tally_trans.
  - eapply (tally_place _ _ 0 0 o); [constructor; [lia|lia|exact Hp]|left; reflexivity|exact Hl|exact En|exact Eo|reflexivity].
  - eapply tally_calm; [|eapply calm_lock; exact Ek]. eapply wsteps_one; [|reflexivity|reflexivity].
    eapply lock_funds_steps; [exact Ek| |]; unfold owed_base, owed_quote; destruct (o_side o); lia.
Qed.

Lemma edit_tally e s x cid expected o limit s' id : params_sane (o_params o) -> 0 <= limit ->
  edit_order_ix e s x cid expected o limit = Ok (s', id) -> tally (s_w s) 0 0 (edit_logs e s x cid expected o limit) (s_w s') 0 0.
Proof.
  intros Hp Hl H. unfold edit_order_ix in H. unfold edit_logs. apply bind_ok in H as (u1 & _ & H). apply bind_ok in H as ([w q] & E & H).
  rewrite E. cbn [bind]. pose proof (calm_cancel_orders _ _ _ _ _ _ _ E) as Hcalm. apply cancel_orders_steps in E. cbv zeta in H.
  apply bind_ok in H as (f & Ef & H). rewrite Ef. cbn [bind].
  match type of H with (if ?c then _ else _) = _ => destruct c end.
  - apply bind_ok in H as (mb & Em & H). rewrite Em. cbn [bind ok_or]. apply place_tally in H; [|exact Hp|exact Hl].
    rewrite <- (app_nil_l (place_logs _ _ _ _ _)). eapply tally_trans; [eapply tally_calm; [exact E|exact Hcalm]|exact H].
  - injection H as <- _. cbn [ok_or s_set_w s_w]. eapply tally_calm; [exact E|exact Hcalm].
Qed.

Lemma take_tally e s x o limit s' : params_sane (o_params o) -> 0 <= limit ->
  place_take_ix e s x o limit = Ok s' -> tally (s_w s) 0 0 (take_logs e s x o limit) (s_w s') 0 0.
Proof.
  intros Hp Hl H. unfold place_take_ix in H. unfold take_logs.
  apply bind_ok in H as (u1 & E1 & H). apply require_ok in E1. apply bind_ok in H as (u2 & E2 & H). apply require_ok in E2.
  cbv zeta in *. apply bind_ok in H as (u3 & _ & H).
  apply bind_ok in H as (now & En & H). rewrite En. apply now_u64_ok in En. apply bind_ok in H as (oracle & Eor & H). rewrite Eor. cbn [bind ok_or].
  apply bind_ok in H as (u5 & E5 & H). apply require_ok in E5.
  apply bind_ok in H as ([w1 r] & Eo & H). apply bind_ok in H as (reb & Er & H). apply chk_u64_ok in Er as [-> Er].
  assert (Hn : acct_get (tx_signer x) (w_accts (s_w s)) = None) by (destruct (acct_get (tx_signer x) (w_accts (s_w s))); [discriminate E5|reflexivity]).
  rewrite <- (app_nil_r (order_logs _ _ _ _ _ _ _ _)). eapply tally_trans.
  { eapply (tally_place _ _ 0 0 o); [constructor; [lia|lia|exact Hp]|right; split; [reflexivity|exact Hn]|exact Hl|exact En|exact Eo|reflexivity]. }
  destruct (o_side o) eqn:Es.
  - apply bind_ok in H as (q & X1 & H). apply chk_u64_ok in X1 as [-> X1].
    apply bind_ok in H as (bt & X2 & H). apply chk_u64_ok in X2 as [-> X2].
    apply bind_ok in H as (qt & X3 & H). apply chk_u64_ok in X3 as [-> X3].
    apply bind_ok in H as (t1 & _ & H). apply bind_ok in H as (t2 & _ & H). injection H as <-. cbn [s_w].
    apply (tally_calm None); [|apply calm_mkt; reflexivity].
    eapply wsteps_one; [apply ws_totals; [exact X2|exact X3]| |]; unfold owed_base, owed_quote; rewrite Es; lia.
  - apply bind_ok in H as (q & X1 & H). apply chk_u64_ok in X1 as [-> X1].
    apply bind_ok in H as (bt & X2 & H). apply chk_u64_ok in X2 as [-> X2].
    apply bind_ok in H as (qt & X3 & H). apply chk_u64_ok in X3 as [-> X3].
    apply bind_ok in H as (t1 & _ & H). apply bind_ok in H as (t2 & _ & H). injection H as <-. cbn [s_w].
    apply (tally_calm None); [|apply calm_mkt; reflexivity].
    eapply wsteps_one; [apply ws_totals; [exact X2|exact X3]| |]; unfold owed_base, owed_quote; rewrite Es; lia.
Qed.

Lemma multi_one_tally w x ub uq oracle now limit o ba qa w' ba' qa' id :
  world_sound w -> params_sane (o_params o) -> 0 <= limit -> 0 <= now ->
  multi_one w x ub uq oracle now limit o ba qa = Ok (w', ba', qa', id) ->
  exists o', multi_order w x ub uq o ba qa = Ok o' /\
    tally w ba qa (order_logs w o' oracle (Some (mx_acct x)) (mx_acct x) now limit (mx_rem x)) w' ba' qa'.
Proof.
  intros [Hc Hs] Hp Hl Hn H. unfold multi_one in H. unfold multi_order.
  apply bind_ok in H as (capb & E1 & H). rewrite E1. cbn [bind]. apply max_base_lots_nonneg in E1; [|exact Hc].
  apply bind_ok in H as (u2 & E2 & H). apply require_ok in E2.
  apply bind_ok in H as (a & Ea & H). rewrite Ea. cbn [bind]. apply bind_ok in H as (o' & Eo & H). exists o'. split; [exact Eo|].
  pose proof (cs_bls _ Hc) as B1. pose proof (cs_qls _ Hc) as B2. unfold i64_max in B1, B2.
  assert (G : sane_order o' /\ o_side o' = o_side o).
  { destruct (o_side o) eqn:Es.
    - apply bind_ok in Eo as (y & X & Eo). apply bind_ok in Eo as (av & X1 & Eo). apply chk_u64_ok in X1 as [-> X1].
      apply bind_ok in Eo as (l & X2 & Eo). apply max_lots_nonneg in X2; [|exact B2|lia]. injection Eo as <-.
      split; [constructor; cbn [o_max_base o_max_quote o_params]; [lia|lia|exact Hp]|first [reflexivity|exact Es]].
    - apply bind_ok in Eo as (y & X & Eo). apply bind_ok in Eo as (av & X1 & Eo). apply chk_u64_ok in X1 as [-> X1].
      apply bind_ok in Eo as (l & X2 & Eo). apply max_lots_nonneg in X2; [|exact B1|lia]. injection Eo as <-.
      split; [constructor; cbn [o_set_max_base o_max_base o_max_quote o_params]; [lia|lia|exact Hp]|exact Es]. }
  destruct G as [Go Es']. apply bind_ok in H as ([w1 r] & En & H).
  pose proof (tally_place (Some (mx_acct x)) w ba qa o' oracle (Some (mx_acct x)) (mx_acct x) now limit (mx_rem x) w1 r Go (or_introl eq_refl) Hl Hn En eq_refl) as G.
  unfold owed_base, owed_quote in G. rewrite Es' in G.
  destruct (o_side o) eqn:Es.
  - do 3 (let X := fresh in apply bind_ok in H as (? & X & H); apply chk_u64_ok in X as [-> ?]).
    apply bind_ok in H as (u5 & X & H). injection H as <- <- <- _. rewrite Z.add_0_r in G. exact G.
  - apply bind_ok in H as (x1 & X & H). apply chk_u64_ok in X as [-> _].
    apply bind_ok in H as (u5 & X & H). injection H as <- <- <- _. rewrite Z.add_0_r in G. exact G.
Qed.

Lemma multi_loop_tally os : forall w x ub uq oracle now limit ba qa w' ba' qa' ids,
  world_sound w -> Forall (fun o => params_sane (o_params o)) os -> 0 <= limit -> 0 <= now ->
  multi_loop w x ub uq oracle now limit os ba qa = Ok (w', ba', qa', ids) ->
  tally w ba qa (multi_loop_logs w x ub uq oracle now limit os ba qa) w' ba' qa'.
Proof.
  induction os as [|o r IH]; intros w x ub uq oracle now limit ba qa w' ba' qa' ids Hs Ho Hl Hn H; cbn [multi_loop multi_loop_logs] in *.
  - injection H as <- <- <- _. apply tally_nil.
  - apply bind_ok in H as ([[[w1 b1] q1] i1] & E & H). inversion Ho as [|o0 r0 Ho1 Ho2]; subst.
    destruct (multi_one_tally _ _ _ _ _ _ _ _ _ _ _ _ _ _ Hs Ho1 Hl Hn E) as (o' & Eo & T). rewrite Eo, E. cbn [bind ok_or].
    apply multi_one_steps in E; [|exact Hs|exact Ho1|exact Hl|exact Hn].
    apply bind_ok in H as ([[[w2 b2] q2] i2] & E2 & H). injection H as <- <- <- _.
    eapply tally_trans; [exact T|]. eapply IH; [eapply wstep_sound; [exact E|exact Hs]|exact Ho2|exact Hl|exact Hn|exact E2].
Qed.

Lemma multi_tally e s x cancel os limit s' ids : world_sound (s_w s) ->
  Forall (fun o => params_sane (o_params o)) os -> 0 <= limit ->
  multi_ix e s x cancel os limit = Ok (s', ids) -> tally (s_w s) 0 0 (multi_logs e s x cancel os limit) (s_w s') 0 0.
Proof.
  intros Hs Ho Hl H. unfold multi_ix in H. unfold multi_logs. cbv zeta in *. apply bind_ok in H as (u1 & _ & H).
  apply bind_ok in H as (now & En & H). rewrite En. apply now_u64_ok in En. apply bind_ok in H as (oracle & Eor & H). rewrite Eor.
  apply bind_ok in H as (w0 & E0 & H). rewrite E0. cbn [bind].
  assert (S0 : wsteps (Some (mx_acct x)) (s_w s) 0 0 w0 0 0 /\ calm (s_w s) w0).
  { destruct cancel; [|injection E0 as <-; split; [constructor|apply calm_refl]]. apply bind_ok in E0 as ([w' q] & E1 & E0). injection E0 as <-.
    split; [eapply cancel_orders_steps|eapply calm_cancel_orders]; exact E1. }
  destruct S0 as [S0 C0].
  apply bind_ok in H as (ub & Eub & H). rewrite Eub. apply bind_ok in H as (uq & Euq & H). rewrite Euq. cbn [bind ok_or].
  apply bind_ok in H as ([[[w1 ba] qa] is] & E1 & H).
  apply multi_loop_tally in E1; [|eapply wsteps_sound; [exact S0|exact Hs]|exact Ho|exact Hl|exact En].
  apply bind_ok in H as (a & Ea & H). apply acct_load_ok in Ea.
  apply bind_ok in H as (db & X1 & H). apply chk_u64_ok in X1 as [-> X1].
  apply bind_ok in H as (dq & X2 & H). apply chk_u64_ok in X2 as [-> X2].
  apply bind_ok in H as (fb & X3 & H). apply chk_u64_ok in X3 as [-> X3].
  apply bind_ok in H as (fq & X4 & H). apply chk_u64_ok in X4 as [-> X4].
  apply bind_ok in H as (bt & X5 & H). apply chk_u64_ok in X5 as [-> X5].
  apply bind_ok in H as (qt & X6 & H). apply chk_u64_ok in X6 as [-> X6].
  apply bind_ok in H as (p2 & E2 & H). apply bind_ok in H as (t1 & _ & H). apply bind_ok in H as (t2 & _ & H). injection H as <- _.
  cbn [s_w].
  set (LL := multi_loop_logs _ _ _ _ _ _ _ _ _ _) in *. rewrite <- (app_nil_l LL). eapply tally_trans; [eapply tally_calm; [exact S0|exact C0]|].
  rewrite <- (app_nil_r LL). eapply tally_trans; [exact E1|]. clear LL E1.
  set (lb := Z.min ba (p_base_free (a_pos a))) in *. set (lq := Z.min qa (p_quote_free (a_pos a))) in *.
  set (p1 := p_set_quote_free (p_set_base_free (a_pos a) (p_base_free (a_pos a) - lb)) (p_quote_free (a_pos a) - lq)) in *.
  assert (Hp : exists pen, (u64_ok pen \/ pen = p_penalty (a_pos a)) /\ p2 = p_set_penalty p1 pen).
  { match type of E2 with (if ?c then _ else _) = _ => destruct c end.
    - apply bind_ok in E2 as (n & E2 & E3). apply chk_u64_ok in E2 as [-> R]. injection E3 as <-. eexists. split; [left; exact R|reflexivity].
    - injection E2 as <-. exists (p_penalty (a_pos a)). split; [right; reflexivity|reflexivity]. }
  destruct Hp as (pen & Rpen & ->).
  eapply tally_calm; [eapply wsteps_one; [apply (ws_move _ w1 ba qa (mx_acct x) a (p_base_free (a_pos a) - lb) (p_quote_free (a_pos a) - lq) pen _ _ Ea
    (or_introl X3) (or_introl X4) Rpen (or_introl X5) (or_introl X6) eq_refl)| |]; lia|].
  apply calm_set; try reflexivity. exact Ea.
Qed.

Lemma consume_tally ss : forall w rem w', consume_loop w rem ss = Ok w' -> tally w 0 0 (consume_loop_logs w rem ss) w' 0 0.
Proof.
  induction ss as [|s r IH]; intros w rem w' H; cbn [consume_loop consume_loop_logs] in *.
  - injection H as <-. apply tally_nil.
  - apply bind_ok in H as (w1 & E & H). rewrite E. cbn [bind ok_or]. eapply tally_trans; [apply tally_consume; exact E|eapply IH; exact H].
Qed.
Lemma consume_ix_tally w limit slots rem w' : consume_events_ix w limit slots rem = Ok w' -> tally w 0 0 (consume_logs w limit slots rem) w' 0 0.
Proof.
  intros H. unfold consume_events_ix in H. unfold consume_logs. apply bind_ok in H as (ss & Es & H). rewrite Es. cbn [bind ok_or].
  apply consume_tally. exact H.
Qed.

(** Events that say nothing about trades. *)
Definition aside (L : list log) : Prop := log_fills L = [] /\ log_seqs L = [] /\ forall sel g, totals sel g L = 0.
Lemma tally_aside w db dq L L' w' db' dq' : aside L -> aside L' -> tally w db dq L w' db' dq' -> tally w db dq L' w' db' dq'.
Proof.
  intros (A1 & A2 & A3) (B1 & B2 & B3) H cl ct P HI. destruct (H cl ct P HI) as (I & D & M & T). split; [exact I|]. exists D, M.
  destruct T as [T1 T2 T3 T4 T5 T6 T7 T8 T9 T10]. unfold total_base, total_quote, total_fees in *.
  constructor; unfold total_base, total_quote, total_fees; try assumption; try (intros; rewrite B3).
  - rewrite B1, <- T3, A1. reflexivity.
  - rewrite B2, <- T4, A2. reflexivity.
  - rewrite T6, A3. reflexivity.
  - rewrite <- T7, A3. reflexivity.
  - rewrite <- T8, A3. reflexivity.
  - specialize (T9 sel). rewrite A3 in T9. exact T9.
  - specialize (T10 k). rewrite A3 in T10. exact T10.
Qed.
Lemma aside_nil : aside []. Proof. repeat split. Qed.
Lemma aside_deposit a k b q : aside (deposit_logs a k b q).
Proof. unfold deposit_logs. destruct (_ || _); repeat split. Qed.
Lemma aside_refill s a k b q : aside (refill_logs s a k b q).
Proof.
  unfold refill_logs. destruct (acct_load k _); [|apply aside_nil]. cbn [bind]. destruct (chk_u64 _); [|apply aside_nil]. cbn [bind].
  destruct (chk_u64 _); [|apply aside_nil]. cbn [bind ok_or]. apply aside_deposit.
Qed.
Lemma aside_settle s k ref : aside (settle_logs s k ref).
Proof.
  unfold settle_logs. destruct (acct_load k _); [|apply aside_nil]. cbn [bind]. destruct (chk_u64 _); [|apply aside_nil]. repeat split.
Qed.

Lemma exec_tally e s i s' out : world_sound (s_w s) -> exec e s i = Ok (s', out) ->
  match i with
  | ICloseAccount _ k => exists a, closes (s_w s) (s_w s') k a
  | _ => tally (s_w s) 0 0 (exec_logs e s i) (s_w s') 0 0
  end.
Proof.
  intros Hs H. pose proof (exec_steps _ _ _ _ _ Hs H) as HST. unfold exec in H. destruct (s_closed s && needs_market i); [discriminate H|].
  unfold exec_open in H. unfold exec_logs. cbv zeta in *.
  destruct i as [x g|x g|x cid ex g|x cid ex g|x g|x cancel t bids asks limit|signer k id|signer k cid|signer k sd limit
    |admin limit rem|admin slots rem|signer k ub uq base quote|signer k ub uq base quote|signer k ub uq ref|admin k ub uq ref
    |signer receiver|k owner delegate num|signer k|signer k delegate|signer|signer k limit|signer|auth from to amount|to amount|k mint owner|auth k owner|auth k amount|auth k].
  - apply bind_ok in H as (u1 & E1 & H). apply bind_ok in H as (u2 & _ & H). apply bind_ok in H as (now & En & H). rewrite En. cbn [bind].
    apply bind_ok in H as (oo & Eo & H). rewrite Eo. cbn [bind ok_or]. destruct oo as [o|]; [|injection H as <- _; apply tally_nil].
    unfold lift_id in H. apply bind_ok in H as ([s1 id] & E & H). injection H as <- _.
    apply check_place_ok in E1 as [E1 E2]. eapply place_tally; [eapply order_of_args_sane; eassumption|exact E2|exact E].
  - apply bind_ok in H as (u1 & E1 & H). apply bind_ok in H as (u2 & _ & H). apply bind_ok in H as (now & En & H). rewrite En. cbn [bind].
    apply bind_ok in H as (oo & Eo & H). rewrite Eo. cbn [bind ok_or]. destruct oo as [o|]; [|injection H as <- _; apply tally_nil].
    unfold lift_id in H. apply bind_ok in H as ([s1 id] & E & H). injection H as <- _.
    apply check_peg_ok in E1. eapply place_tally; [eapply order_of_peg_sane; eassumption|exact E1|exact E].
  - apply bind_ok in H as (u1 & E1 & H). apply bind_ok in H as (u2 & _ & H). apply bind_ok in H as (u3 & _ & H).
    apply bind_ok in H as (u4 & _ & H). apply bind_ok in H as (now & En & H). rewrite En. cbn [bind].
    apply bind_ok in H as (oo & Eo & H). rewrite Eo. cbn [bind ok_or]. destruct oo as [o|]; [|injection H as <- _; apply tally_nil].
    unfold lift_id in H. apply bind_ok in H as ([s1 id] & E & H). injection H as <- _.
    apply check_place_ok in E1 as [E1 E2]. eapply edit_tally; [eapply order_of_args_sane; eassumption|exact E2|exact E].
  - apply bind_ok in H as (u1 & E1 & H). apply bind_ok in H as (u2 & _ & H). apply bind_ok in H as (u3 & _ & H).
    apply bind_ok in H as (u4 & _ & H). apply bind_ok in H as (now & En & H). rewrite En. cbn [bind].
    apply bind_ok in H as (oo & Eo & H). rewrite Eo. cbn [bind ok_or]. destruct oo as [o|]; [|injection H as <- _; apply tally_nil].
    unfold lift_id in H. apply bind_ok in H as ([s1 id] & E & H). injection H as <- _.
    apply check_peg_ok in E1. eapply edit_tally; [eapply order_of_peg_sane; eassumption|exact E1|exact E].
  - apply bind_ok in H as (u1 & E1 & H). apply bind_ok in H as (u2 & _ & H). apply bind_ok in H as (u3 & _ & H).
    apply bind_ok in H as (o & Eo & H). rewrite Eo. cbn [bind ok_or]. unfold lift_s in H. apply bind_ok in H as (s1 & E & H). injection H as <- _.
    apply check_take_ok in E1 as [E1 E2]. eapply take_tally; [eapply order_of_take_sane; eassumption|exact E2|exact E].
  - apply bind_ok in H as (u1 & E1 & H). apply require_ok in E1. apply bind_ok in H as (u2 & E2 & H). apply u8_arg_ok in E2.
    apply bind_ok in H as (u3 & _ & H). apply bind_ok in H as (u4 & _ & H). apply bind_ok in H as (now & En & H). rewrite En. cbn [bind].
    apply bind_ok in H as (bo & B1 & H). rewrite B1. cbn [bind]. apply bind_ok in H as (ao & B2 & H). rewrite B2. cbn [bind ok_or].
    apply bind_ok in H as ([s1 ids] & E & H). injection H as <- _.
    rewrite forallb_app in E1. apply andb_prop in E1 as [F1 F2].
    eapply multi_tally; [exact Hs| |exact E2|exact E]. apply Forall_app. split; [exact (orders_of_multi_sane _ _ _ _ _ _ F1 B1)|exact (orders_of_multi_sane _ _ _ _ _ _ F2 B2)].
  - eapply tally_calm; [exact HST|].
    unfold lift_w in H. apply bind_ok in H as (w & E & H). injection H as <- _. cbn [s_set_w s_w].
    unfold cancel_order_ix in E. apply bind_ok in E as (a & Ea & E).
    apply bind_ok in E as (u1 & _ & E). apply bind_ok in E as (u2 & _ & E).
    destruct (find_order_with_order_id a id) as [oo|]; [|discriminate E].
    apply bind_ok in E as ([w1 l] & Ec & E). injection E as <-. eapply calm_cancel. exact Ec.
  - eapply tally_calm; [exact HST|]. apply bind_ok in H as (u1 & _ & H). apply bind_ok in H as (u2 & _ & H). apply bind_ok in H as ([w q] & E & H). injection H as <- _.
    eapply calm_cancel_orders. exact E.
  - eapply tally_calm; [exact HST|]. apply bind_ok in H as (u1 & _ & H). apply bind_ok in H as (u2 & _ & H). apply bind_ok in H as ([w q] & E & H). injection H as <- _.
    eapply calm_cancel_orders. exact E.
  - apply bind_ok in H as (u1 & _ & H). apply bind_ok in H as (u2 & _ & H). unfold lift_w in H.
    apply bind_ok in H as (w & E & H). injection H as <- _. apply consume_ix_tally. exact E.
  - apply bind_ok in H as (u1 & _ & H). apply bind_ok in H as (u2 & _ & H). unfold lift_w in H.
    apply bind_ok in H as (w & E & H). injection H as <- _. apply consume_ix_tally. exact E.
  - eapply tally_aside; [apply aside_nil|apply aside_deposit|]. eapply tally_calm; [exact HST|].
    apply bind_ok in H as (u1 & _ & H). apply bind_ok in H as (u2 & _ & H). apply bind_ok in H as (u3 & _ & H).
    unfold lift_s in H. apply bind_ok in H as (s1 & E & H). injection H as <- _. eapply calm_deposit. exact E.
  - eapply tally_aside; [apply aside_nil|apply aside_refill|]. eapply tally_calm; [exact HST|].
    apply bind_ok in H as (u1 & _ & H). apply bind_ok in H as (u2 & _ & H). apply bind_ok in H as (u3 & _ & H).
    unfold lift_s in H. apply bind_ok in H as (s1 & E & H). injection H as <- _. unfold refill_ix in E.
    apply bind_ok in E as (a & _ & E). apply bind_ok in E as (q & _ & E). apply bind_ok in E as (b & _ & E). eapply calm_deposit. exact E.
  - eapply tally_aside; [apply aside_nil|apply aside_settle|]. eapply tally_calm; [exact HST|].
    unfold lift_s in H. apply bind_ok in H as (s1 & E & H). injection H as <- _. unfold settle_funds_ix in E.
    do 7 (apply bind_ok in E as (? & _ & E)). eapply calm_settle. exact E.
  - eapply tally_aside; [apply aside_nil|apply aside_settle|]. eapply tally_calm; [exact HST|].
    unfold lift_s in H. apply bind_ok in H as (s1 & E & H). injection H as <- _. unfold settle_funds_expired_ix in E.
    do 8 (apply bind_ok in E as (? & _ & E)). eapply calm_settle. exact E.
  - eapply tally_aside; [apply aside_nil|repeat split|]. eapply tally_calm; [exact HST|].
    unfold lift_s in H. apply bind_ok in H as (s1 & E & H). injection H as <- _. unfold sweep_fees_ix in E. cbv zeta in E.
    apply bind_ok in E as (u1 & _ & E). apply bind_ok in E as (u2 & _ & E). apply bind_ok in E as (q & X & E).
    apply bind_ok in E as (t & _ & E). injection E as <-. cbn [s_w]. apply calm_mkt; reflexivity.
  - eapply tally_calm; [exact HST|].
    unfold lift_w in H. apply bind_ok in H as (w & E & H). injection H as <- _. unfold create_account_ix in E.
    apply bind_ok in E as (u1 & E1 & E). apply require_ok in E1. apply bind_ok in E as (u2 & E2 & E). injection E as <-.
    cbn [s_set_w s_w]. constructor; try reflexivity; [|intros q Hq; exists q; split; [exact Hq|reflexivity]].
    intros k' a Ha. exists a. cbn [w_set_accts w_accts acct_get]. destruct (Z.eqb_spec k' k) as [Ek|Ek]; [|split; [exact Ha|lia]].
    subst k'. rewrite Ha in E1. discriminate E1.
  - exact HST.
  - eapply tally_aside; [apply aside_nil|repeat split|]. eapply tally_calm; [exact HST|].
    unfold lift_w in H. apply bind_ok in H as (w & E & H). injection H as <- _. unfold set_delegate_ix in E.
    apply bind_ok in E as (a & Ea & E). apply acct_load_ok in Ea. apply bind_ok in E as (u1 & _ & E). injection E as <-.
    cbn [s_set_w s_w]. eapply calm_acct; [exact Ea|reflexivity|reflexivity].
  - eapply tally_calm; [exact HST|].
    unfold lift_w in H. apply bind_ok in H as (w & E & H). injection H as <- _. unfold set_market_expired_ix in E.
    apply bind_ok in E as (u1 & _ & E). apply bind_ok in E as (u2 & _ & E). injection E as <-.
    cbn [s_set_w s_w]. apply calm_mkt; reflexivity.
  - eapply tally_calm; [exact HST|].
    apply bind_ok in H as (u1 & _ & H). unfold lift_w in H. apply bind_ok in H as (w & E & H). injection H as <- _. unfold prune_orders_ix in E.
    apply bind_ok in E as (u2 & _ & E). apply bind_ok in E as (u3 & _ & E). apply bind_ok in E as (u4 & _ & E).
    apply bind_ok in E as ([w1 q] & E1 & E). injection E as <-. eapply calm_cancel_orders. exact E1.
  - apply bind_ok in H as (u1 & _ & H). injection H as <- _. apply tally_nil.
  - apply bind_ok in H as (u1 & _ & H). apply bind_ok in H as (t & _ & H). injection H as <- _. apply tally_nil.
  - apply bind_ok in H as (u1 & _ & H). apply bind_ok in H as (t & _ & H). apply bind_ok in H as (u2 & _ & H). injection H as <- _. apply tally_nil.
  - apply bind_ok in H as (u1 & _ & H). injection H as <- _. apply tally_nil.
  - do 3 (apply bind_ok in H as (? & _ & H)). injection H as <- _. apply tally_nil.
  - do 5 (apply bind_ok in H as (? & _ & H)). injection H as <- _. apply tally_nil.
  - do 4 (apply bind_ok in H as (? & _ & H)). injection H as <- _. apply tally_nil.
Qed.

(** Closing an account takes nothing away but the account. *)
Lemma closes_tallied w w' k a : closes w w' k a -> w_mkt w' = w_mkt w /\ w_heap w' = w_heap w /\
  forall k', k' <> k -> acct_get k' (w_accts w') = acct_get k' (w_accts w).
Proof.
  intros (_ & _ & ->). split; [reflexivity|]. split; [reflexivity|]. intros k' Hk. cbn [w_set_accts w_accts]. apply get_del_other. exact Hk.
Qed.
