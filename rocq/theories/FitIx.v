(** Every stored number keeps within its width: whole instructions. *)
From Coq Require Import ZArith List Bool Lia ZifyBool Permutation.
From Verif Require Import Base Nodes OrderTree BookSide Heap Market OpenOrders Order Book Instructions
  BaseFacts NodesFacts HeapFacts BookSideFacts SpecBook SpecFees SpecOrder MatchFacts OrderFacts PlaceFacts OrderSpecProofs
  Steps StepFacts TokenFacts SpecLedger SpecEvents Ledger LedgerOps LedgerMoves LedgerPlace LedgerOrder LedgerInv SpecSystem SystemFacts
  SpecControl ControlFacts LifeFacts IdFacts AuthFacts IdentFacts SpecPersist PersistFacts SpecFit FitFacts.
Import ListNotations.
Open Scope Z_scope.

Lemma place_fsteps e s x o limit s' id : params_sane (o_params o) -> 0 <= limit -> osmall o -> e_now e < 2 ^ 63 -> is_address (px_acct x) ->
  place_order_ix e s x o limit = Ok (s', id) -> fsteps (Some (px_acct x)) (s_w s) 0 0 (s_w s') 0 0.
Proof.
  intros Hp Hl Hos Hn Hown H. unfold place_order_ix in H.
  apply bind_ok in H as (u1 & E1 & H). apply require_ok in E1. apply bind_ok in H as (u2 & E2 & H). apply require_ok in E2.
  cbv zeta in H. apply bind_ok in H as (u3 & _ & H). apply bind_ok in H as (u4 & _ & H).
  apply bind_ok in H as (now & En & H). apply now_u64_eq in En as [-> En]. apply bind_ok in H as (oracle & Eor & H).
  apply bind_ok in H as ([w1 r] & Eo & H). apply bind_ok in H as ([w2 d] & Ek & H).
  apply bind_ok in H as (t & _ & H). injection H as <- _. cbn [s_w s_closed].
  assert (Ho : sane_order o) by (constructor; [lia|lia|exact Hp]).
  assert (Hu : is_time (e_now e)) by (unfold is_time; lia).
  eapply fs_place; [exact Ho|left; reflexivity|exact Hl|exact Hu|exact Hown|exact Hos|exact Eo|reflexivity|].
  eapply fs_still; [|exact (lock_funds_seq _ _ _ _ _ _ _ Ek)|apply fs_nil].
  eapply wsteps_one; [|reflexivity|reflexivity]. eapply lock_funds_steps; [exact Ek| |]; unfold owed_base, owed_quote; destruct (o_side o); lia.
Qed.

Lemma edit_fsteps e s x cid expected o limit s' id : params_sane (o_params o) -> 0 <= limit -> osmall o -> e_now e < 2 ^ 63 -> is_address (px_acct x) ->
  edit_order_ix e s x cid expected o limit = Ok (s', id) -> fsteps (Some (px_acct x)) (s_w s) 0 0 (s_w s') 0 0.
Proof.
  intros Hp Hl Hos Hn Hown H. unfold edit_order_ix in H. apply bind_ok in H as (u1 & _ & H). apply bind_ok in H as ([w q] & E & H).
  pose proof (cancel_orders_seq _ _ _ _ _ _ _ E) as Em. apply cancel_orders_steps in E. cbv zeta in H. apply bind_ok in H as (f & _ & H).
  match type of H with (if ?c then _ else _) = _ => destruct c end.
  - apply bind_ok in H as (mb & _ & H).
    apply place_fsteps in H; [|exact Hp|exact Hl|exact Hos|exact Hn|exact Hown].
    eapply fs_still; [exact E|rewrite Em; reflexivity|exact H].
  - injection H as <- _. cbn [s_set_w s_w]. eapply fs_still; [exact E|rewrite Em; reflexivity|apply fs_nil].
Qed.

Lemma take_fsteps e s x o limit s' : params_sane (o_params o) -> 0 <= limit -> osmall o -> e_now e < 2 ^ 63 -> is_address (tx_signer x) ->
  place_take_ix e s x o limit = Ok s' -> fsteps None (s_w s) 0 0 (s_w s') 0 0.
Proof.
  intros Hp Hl Hos Hn63 Hown H. unfold place_take_ix in H.
  apply bind_ok in H as (u1 & E1 & H). apply require_ok in E1. apply bind_ok in H as (u2 & E2 & H). apply require_ok in E2.
  cbv zeta in H. apply bind_ok in H as (u3 & _ & H).
  apply bind_ok in H as (now & En & H). apply now_u64_eq in En as [-> En]. apply bind_ok in H as (oracle & Eor & H).
  apply bind_ok in H as (u5 & E5 & H). apply require_ok in E5.
  apply bind_ok in H as ([w1 r] & Eo & H). apply bind_ok in H as (reb & Er & H). apply chk_u64_ok in Er as [-> Er].
  assert (Hn : acct_get (tx_signer x) (w_accts (s_w s)) = None) by (destruct (acct_get (tx_signer x) (w_accts (s_w s))); [discriminate E5|reflexivity]).
  assert (Hu : is_time (e_now e)) by (unfold is_time; lia).
  assert (Ho : sane_order o) by (constructor; [lia|lia|exact Hp]).
  eapply fs_place; [exact Ho|right; split; [reflexivity|exact Hn]|exact Hl|exact Hu|exact Hown|exact Hos|exact Eo|reflexivity|].
  destruct (o_side o) eqn:Es.
  - apply bind_ok in H as (q & X1 & H). apply chk_u64_ok in X1 as [-> X1].
    apply bind_ok in H as (bt & X2 & H). apply chk_u64_ok in X2 as [-> X2].
    apply bind_ok in H as (qt & X3 & H). apply chk_u64_ok in X3 as [-> X3].
    apply bind_ok in H as (t1 & _ & H). apply bind_ok in H as (t2 & _ & H). injection H as <-. cbn [s_w s_closed].
    eapply fs_still; [eapply wsteps_one; [apply ws_totals; [exact X2|exact X3]|reflexivity|reflexivity]|reflexivity|].
    match goal with |- fsteps _ _ ?a ?b _ ?c ?d => replace a with c by (unfold owed_base, owed_quote; rewrite Es; lia); replace b with d by (unfold owed_base, owed_quote; rewrite Es; lia) end.
    apply fs_nil.
  - apply bind_ok in H as (q & X1 & H). apply chk_u64_ok in X1 as [-> X1].
    apply bind_ok in H as (bt & X2 & H). apply chk_u64_ok in X2 as [-> X2].
    apply bind_ok in H as (qt & X3 & H). apply chk_u64_ok in X3 as [-> X3].
    apply bind_ok in H as (t1 & _ & H). apply bind_ok in H as (t2 & _ & H). injection H as <-. cbn [s_w s_closed].
    eapply fs_still; [eapply wsteps_one; [apply ws_totals; [exact X2|exact X3]|reflexivity|reflexivity]|reflexivity|].
    match goal with |- fsteps _ _ ?a ?b _ ?c ?d => replace a with c by (unfold owed_base, owed_quote; rewrite Es; lia); replace b with d by (unfold owed_base, owed_quote; rewrite Es; lia) end.
    apply fs_nil.
Qed.

Lemma multi_one_small w x ub uq oracle now limit o ba qa w' ba' qa' id :
  world_sound w -> params_sane (o_params o) -> osmall o ->
  multi_one w x ub uq oracle now limit o ba qa = Ok (w', ba', qa', id) ->
  exists o' r, sane_order o' /\ osmall o' /\
    new_order w o' oracle (Some (mx_acct x)) (mx_acct x) now limit (mx_rem x) = Ok (w', r) /\
    ba' = ba + owed_base o' (Some (mx_acct x)) r /\ qa' = qa + owed_quote o' (Some (mx_acct x)) r.
Proof.
  intros [Hc Hs] Hp Hos H. unfold multi_one in H.
  apply bind_ok in H as (capb & E1 & H). apply max_base_lots_nonneg in E1; [|exact Hc].
  apply bind_ok in H as (u2 & E2 & H). apply require_ok in E2.
  apply bind_ok in H as (a & Ea & H). apply bind_ok in H as (o' & Eo & H).
  pose proof (cs_bls _ Hc) as B1. pose proof (cs_qls _ Hc) as B2. unfold i64_max in B1, B2.
  assert (G : sane_order o' /\ o_side o' = o_side o /\ osmall o').
  { destruct (o_side o) eqn:Es.
    - apply bind_ok in Eo as (y & X & Eo). apply bind_ok in Eo as (av & X1 & Eo). apply chk_u64_ok in X1 as [-> X1].
      apply bind_ok in Eo as (l & X2 & Eo). apply max_lots_nonneg in X2; [|exact B2|lia]. injection Eo as <-.
      split; [constructor; cbn [o_max_base o_max_quote o_params]; [lia|lia|exact Hp]|split; [reflexivity|exact Hos]].
    - apply bind_ok in Eo as (y & X & Eo). apply bind_ok in Eo as (av & X1 & Eo). apply chk_u64_ok in X1 as [-> X1].
      apply bind_ok in Eo as (l & X2 & Eo). apply max_lots_nonneg in X2; [|exact B1|lia]. injection Eo as <-.
      split; [constructor; cbn [o_set_max_base o_max_base o_max_quote o_params]; [lia|lia|exact Hp]|split; [exact Es|exact Hos]]. }
  destruct G as (Go & Es' & Epr). apply bind_ok in H as ([w1 r] & En & H).
  exists o', r. destruct (o_side o) eqn:Es.
  - do 3 (let X := fresh in apply bind_ok in H as (? & X & H); apply chk_u64_ok in X as [-> ?]).
    apply bind_ok in H as (u5 & X & H). apply require_ok in X. injection H as <- <- <- <-.
    unfold owed_base, owed_quote. rewrite Es', Z.add_0_r. auto 10.
  - apply bind_ok in H as (x1 & X & H). apply chk_u64_ok in X as [-> _].
    apply bind_ok in H as (u5 & X & H). injection H as <- <- <- <-.
    unfold owed_base, owed_quote. rewrite Es', Z.add_0_r. auto 10.
Qed.
Lemma fsteps_app who w db dq w1 db1 dq1 : fsteps who w db dq w1 db1 dq1 -> forall w2 db2 dq2,
  fsteps who w1 db1 dq1 w2 db2 dq2 -> fsteps who w db dq w2 db2 dq2.
Proof.
  induction 1 as [w db dq|w db dq o oracle taker owner now limit rem w1 r w2 db2 dq2 Ho Ht Hl Hn Hown Hs E Hw H IH
    |w db dq w1 db1 dq1 w2 db2 dq2 H1 Hm H IH]; intros w3 db3 dq3 H'.
  - exact H'.
  - eapply fs_place; [exact Ho|exact Ht|exact Hl|exact Hn|exact Hown|exact Hs|exact E|exact Hw|apply IH; exact H'].
  - eapply fs_still; [exact H1|exact Hm|apply IH; exact H'].
Qed.
Lemma multi_loop_fsteps os : forall w x ub uq oracle now limit ba qa w' ba' qa' ids,
  world_sound w -> Forall (fun o => params_sane (o_params o)) os -> Forall osmall os -> 0 <= limit -> is_time now -> is_address (mx_acct x) ->
  multi_loop w x ub uq oracle now limit os ba qa = Ok (w', ba', qa', ids) ->
  fsteps (Some (mx_acct x)) w ba qa w' ba' qa'.
Proof.
  induction os as [|o r IH]; intros w x ub uq oracle now limit ba qa w' ba' qa' ids Hs Ho Hos Hl Hn Hown H; cbn [multi_loop] in H.
  - injection H as <- <- <- _. constructor.
  - apply bind_ok in H as ([[[w1 b1] q1] i1] & E & H). inversion Ho as [|o0 r0 Ho1 Ho2]; subst. inversion Hos as [|o0 r0 Hs1 Hs2]; subst.
    pose proof (multi_one_steps _ _ _ _ _ _ _ _ _ _ _ _ _ _ Hs Ho1 Hl (proj1 Hn) E) as Hst.
    apply multi_one_small in E as (o' & r' & Go & Gs & En & -> & ->); [|exact Hs|exact Ho1|exact Hs1].
    apply bind_ok in H as ([[[w2 b2] q2] i2] & E2 & H). injection H as <- <- <- _.
    eapply fs_place; [exact Go|left; reflexivity|exact Hl|exact Hn|exact Hown|exact Gs|exact En|reflexivity|].
    eapply IH; [eapply wstep_sound; [exact Hst|exact Hs]|exact Ho2|exact Hs2|exact Hl|exact Hn|exact Hown|exact E2].
Qed.
Lemma multi_fsteps e s x cancel os limit s' ids : world_sound (s_w s) ->
  Forall (fun o => params_sane (o_params o)) os -> Forall osmall os -> 0 <= limit -> e_now e < 2 ^ 63 -> is_address (mx_acct x) ->
  multi_ix e s x cancel os limit = Ok (s', ids) ->
  fsteps (Some (mx_acct x)) (s_w s) 0 0 (s_w s') 0 0.
Proof.
  intros Hs Ho Hos Hl Hn63 Hown H. unfold multi_ix in H. cbv zeta in H. apply bind_ok in H as (u1 & _ & H).
  apply bind_ok in H as (now & En & H). apply now_u64_eq in En as [-> En]. apply bind_ok in H as (oracle & Eor & H).
  apply bind_ok in H as (w0 & E0 & H).
  assert (S0 : wsteps (Some (mx_acct x)) (s_w s) 0 0 w0 0 0 /\ m_seq (w_mkt w0) = m_seq (w_mkt (s_w s))).
  { destruct cancel; [|injection E0 as <-; split; [constructor|reflexivity]]. apply bind_ok in E0 as ([w' q] & E1 & E0). injection E0 as <-.
    split; [eapply cancel_orders_steps; exact E1|rewrite (cancel_orders_seq _ _ _ _ _ _ _ E1); reflexivity]. }
  destruct S0 as [S0 M0].
  apply bind_ok in H as (ub & _ & H). apply bind_ok in H as (uq & _ & H).
  apply bind_ok in H as ([[[w1 ba] qa] is] & E1 & H).
  apply multi_loop_fsteps in E1; [|eapply wsteps_sound; [exact S0|exact Hs]|exact Ho|exact Hos|exact Hl|unfold is_time; lia|exact Hown].
  apply bind_ok in H as (a & Ea & H). apply acct_load_ok in Ea.
  apply bind_ok in H as (db & X1 & H). apply chk_u64_ok in X1 as [-> X1].
  apply bind_ok in H as (dq & X2 & H). apply chk_u64_ok in X2 as [-> X2].
  apply bind_ok in H as (fb & X3 & H). apply chk_u64_ok in X3 as [-> X3].
  apply bind_ok in H as (fq & X4 & H). apply chk_u64_ok in X4 as [-> X4].
  apply bind_ok in H as (bt & X5 & H). apply chk_u64_ok in X5 as [-> X5].
  apply bind_ok in H as (qt & X6 & H). apply chk_u64_ok in X6 as [-> X6].
  apply bind_ok in H as (p2 & E2 & H). apply bind_ok in H as (t1 & _ & H). apply bind_ok in H as (t2 & _ & H). injection H as <- _.
  cbn [s_w s_closed].
  set (lb := Z.min ba (p_base_free (a_pos a))) in *. set (lq := Z.min qa (p_quote_free (a_pos a))) in *.
  set (p1 := p_set_quote_free (p_set_base_free (a_pos a) (p_base_free (a_pos a) - lb)) (p_quote_free (a_pos a) - lq)) in *.
  assert (Hp : exists pen, (u64_ok pen \/ pen = p_penalty (a_pos a)) /\ p2 = p_set_penalty p1 pen).
  { match type of E2 with (if ?c then _ else _) = _ => destruct c end.
    - apply bind_ok in E2 as (n & E2 & E3). apply chk_u64_ok in E2 as [-> R]. injection E3 as <-. eexists. split; [left; exact R|reflexivity].
    - injection E2 as <-. exists (p_penalty (a_pos a)). split; [right; reflexivity|reflexivity]. }
  destruct Hp as (pen & Rpen & ->).
  eapply fs_still; [exact S0|exact M0|]. eapply fsteps_app; [exact E1|].
  eapply fs_still; [eapply wsteps_one; [apply (ws_move _ w1 ba qa (mx_acct x) a (p_base_free (a_pos a) - lb) (p_quote_free (a_pos a) - lq) pen _ _ Ea
    (or_introl X3) (or_introl X4) Rpen (or_introl X5) (or_introl X6) eq_refl)|reflexivity|reflexivity]|reflexivity|].
  match goal with |- fsteps _ _ ?a ?b _ ?c ?d => replace a with c by lia; replace b with d by lia end.
  apply fs_nil.
Qed.

(** ** The orders built from the arguments *)
Lemma tif_u16 now ex tif : tif_from_expiry now ex = Some tif -> is_u16 tif.
Proof.
  unfold tif_from_expiry, u16_max, is_u16. intros H. destruct (negb (ex =? 0)); [|injection H as <-; lia].
  cbv zeta in H. destruct (_ =? 0); [discriminate H|]. injection H as <-. lia.
Qed.
Lemma params_peg t p ps : params_of t p = Ok ps -> match ps with OOraclePegged _ _ _ => False | _ => True end.
Proof. unfold params_of. destruct t; cbn; intros H; injection H as <-; exact I. Qed.
Lemma peg_none o : match o_params o with OOraclePegged _ _ _ => False | _ => True end -> is_i64 (order_peg_limit o).
Proof. unfold order_peg_limit, is_i64. destruct (o_params o); intros H; try destruct H; lia. Qed.
Lemma args_small now g o : check_place_args g = Ok tt -> order_of_args now g = Ok (Some o) -> osmall o.
Proof.
  intros C H. unfold check_place_args in C. do 3 (apply bind_ok in C as (? & _ & C)). apply bind_ok in C as (? & C1 & _).
  unfold u64_arg in C1. apply require_ok in C1. unfold in_u64, in_range, u64_max in C1.
  unfold order_of_args in H. apply bind_ok in H as (u & _ & H). destruct (tif_from_expiry now (pa_expiry g)) as [tif|] eqn:Et; [|discriminate H].
  apply bind_ok in H as (ps & E & H). injection H as <-. apply params_peg in E. unfold osmall. cbn [o_tif o_client_id].
  split; [exact (tif_u16 _ _ _ Et)|]. split; [unfold is_u64; lia|apply peg_none; exact E].
Qed.
Lemma peg_small m now g o : check_peg_args g = Ok tt -> order_of_peg_args m now g = Ok (Some o) -> osmall o.
Proof.
  intros C H. unfold check_peg_args in C. apply bind_ok in C as (? & _ & C). apply bind_ok in C as (? & C2 & C). do 2 (apply bind_ok in C as (? & _ & C)).
  apply bind_ok in C as (? & C1 & _).
  unfold u64_arg in C1. apply require_ok in C1. unfold in_u64, in_range, u64_max in C1. unfold i64_arg in C2. apply require_ok in C2. unfold in_i64, in_range, i64_min, i64_max in C2.
  unfold order_of_peg_args in H. do 2 (apply bind_ok in H as (? & _ & H)). destruct (tif_from_expiry now (ga_expiry g)) as [tif|] eqn:Et; [|discriminate H].
  apply bind_ok in H as (ps & E & H). injection H as <-. unfold osmall, order_peg_limit. cbn [o_tif o_client_id o_params].
  split; [exact (tif_u16 _ _ _ Et)|]. unfold is_u64, is_i64. lia.
Qed.
Lemma take_small g o : order_of_take_args g = Ok o -> osmall o.
Proof.
  intros H. unfold order_of_take_args in H. apply bind_ok in H as (? & _ & H). apply bind_ok in H as (ps & E & H). injection H as <-.
  unfold osmall. cbn [o_tif o_client_id]. split; [unfold is_u16; lia|]. split; [unfold is_u64; lia|]. apply peg_none. cbn [o_params].
  destruct (ta_type g); try discriminate E; injection E as <-; exact I.
Qed.
Lemma multi_small now t sd l : forall i os, orders_of_multi now t sd i l = Ok os -> 0 <= i -> i + Z.of_nat (length l) <= 2 ^ 64 -> Forall osmall os.
Proof.
  induction l as [|g r IH]; intros i os H Hi Hl; cbn [orders_of_multi] in H; [injection H as <-; constructor|]. cbn [length] in Hl.
  apply bind_ok in H as (? & _ & H). destruct (tif_from_expiry now (ua_expiry g)) as [tif|] eqn:Et; [|exact (IH _ _ H ltac:(lia) ltac:(lia))].
  apply bind_ok in H as (ps & E & H). apply bind_ok in H as (rest & E2 & H). injection H as <-. constructor; [|exact (IH _ _ E2 ltac:(lia) ltac:(lia))].
  unfold osmall. cbn [o_tif o_client_id]. split; [exact (tif_u16 _ _ _ Et)|]. split; [unfold is_u64; lia|]. apply peg_none. exact (params_peg _ _ _ E).
Qed.

Lemma exec_fine e s i s' out cl ct P : Inv (s_w s) 0 0 cl ct P -> machine_call e i -> exec e s i = Ok (s', out) -> fine (s_w s) -> fine (s_w s').
Proof.
  intros HI [Hn Hm] H F. pose proof (rep_sound _ _ (iv_rep _ _ _ _ _ _ HI) (iv_led _ _ _ _ _ _ HI)) as Hs.
  destruct (is_placing i) eqn:Hp.
  2:{ pose proof (exec_still _ _ _ _ _ Hp H) as Em. apply exec_steps in H; [|exact Hs].
      destruct i; try discriminate Hp; try (exact (wsteps_fine _ _ _ _ _ _ _ H _ _ _ HI Em F)).
      destruct H as (a & Ha & _ & ->). destruct F as [F1 F2 F3 F4 F5]. constructor; [exact F1|exact F2| |exact F4|exact F5].
      intros k' a' Ha'. cbn [w_accts w_set_accts] in Ha'. destruct (Z.eq_dec k' k) as [->|Nk].
      - rewrite get_del_same in Ha' by exact (ld_keys _ _ _ (iv_led _ _ _ _ _ _ HI)). discriminate Ha'.
      - rewrite get_del_other in Ha' by exact Nk. exact (F3 _ _ Ha'). }
  assert (G : forall who, fsteps who (s_w s) 0 0 (s_w s') 0 0 -> fine (s_w s')) by (intros who G; exact (fsteps_fine _ _ _ _ _ _ _ G _ _ _ HI F)).
  unfold exec in H. destruct (s_closed s && needs_market i); [discriminate H|].
  unfold exec_open in H. cbv zeta in H.
  destruct i as [x g|x g|x cid ex g|x cid ex g|x g|x cancel t bids asks limit| | | | | | | | | | | | | | | | | | | | | |]; try discriminate Hp; clear Hp.
  - apply bind_ok in H as ([] & E1 & H). apply bind_ok in H as (u2 & _ & H). apply bind_ok in H as (now & _ & H).
    apply bind_ok in H as (oo & Eo & H). destruct oo as [o|]; [|injection H as <- _; exact F].
    unfold lift_id in H. apply bind_ok in H as ([s1 id] & E & H). injection H as <- _. pose proof (args_small _ _ _ E1 Eo) as Hos.
    apply check_place_ok in E1 as [E1 E2].
    apply place_fsteps in E; [exact (G _ E)|eapply order_of_args_sane; eassumption|exact E2|exact Hos|exact Hn|exact Hm].
  - apply bind_ok in H as ([] & E1 & H). apply bind_ok in H as (u2 & _ & H). apply bind_ok in H as (now & _ & H).
    apply bind_ok in H as (oo & Eo & H). destruct oo as [o|]; [|injection H as <- _; exact F].
    unfold lift_id in H. apply bind_ok in H as ([s1 id] & E & H). injection H as <- _. pose proof (peg_small _ _ _ _ E1 Eo) as Hos.
    apply check_peg_ok in E1.
    apply place_fsteps in E; [exact (G _ E)|eapply order_of_peg_sane; eassumption|exact E1|exact Hos|exact Hn|exact Hm].
  - apply bind_ok in H as ([] & E1 & H). apply bind_ok in H as (u2 & _ & H). apply bind_ok in H as (u3 & _ & H).
    apply bind_ok in H as (u4 & _ & H). apply bind_ok in H as (now & _ & H).
    apply bind_ok in H as (oo & Eo & H). destruct oo as [o|]; [|injection H as <- _; exact F].
    unfold lift_id in H. apply bind_ok in H as ([s1 id] & E & H). injection H as <- _. pose proof (args_small _ _ _ E1 Eo) as Hos.
    apply check_place_ok in E1 as [E1 E2].
    apply edit_fsteps in E; [exact (G _ E)|eapply order_of_args_sane; eassumption|exact E2|exact Hos|exact Hn|exact Hm].
  - apply bind_ok in H as ([] & E1 & H). apply bind_ok in H as (u2 & _ & H). apply bind_ok in H as (u3 & _ & H).
    apply bind_ok in H as (u4 & _ & H). apply bind_ok in H as (now & _ & H).
    apply bind_ok in H as (oo & Eo & H). destruct oo as [o|]; [|injection H as <- _; exact F].
    unfold lift_id in H. apply bind_ok in H as ([s1 id] & E & H). injection H as <- _. pose proof (peg_small _ _ _ _ E1 Eo) as Hos.
    apply check_peg_ok in E1.
    apply edit_fsteps in E; [exact (G _ E)|eapply order_of_peg_sane; eassumption|exact E1|exact Hos|exact Hn|exact Hm].
  - apply bind_ok in H as (u1 & E1 & H). apply bind_ok in H as (u2 & _ & H). apply bind_ok in H as (u3 & _ & H).
    apply bind_ok in H as (o & Eo & H). unfold lift_s in H. apply bind_ok in H as (s1 & E & H). injection H as <- _.
    apply check_take_ok in E1 as [E1 E2].
    apply take_fsteps in E; [exact (G _ E)|eapply order_of_take_sane; eassumption|exact E2|exact (take_small _ _ Eo)|exact Hn|exact Hm].
  - apply bind_ok in H as (u1 & E1 & H). apply require_ok in E1. apply bind_ok in H as (u2 & E2 & H). apply u8_arg_ok in E2.
    apply bind_ok in H as (u3 & _ & H). apply bind_ok in H as (u4 & _ & H). apply bind_ok in H as (now & _ & H).
    apply bind_ok in H as (bo & B1 & H). apply bind_ok in H as (ao & B2 & H). apply bind_ok in H as ([s1 ids] & E & H). injection H as <- _.
    rewrite forallb_app in E1. apply andb_prop in E1 as [F1 F2].
    apply multi_fsteps in E; [exact (G _ E)|exact Hs| | |exact E2|exact Hn|exact (proj1 Hm)].
    + apply Forall_app. split; [exact (orders_of_multi_sane _ _ _ _ _ _ F1 B1)|exact (orders_of_multi_sane _ _ _ _ _ _ F2 B2)].
    + apply Forall_app. split; [eapply multi_small; [exact B1|lia|lia]|eapply multi_small; [exact B2|lia|lia]].
Qed.

Lemma chain_reachable s : run_on_chain s -> reachable s.
Proof. induction 1 as [now t c te s H|e s i s' out _ IH _ H]; [exact (reach_create _ _ _ _ _ H)|exact (reach_step _ _ _ _ _ IH H)]. Qed.
Lemma chain_fine s : run_on_chain s -> fine (s_w s).
Proof.
  induction 1 as [now t c te s H|e s i s' out Hr IH Hm H].
  - pose proof (create_market_inv _ _ _ _ _ H) as HI. unfold create_market_ix in H. do 3 (apply bind_ok in H as (? & _ & H)). apply bind_ok in H as (? & E & H). do 4 (apply bind_ok in H as (? & _ & H)).
    unfold i64_arg in E. apply require_ok in E. unfold in_i64, in_range, i64_min, i64_max in E. injection H as <-. cbn [s_w] in *.
    constructor; cbn [w_heap w_accts w_mkt m_time_expiry m_fees_to_referrers].
    + intros sd t0 l Hl. destruct (order_piece _ _ _ _ _ (iv_rep _ _ _ _ _ _ HI) Hl) as (lp & []).
    + split; [unfold heap_init, is_u64; cbn; lia|]. intros i. unfold heap_init. cbn [h_nodes hn_event]. exact event0_small.
    + intros k a Ha. discriminate Ha.
    + unfold is_i64. lia.
    + unfold is_u128. lia.
  - destruct (reachable_inv _ (chain_reachable _ Hr)) as (cl & ct & P & HI). exact (exec_fine _ _ _ _ _ _ _ _ HI Hm H IH).
Qed.

(** ** Who the accounts belong to *)
Definition named (a : ooa) : Prop := is_address (a_owner a) /\ is_address (a_delegate a) /\ is_u32 (a_num a) /\ is_u8 (a_version a).
Lemma chain_named s : run_on_chain s -> forall k a, acct_get k (w_accts (s_w s)) = Some a -> named a.
Proof.
  induction 1 as [now t c te s H|e s i s' out Hr IH [_ Hm] H]; intros k a' Ha'.
  { unfold create_market_ix in H. do 8 (apply bind_ok in H as (? & _ & H)). injection H as <-. discriminate Ha'. }
  destruct (acct_get k (w_accts (s_w s))) as [a|] eqn:Ha.
  - destruct (exec_identity _ _ _ _ _ _ _ (chain_reachable _ Hr) H Ha) as [(u & _ & E)|(b & E & E1 & E2 & E3 & E4)]; [congruence|].
    assert (b = a') by congruence. subst b. destruct (IH _ _ Ha) as (N1 & N2 & N3 & N4). unfold named. rewrite E1, E2, E3, E4.
    split; [exact N1|]. split; [|split; assumption]. destruct i; try exact N2. destruct (_ =? k); [exact Hm|exact N2].
  - destruct (names_nobody i) eqn:En.
    { pose proof (exec_sameids _ _ _ _ _ (chain_reachable _ Hr) H En k) as S. rewrite Ha, Ha' in S. discriminate S. }
    unfold exec in H. destruct (s_closed s && needs_market i); [discriminate H|]. unfold exec_open in H. cbv zeta in H.
    destruct i as [| | | | | | | | | | | | | | | |k' ow dl n|u k'|u k' d| | | | | | | | |]; try discriminate En; unfold lift_w in H; apply bind_ok in H as (w & E & H); injection H as <- _; cbn [s_set_w s_w] in Ha'.
    + unfold create_account_ix in E. do 2 (apply bind_ok in E as (? & _ & E)). injection E as <-. cbn [w_set_accts w_accts acct_get] in Ha'.
      destruct (k =? k'); [|congruence]. injection Ha' as <-. destruct Hm as (M1 & M2 & M3). unfold named. cbn [a_owner a_delegate a_num a_version].
      unfold is_u8. split; [exact M1|]. split; [exact M2|]. split; [exact M3|lia].
    + unfold close_account_ix in E. do 3 (apply bind_ok in E as (? & _ & E)). injection E as <-. cbn [w_set_accts w_accts] in Ha'.
      destruct (Z.eq_dec k k') as [->|N]; [|rewrite get_del_other in Ha' by exact N; congruence].
      rewrite get_del_same in Ha'; [discriminate Ha'|]. destruct (reachable_inv _ (chain_reachable _ Hr)) as (cl & ct & P & HI). exact (ld_keys _ _ _ (iv_led _ _ _ _ _ _ HI)).
    + unfold set_delegate_ix in E. apply bind_ok in E as (b & Eb & E). apply acct_load_ok in Eb. apply bind_ok in E as (? & _ & E). injection E as <-.
      cbn [w_set_acct w_set_accts w_accts] in Ha'. rewrite acct_get_set in Ha'. destruct (Z.eqb_spec k k') as [->|]; [congruence|congruence].
Qed.

(** ** All numbers *)
Lemma gone_nonneg s gone : history s gone -> 0 <= sumZ (map p_taker_volume gone).
Proof.
  induction 1 as [now t c te s H|e s i s' out gone Hh IH H]; [apply Z.le_refl|].
  destruct i; try exact IH. cbn [closing]. destruct (acct_get k (w_accts (s_w s))) as [a|] eqn:Ha; [|exact IH].
  cbn [app map]. rewrite sumZ_cons. destruct (history_inv _ _ Hh) as (P & HI).
  pose proof (po_tv _ _ (ac_pos _ _ _ _ (ld_acct _ _ _ (iv_led _ _ _ _ _ _ HI) _ _ Ha))). lia.
Qed.
Lemma psum_side_nonneg m ac P k s f : Led m ac P -> (forall p, piece_ok m p -> 0 <= f p) -> 0 <= psum (of_side k s f) P.
Proof.
  intros HL Hf. apply psum_nonneg. intros p Hp. unfold of_side. destruct (_ && _); [|lia]. exact (Hf _ (ld_piece _ _ _ HL _ Hp)).
Qed.
Lemma waits_nonneg m ac P : Led m ac P -> 0 <= psum (vol_wait m) P /\ 0 <= psum (fee_wait m) P.
Proof.
  intros HL. pose proof (mk_cfg _ (ld_mkt _ _ _ HL)) as Hc. pose proof (cs_qls _ Hc) as Hq.
  assert (F : forall f id, In (PFill f id) P -> 0 <= fill_quote m f <= 9223372036854775807).
  { intros f id Hp. destruct (pk_kind _ _ (ld_piece _ _ _ HL _ Hp)) as (K1 & K2 & _). pose proof (pk_qty _ _ (ld_piece _ _ _ HL _ Hp)) as K3.
    cbn [pc_qty] in K3. split; [|exact K2]. unfold fill_quote, qls. clear - K1 K3 Hq. nia. }
  split; apply psum_nonneg; intros [sd t l lp|o lp id|f id] Hp; cbn [vol_wait fee_wait]; try lia; specialize (F _ _ Hp); [lia|].
  unfold fill_fee. destruct (fill_self f); [lia|]. apply (FeeFacts.maker_pays_bounds m _ Hc). lia.
Qed.

Lemma chain_fits s : run_on_chain s -> all_fit (s_w s).
Proof.
  intros Hr. pose proof (chain_fine _ Hr) as [F1 F2 F3 F4 F5]. destruct (reachable_history _ (chain_reachable _ Hr)) as (gone & Hh).
  pose proof (gone_nonneg _ _ Hh) as Hg. destruct (history_inv _ _ Hh) as (P & HI). pose proof (iv_led _ _ _ _ _ _ HI) as HL.
  pose proof (ld_mkt _ _ _ HL) as HM. pose proof (mk_cfg _ HM) as Hc. pose proof (cs_bls _ Hc) as Hb. pose proof (cs_qls _ Hc) as Hq.
  destruct (waits_nonneg _ _ _ HL) as [W1 W2].
  assert (Q : forall p, In p P -> 0 < pc_qty p < 2 ^ 63).
  { intros p Hp. pose proof (pk_qty _ _ (ld_piece _ _ _ HL _ Hp)) as K1. pose proof (pk_base _ _ (ld_piece _ _ _ HL _ Hp)) as K2. unfold bls in K2.
    clear - K1 K2 Hb. split; [exact K1|]. change (2 ^ 63) with 9223372036854775808. nia. }
  set (w := s_w s) in *. set (m := w_mkt w) in *.
  assert (Vm : m_maker_volume m <= m_seq m * 9223372036854775807).
  { pose proof (iv_vol _ _ _ _ _ _ HI) as G. unfold vol_all in G. fold w m in G. lia. }
  pose proof (mk_seq _ HM) as Sq. fold m in Sq. unfold u64_ok in Sq.
  assert (Vt : forall k a, acct_get k (w_accts w) = Some a -> 0 <= p_taker_volume (a_pos a)).
  { intros k a Ha. exact (po_tv _ _ (ac_pos _ _ _ _ (ld_acct _ _ _ HL _ _ Ha))). }
  assert (Va : vol_taken m (w_accts w) <= m_seq m * 9223372036854775807).
  { pose proof (iv_vol _ _ _ _ _ _ HI) as G. pose proof (iv_taken _ _ _ _ _ _ HI) as G2. fold w m in G, G2. lia. }
  pose proof (asum_nonneg p_taker_volume _ (ld_keys _ _ _ HL) Vt) as Na.
  constructor.
  - intros sd t l Hl. destruct (F1 _ _ _ Hl) as (G1 & G2 & G3 & G4 & G8). pose proof (leaf_slot _ _ _ _ _ _ _ _ _ HI Hl) as G5.
    destruct (order_piece _ _ _ _ _ (iv_rep _ _ _ _ _ _ HI) Hl) as (lp & Hp). pose proof (Q _ Hp) as G6.
    destruct (rp_side _ _ (iv_rep _ _ _ _ _ _ HI) sd) as (T & Hf & _). pose proof (proj1 (in_orders _ _ _ _ _ _ Hf eq_refl) Hl) as Hl0.
    destruct (ft_leaves _ _ _ Hf _ _ Hl0) as [G7 _]. constructor; assumption.
  - intros e He. pose proof (waiting_small _ _ F2 He) as E. destruct (event_pieces _ _ _ (iv_rep _ _ _ _ _ _ HI) He) as (p & Hp & Ep). pose proof (Q _ Hp) as G6.
    destruct e as [f|o].
    + destruct Ep as (id & ->). destruct E as (E1 & E2 & E3 & E4 & E5 & E6 & E7 & E8 & E9). cbn [event_fits]. cbn [pc_qty] in G6. constructor; try assumption.
      destruct (pk_kind _ _ (ld_piece _ _ _ HL _ Hp)) as (K1 & K2 & _). split; [lia|]. unfold fill_quote, qls in K2. change (2 ^ 63) with 9223372036854775808.
      clear - K1 K2 G6 Hq. assert (fe_price f <= fe_qty f * fe_price f) by nia. assert (0 <= fe_qty f * fe_price f) by nia.
      set (z := fe_qty f * fe_price f) in *. clearbody z. nia.
    + destruct Ep as (lp & id & ->). destruct E as (E1 & E2 & E3 & E4). cbn [event_fits]. cbn [pc_qty] in G6. constructor; assumption.
  - intros k a Ha. pose proof (ld_acct _ _ _ HL _ _ Ha) as HA. destruct HA as [[P1 P2 P3 P4 P5 P6 P7 (P8 & P9 & P10)] A2 A3 A4 A5 _ _].
    pose proof (psum_side_nonneg _ _ _ k Bid pc_qty HL (fun p Hp => Z.lt_le_incl _ _ (pk_qty _ _ Hp))) as N1.
    pose proof (psum_side_nonneg _ _ _ k Ask pc_qty HL (fun p Hp => Z.lt_le_incl _ _ (pk_qty _ _ Hp))) as N2.
    assert (N3 : 0 <= psum (of_side k Bid (fun p => pc_qty p * pc_lp p)) P).
    { apply (psum_side_nonneg _ _ _ k Bid _ HL). intros p Hp. pose proof (pk_qty _ _ Hp). pose proof (pk_lp _ _ Hp). nia. }
    pose proof (asum_del_le p_taker_volume _ _ _ (ld_keys _ _ _ HL) Ha Vt) as Vk. fold m in P6.
    pose proof (mk_tv _ HM) as Nt. fold m in Nt. unfold vol_taken in Va. unfold u64_ok in *.
    destruct (chain_named _ Hr _ _ Ha) as (Q1 & Q2 & Q3 & Q4). constructor; [exact Q1|exact Q2|exact Q3|exact Q4| |split; [exact A2|exact (F3 _ _ Ha)]].
    constructor; unfold is_u64, is_u128; change (2 ^ 63) with 9223372036854775808; try lia.
  - pose proof (mk_accr _ HM). pose proof (mk_mv _ HM). pose proof (mk_tv _ HM) as Nt. fold m in Nt. pose proof (iv_fee _ _ _ _ _ _ HI) as Hfee. unfold fee_all in Hfee. fold w m in Hfee.
    unfold vol_taken in Va. destruct HM as [_ M1 M2 M3 M4 _ _ _ _ _]. fold m. unfold u64_ok in *.
    constructor; try assumption; unfold is_u64, is_u128; try lia.
Qed.
