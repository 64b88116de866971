(** Editing orders and self trades. *)
From Coq Require Import ZArith List Bool Lia ZifyBool Permutation.
From Verif Require Import Base Nodes OrderTree BookSide Heap Market OpenOrders Order Book Instructions
  BaseFacts HeapFacts SpecBook SpecFees SpecOrder MatchFacts OrderFacts PlaceFacts OrderSpecProofs
  Steps StepFacts TokenFacts SpecLedger SpecEvents Ledger LedgerOps LedgerMoves LedgerPlace LedgerOrder LedgerInv SpecSystem SystemFacts Solvency
  ConsumeFacts SpecControl ControlFacts LifeFacts IdFacts AuthFacts EndFacts SpecInstr InstrFacts SpecMore FeeGap.
Import ListNotations.
Open Scope Z_scope.

(** ** Editing *)
Lemma cancel_all_controls n : forall i w k limit total so co w' q a,
  cancel_all_loop n i w k limit total so co = Ok (w', q) -> acct_get k (w_accts w) = Some a ->
  exists a', acct_get k (w_accts w') = Some a' /\ a_owner a' = a_owner a /\ a_delegate a' = a_delegate a.
Proof.
  induction n as [|n IH]; intros i w k limit total so co w' q a H Hk; cbn [cancel_all_loop] in H.
  - injection H as <- _. exists a. auto.
  - apply bind_ok in H as (a0 & Ea & H). apply bind_ok in H as (oo & Eo & H). cbv zeta in H.
    destruct (oo_free oo) eqn:Efr; [eapply IH; eassumption|].
    destruct (match so with Some s => negb (side_eqb s (oo_side oo)) | None => false end); [eapply IH; eassumption|].
    destruct (match co with Some c => negb (c =? oo_client_id oo) | None => false end); [eapply IH; eassumption|].
    destruct (limit =? 0); [injection H as <- _; exists a; auto|].
    destruct (book_cancel_order w k (oo_id oo) (oo_side oo) (oo_tree oo) None) as [[w1 l]|e] eqn:Ec.
    + apply bind_ok in H as (tot & _ & H). apply book_cancel_inv in Ec as (b & a1 & a2 & _ & _ & Ha1 & Ec & ->).
      rewrite Hk in Ha1. injection Ha1 as <-. apply cancel_traded in Ec. destruct Ec as [O1 O2].
      destruct (IH _ _ _ _ _ _ _ _ _ a2 H) as (a3 & G1 & G2 & G3).
      { cbn [w_set_acct w_set_accts w_accts]. rewrite acct_get_set, Z.eqb_refl.
        replace (w_accts (w_set_book w (oo_side oo) b)) with (w_accts w) by (destruct (oo_side oo); reflexivity). rewrite Hk. reflexivity. }
      exists a3. split; [exact G1|]. split; congruence.
    + destruct e; try discriminate H. eapply IH; eassumption.
Qed.
Lemma cancel_orders_controls w k limit so co w' q a : cancel_all_orders w k limit so co = Ok (w', q) -> acct_get k (w_accts w) = Some a ->
  exists a', acct_get k (w_accts w') = Some a' /\ a_owner a' = a_owner a /\ a_delegate a' = a_delegate a.
Proof. unfold cancel_all_orders. apply cancel_all_controls. Qed.

Lemma constraints_kept s x w : place_constraints s x = Ok tt -> w_mkt w = w_mkt (s_w s) ->
  (forall a, acct_get (px_acct x) (w_accts (s_w s)) = Some a ->
    exists a', acct_get (px_acct x) (w_accts w) = Some a' /\ a_owner a' = a_owner a /\ a_delegate a' = a_delegate a) ->
  place_constraints (s_set_w s w) x = Ok tt.
Proof.
  intros H Em Hk. unfold place_constraints in *. cbn [s_set_w s_w s_tok]. rewrite Em. apply bind_ok in H as (a & Ea & H).
  apply acct_load_ok in Ea. destruct (Hk a Ea) as (a' & Ha' & E1 & E2). unfold acct_load. rewrite Ha'. cbn [bind].
  unfold is_owner_or_delegate in *. rewrite E1, E2. exact H.
Qed.
Lemma controls_kept s x u : place_constraints s x = Ok u -> check_owner_or_delegate (s_w s) (px_signer x) (px_acct x) = Ok tt.
Proof.
  intros H. unfold place_constraints in H. apply bind_ok in H as (a & Ea & H). apply bind_ok in H as (u1 & E1 & _).
  unfold check_owner_or_delegate. rewrite Ea. cbn [bind]. destruct u1. exact E1.
Qed.
Lemma edit_cancel e s x cid ex o limit s' id u : s_closed s = false -> in_u64 cid = true -> place_constraints s x = Ok u ->
  edit_order_ix e s x cid ex o limit = Ok (s', id) ->
  exists s1 q, exec e s (ICancelClient (px_signer x) (px_acct x) cid) = Ok (s1, OLots q) /\
    place_constraints s1 x = Ok tt /\ w_mkt (s_w s1) = w_mkt (s_w s) /\ s_closed s1 = false /\
    ((0 < ex - q < o_max_base o /\ in_i64 (o_max_base o - (ex - q)) = true /\
      place_order_ix e s1 x (o_set_max_base o (o_max_base o - (ex - q))) limit = Ok (s', id)) \/
     ((ex - q <= 0 \/ o_max_base o <= ex - q) /\ s' = s1 /\ id = None)).
Proof.
  intros Hcl Hc Hx H. unfold edit_order_ix in H. apply bind_ok in H as (u1 & _ & H). apply bind_ok in H as ([w q] & E & H). cbv zeta in H.
  exists (s_set_w s w), q. split.
  { unfold exec. rewrite Hcl. cbn [andb]. unfold exec_open. cbn beta iota zeta. unfold u64_arg. rewrite Hc. cbn [require bind].
    rewrite (controls_kept _ _ _ Hx). cbn [bind]. rewrite E. reflexivity. }
  destruct u. pose proof (proj1 (cancel_orders_mkt _ _ _ _ _ _ _ E)) as Em. split.
  { apply constraints_kept; [exact Hx|exact Em|]. intros a Ha. exact (cancel_orders_controls _ _ _ _ _ _ _ _ E Ha). }
  split; [exact Em|]. split; [exact Hcl|]. apply bind_ok in H as (f & Ef & H). apply chk_i64_ok in Ef as [-> Rf].
  destruct ((0 <? ex - q) && (ex - q <? o_max_base o)) eqn:Ec.
  - left. apply bind_ok in H as (mb & Em' & H). apply chk_i64_ok in Em' as [-> Rm]. split; [lia|]. split; [|exact H].
    unfold in_i64, in_range, i64_min, i64_max. lia.
  - right. injection H as <- <-. split; [lia|]. split; reflexivity.
Qed.

Lemma edit_done e s x cid n g s' out : exec e s (IEditOrder x cid n g) = Ok (s', out) ->
  edited e s x cid n (pa_max_base g) (pa_expiry g) (fun b => IPlaceOrder x (resize g b)) s' out.
Proof.
  intros H. unfold exec in H. cbn [needs_market] in H. rewrite andb_true_r in H. destruct (s_closed s) eqn:Hcl; [discriminate H|].
  unfold exec_open in H. cbv zeta in H. apply bind_ok in H as (u1 & E1 & H). apply bind_ok in H as (u2 & E2 & H). apply require_ok in E2.
  apply bind_ok in H as (u3 & E3 & H). apply bind_ok in H as (u4 & E4 & H). apply bind_ok in H as (now & En & H). apply bind_ok in H as (oo & Eo & H).
  pose proof En as En'. apply now_u64_is in En' as [-> Hn].
  assert (Hex : 0 <= pa_expiry g) by (unfold check_place_args in E1; do 4 (apply bind_ok in E1 as (? & _ & E1)); apply bind_ok in E1 as (? & E1 & _);
    apply require_ok in E1; unfold in_u64, in_range in E1; lia).
  destruct oo as [o|].
  2:{ injection H as <- <-. apply args_order in Eo. apply tif_none in Eo; [|exact Hn|exact Hex]. exact (ed_late _ _ _ _ _ _ _ _ Eo). }
  unfold lift_id in H. apply bind_ok in H as ([s2 id] & H & E5). injection E5 as <- <-.
  assert (Eb : o_max_base o = pa_max_base g /\ forall b, order_of_args (e_now e) (resize g b) = Ok (Some (o_set_max_base o b))).
  { unfold order_of_args in Eo. apply bind_ok in Eo as (v & V & Eo). destruct (tif_from_expiry (e_now e) (pa_expiry g)) eqn:Et; [|discriminate Eo].
    apply bind_ok in Eo as (ps & P & Eo). injection Eo as <-. split; [reflexivity|]. intros b. unfold order_of_args, resize. cbn [pa_price pa_expiry pa_type pa_side pa_max_base pa_max_quote pa_client_id pa_self_trade].
    rewrite V. cbn [bind]. rewrite Et, P. reflexivity. }
  destruct Eb as [Eb Er].
  destruct (edit_cancel _ _ _ _ _ _ _ _ _ _ Hcl E2 E4 H) as (s1 & q & Ec & Hp & Em & Hc1 & [(Hq & Hi & Hpl)|(Hq & -> & ->)]).
  - rewrite Eb in *. refine (ed_replaced _ _ _ _ _ _ _ _ _ _ _ _ Ec Hq _).
    unfold exec. rewrite Hc1. cbn [andb]. unfold exec_open. cbn beta iota zeta.
    assert (Ek : check_place_args (resize g (pa_max_base g - (n - q))) = Ok u1).
    { unfold check_place_args, resize in *. cbn [pa_price pa_max_base pa_max_quote pa_client_id pa_expiry pa_limit].
      unfold i64_arg at 2. rewrite Hi. cbn [require bind]. apply bind_ok in E1 as (y & -> & E1). cbn [bind]. apply bind_ok in E1 as (? & _ & E1). exact E1. }
    rewrite Ek. cbn [bind]. rewrite Hp. cbn [bind]. rewrite En. cbn [bind]. rewrite Er. cbn [bind]. cbn [resize pa_limit].
    rewrite Hpl. reflexivity.
  - rewrite Eb in Hq. exact (ed_cancelled _ _ _ _ _ _ _ _ _ _ Ec Hq).
Qed.

Lemma edit_peg_done e s x cid n g s' out : exec e s (IEditPegged x cid n g) = Ok (s', out) ->
  edited e s x cid n (ga_max_base g) (ga_expiry g) (fun b => IPlacePegged x (resize_peg g b)) s' out.
Proof.
  intros H. unfold exec in H. cbn [needs_market] in H. rewrite andb_true_r in H. destruct (s_closed s) eqn:Hcl; [discriminate H|].
  unfold exec_open in H. cbv zeta in H. apply bind_ok in H as (u1 & E1 & H). apply bind_ok in H as (u2 & E2 & H). apply require_ok in E2.
  apply bind_ok in H as (u3 & E3 & H). apply bind_ok in H as (u4 & E4 & H). apply bind_ok in H as (now & En & H). apply bind_ok in H as (oo & Eo & H).
  pose proof En as En'. apply now_u64_is in En' as [-> Hn].
  assert (Hex : 0 <= ga_expiry g) by (unfold check_peg_args in E1; do 5 (apply bind_ok in E1 as (? & _ & E1)); apply bind_ok in E1 as (? & E1 & _);
    apply require_ok in E1; unfold in_u64, in_range in E1; lia).
  destruct oo as [o|].
  2:{ injection H as <- <-. apply peg_args_order in Eo. apply tif_none in Eo; [|exact Hn|exact Hex]. exact (ed_late _ _ _ _ _ _ _ _ Eo). }
  unfold lift_id in H. apply bind_ok in H as ([s2 id] & H & E5). injection E5 as <- <-.
  assert (Eb : o_max_base o = ga_max_base g /\ forall b, order_of_peg_args (w_mkt (s_w s)) (e_now e) (resize_peg g b) = Ok (Some (o_set_max_base o b))).
  { unfold order_of_peg_args in Eo. apply bind_ok in Eo as (v & V & Eo). apply bind_ok in Eo as (v2 & V2 & Eo). destruct (tif_from_expiry (e_now e) (ga_expiry g)) eqn:Et; [|discriminate Eo].
    apply bind_ok in Eo as (ps & P & Eo). injection Eo as <-. split; [reflexivity|]. intros b. unfold order_of_peg_args, resize_peg.
    cbn [ga_offset ga_peg_limit ga_expiry ga_type ga_side ga_max_base ga_max_quote ga_client_id ga_self_trade].
    rewrite V. cbn [bind]. rewrite V2. cbn [bind]. rewrite Et, P. reflexivity. }
  destruct Eb as [Eb Er].
  destruct (edit_cancel _ _ _ _ _ _ _ _ _ _ Hcl E2 E4 H) as (s1 & q & Ec & Hp & Em & Hc1 & [(Hq & Hi & Hpl)|(Hq & -> & ->)]).
  - rewrite Eb in *. refine (ed_replaced _ _ _ _ _ _ _ _ _ _ _ _ Ec Hq _).
    unfold exec. rewrite Hc1. cbn [andb]. unfold exec_open. cbn beta iota zeta. rewrite Em.
    assert (Ek : check_peg_args (resize_peg g (ga_max_base g - (n - q))) = Ok u1).
    { unfold check_peg_args, resize_peg in *. cbn [ga_offset ga_peg_limit ga_max_base ga_max_quote ga_client_id ga_expiry ga_limit].
      unfold i64_arg at 3. rewrite Hi. cbn [require bind]. apply bind_ok in E1 as (y & -> & E1). cbn [bind]. apply bind_ok in E1 as (y2 & -> & E1). cbn [bind].
      apply bind_ok in E1 as (? & _ & E1). exact E1. }
    rewrite Ek. cbn [bind]. rewrite Hp. cbn [bind]. rewrite En. cbn [bind]. rewrite Er. cbn [bind]. cbn [resize_peg ga_limit].
    rewrite Hpl. reflexivity.
  - rewrite Eb in Hq. exact (ed_cancelled _ _ _ _ _ _ _ _ _ _ Ec Hq).
Qed.

(** ** Self trades *)
Lemma self_fill e s admin f slot : reachable s -> s_closed s = false -> admin = c_consume_events_admin (m_cfg (w_mkt (s_w s))) ->
  In (EFill f, slot) (queue_of (s_w s)) -> fe_maker f = fe_taker f ->
  exists s' a a', exec e s (IConsumeGiven admin [slot] [fe_maker f]) = Ok (s', ONone) /\
    acct_get (fe_maker f) (w_accts (s_w s)) = Some a /\ acct_get (fe_maker f) (w_accts (s_w s')) = Some a' /\
    (forall k, k <> fe_maker f -> acct_get k (w_accts (s_w s')) = acct_get k (w_accts (s_w s))) /\
    let m := w_mkt (s_w s) in let p := a_pos a in let p' := a_pos a' in
    m_fees_accrued (w_mkt (s_w s')) = m_fees_accrued m /\ m_rebates_accrued (w_mkt (s_w s')) = m_rebates_accrued m /\
    m_fees_available (w_mkt (s_w s')) = m_fees_available m /\ p_rebates p' = p_rebates p /\
    match fill_side f with
    | Bid => base_worth m p' = base_worth m p + fe_qty f * bls m /\ quote_worth m p' = quote_worth m p - fill_quote m f /\
             (fe_peg_limit f = -1 -> p_quote_free p' = p_quote_free p /\ p_locked_fees p' = p_locked_fees p)
    | Ask => base_worth m p' = base_worth m p - fe_qty f * bls m /\ quote_worth m p' = quote_worth m p + fill_quote m f
    end.
Proof.
  intros Hr Hcl -> Hin Hself. destruct (consume_single e s (EFill f, slot) Hr Hcl Hin) as (s' & E & _ & Ew & _ & _).
  cbn [fst snd ev_owner map] in E, Ew. unfold deliver in Ew. cbn [fold_left] in Ew.
  destruct (bk_event _ (reachable_backed _ Hr) (EFill f)) as (a & Ha); [unfold waiting; exact (in_map fst _ _ Hin)|]. cbn [ev_owner] in Ha.
  unfold delivered in Ew. cbn [ev_owner] in Ew. rewrite Ha in Ew.
  exists s', a, (filled (w_mkt (s_w s)) a f). split; [exact E|]. split; [exact Ha|]. rewrite Ew. cbn [w_set_heap w_set_acct w_set_accts w_set_mkt w_accts w_mkt].
  split; [rewrite acct_get_set, Z.eqb_refl, Ha; reflexivity|].
  split; [intros k Hk; rewrite acct_get_set; replace (k =? fe_maker f) with false by lia; reflexivity|]. cbv zeta.
  assert (Ep : a_pos (filled (w_mkt (s_w s)) a f) = filled_pos (w_mkt (s_w s)) (a_pos a) f) by (unfold filled; destruct (fe_maker_out f); reflexivity).
  rewrite Ep. assert (Es : fill_self f = true) by (unfold fill_self; lia).
  assert (Ef : fill_fee (w_mkt (s_w s)) f = 0) by (unfold fill_fee; rewrite Es; reflexivity).
  assert (Er : fill_rebate (w_mkt (s_w s)) f = 0) by (unfold fill_rebate; rewrite Es; reflexivity).
  unfold filled_mkt. rewrite Ef. cbn [m_fees_accrued m_rebates_accrued m_fees_available m_set_fees_accrued m_set_maker_volume m_set_rebates_accrued].
  split; [lia|]. split; [lia|]. split; [reflexivity|]. unfold filled_pos. cbv zeta. rewrite Ef, Er. unfold base_worth, quote_worth.
  destruct (fill_side f) eqn:Eside; cbn [p_rebates p_base_free p_asks_base p_quote_free p_bids_quote p_locked_fees].
  - split; [lia|]. split; [lia|]. split.
    + unfold fill_locked, fill_quote. destruct (fill_pegged f); ring.
    + intros Ep'. unfold fill_locked, fill_lp, fill_quote, fill_pegged. rewrite Ep'. change (-1 =? -1) with true. cbn [negb andb]. split; ring.
  - split; [lia|]. split; [lia|]. ring.
Qed.
