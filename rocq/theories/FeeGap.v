(** How the fee counters move. *)
From Coq Require Import ZArith List Bool Lia ZifyBool Permutation.
From Verif Require Import Base Nodes OrderTree BookSide Heap Market OpenOrders Order Book Instructions
  BaseFacts HeapFacts SpecBook SpecFees SpecOrder MatchFacts OrderFacts PlaceFacts OrderSpecProofs
  Steps StepFacts TokenFacts SpecLedger SpecEvents Ledger LedgerOps LedgerMoves LedgerPlace LedgerOrder LedgerInv SpecSystem SystemFacts Solvency SpecControl ControlFacts LifeFacts IdFacts AuthFacts EndFacts SpecMore.
Import ListNotations.
Open Scope Z_scope.

(** Fees on record that are not put aside for anybody. *)
Definition gap (w : world) : Z := m_fees_accrued (w_mkt w) - put_aside (w_mkt w).

Lemma gap_mkt w w' : w_mkt w' = w_mkt w -> gap w' = gap w.
Proof. unfold gap. intros ->. reflexivity. Qed.

Lemma execute_maker_gap a m f a' m' : execute_maker a m f = Ok (a', m') ->
  m_fees_accrued m' - put_aside m' = m_fees_accrued m - put_aside m.
Proof.
  unfold execute_maker. intros H. cbv zeta in H.
  do 2 (apply bind_ok in H as (? & _ & H)). apply bind_ok in H as (mf & _ & H). apply bind_ok in H as (mr & _ & H).
  apply bind_ok in H as ([[lm ab] lp] & _ & H). apply bind_ok in H as (p1 & _ & H). apply bind_ok in H as (mv & _ & H).
  apply bind_ok in H as (rb & _ & H). apply bind_ok in H as (r2 & E1 & H). apply chk_u64_ok in E1 as [-> _].
  apply bind_ok in H as (mmv & _ & H). apply bind_ok in H as (mfa & E2 & H). apply chk_u128_ok in E2 as [-> _].
  do 2 (apply bind_ok in H as (? & _ & H)). injection H as _ <-.
  unfold put_aside. cbn [m_fees_accrued m_rebates_accrued m_fees_to_referrers m_fees_available m_set_fees_accrued m_set_maker_volume m_set_rebates_accrued]. lia.
Qed.

Lemma effect_gap o tk owner rem now w a w' : effect o tk owner rem now w a w' -> gap w' = gap w.
Proof.
  intros [w1 i q a1 a' m' _ _ E|w1 i q h _|w1 i w2 H|w1 i a1 a' _ _ _]; try reflexivity.
  - exact (execute_maker_gap _ _ _ _ _ E).
  - apply gap_mkt. exact (proj2 (drop_effect_rest _ _ _ _ _ _ _ H)).
Qed.
Lemma effects_gap o tk owner rem now w acts w' : effects o tk owner rem now w acts w' -> gap w' = gap w.
Proof. induction 1 as [|w a w1 r w2 H _ IH]; [reflexivity|]. apply effect_gap in H. congruence. Qed.

Lemma settle_taker_gap o taker maxq s w' bt qt tf ra rq : settle_taker o taker maxq s = Ok (w', bt, qt, tf, ra, rq) ->
  gap w' = gap (ms_w s) + (match taker with Some _ => 0 | None => ra end) /\ 0 <= ra.
Proof.
  intros H. unfold settle_taker in H. cbv zeta in H.
  do 6 (apply bind_ok in H as (? & _ & H)). apply bind_ok in H as ([[w1 f1] r1] & E & H).
  do 5 (apply bind_ok in H as (? & _ & H)). injection H as <- _ _ _ <- _.
  match type of E with (if ?c then _ else _) = _ => destruct c end.
  2:{ injection E as <- _ <-. split; [destruct taker; lia|lia]. }
  do 2 (apply bind_ok in E as (? & _ & E)). apply bind_ok in E as ([[w2 f2] r2] & E1 & E).
  assert (G : gap w2 = gap (ms_w s) + r2 /\ 0 <= r2).
  { match type of E1 with (if ?c then _ else _) = _ => destruct c end.
    - apply bind_ok in E1 as (tf' & _ & E1). apply bind_ok in E1 as (ra' & R & E1). apply chk_u64_ok in R as [Era R].
      apply bind_ok in E1 as (fa & F & E1). apply chk_u128_ok in F as [-> _]. injection E1 as <- _ <-.
      unfold gap, put_aside, w_set_mkt, m_set_fees_accrued. cbn [w_mkt m_fees_accrued m_rebates_accrued m_fees_to_referrers m_fees_available]. lia.
    - injection E1 as <- _ <-. lia. }
  apply bind_ok in E as (w3 & E2 & E). apply bind_ok in E as (? & _ & E). injection E as <- _ <-.
  destruct G as [G R]. split; [|exact R]. destruct taker as [t|].
  - apply bind_ok in E2 as (a & _ & E2). apply bind_ok in E2 as ([a' m'] & E3 & E2). injection E2 as <-.
    unfold execute_taker in E3. cbv zeta in E3. do 3 (apply bind_ok in E3 as (? & _ & E3)). apply bind_ok in E3 as (mr & M & E3).
    apply chk_u64_ok in M as [-> _]. injection E3 as _ <-. rewrite Z.add_0_r.
    unfold gap, put_aside in *. cbn [w_mkt w_set_acct w_set_accts w_set_mkt m_set_rebates_accrued m_fees_accrued m_rebates_accrued m_fees_to_referrers m_fees_available]. lia.
  - apply bind_ok in E2 as (tv & _ & E2). injection E2 as <-. exact G.
Qed.

Lemma process_out_mkt w tk owner rem ev w' : process_out_event w tk owner rem ev = Ok w' -> w_mkt w' = w_mkt w.
Proof.
  intros H. unfold process_out_event in H. destruct tk as [t|].
  - destruct (owner =? oe_owner ev); [|destruct (mem_key _ _)]; repeat (apply bind_ok in H as (? & _ & H)); injection H as <-; reflexivity.
  - destruct (mem_key _ _); repeat (apply bind_ok in H as (? & _ & H)); injection H as <-; reflexivity.
Qed.
Lemma post_order_mkt w o taker owner rem oracle now id pl price qty target w' pb pq mf :
  post_order w o taker owner rem oracle now id pl price qty target = Ok (w', pb, pq, mf) -> w_mkt w' = w_mkt w.
Proof.
  intros H. unfold post_order in H. cbv zeta in H. do 6 (apply bind_ok in H as (? & _ & H)).
  apply bind_ok in H as ([w1 f1] & E1 & H). apply bind_ok in H as ([b1 ex] & _ & H). apply bind_ok in H as (w3 & E3 & H).
  apply bind_ok in H as (w4 & E4 & H). do 2 (apply bind_ok in H as (? & _ & H)). apply bind_ok in H as ([[b3 ?] ?] & _ & H).
  apply bind_ok in H as (? & _ & H). injection H as <- _ _ _.
  assert (G1 : w_mkt w1 = w_mkt w).
  { destruct (o_side o); [repeat (apply bind_ok in E1 as (? & _ & E1))|]; injection E1 as <- _; reflexivity. }
  assert (G3 : w_mkt w3 = w_mkt w1).
  { destruct ex; [apply process_out_mkt in E3; rewrite E3|injection E3 as <-]; apply w_set_book_mkt. }
  assert (G4 : w_mkt w4 = w_mkt w3).
  { destruct (is_full _); [|injection E4 as <-; reflexivity]. apply bind_ok in E4 as ([b2 ow] & _ & E4). apply bind_ok in E4 as ([wo wp] & _ & E4).
    apply bind_ok in E4 as (? & _ & E4). apply process_out_mkt in E4. rewrite E4. apply w_set_book_mkt. }
  cbn [w_set_acct w_set_accts w_mkt]. rewrite w_set_book_mkt. congruence.
Qed.

Lemma new_order_gap w o oracle taker owner now limit rem w' r : sound_call w o taker owner ->
  new_order w o oracle taker owner now limit rem = Ok (w', r) ->
  gap w' = gap w + (match taker with Some _ => 0 | None => oa_referrer r end) /\ 0 <= oa_referrer r.
Proof.
  intros Hsc H. pose proof Hsc as [Hc Hsd Hso Htk]. pose proof Hso as [Hb0 Hq0 _].
  destruct (sc_other_fits _ _ _ _ Hsc) as (T & Hf & Hage).
  destruct (new_order_inv _ _ _ _ _ _ _ _ _ _ _ Hf Htk Hc Hb0 Hq0 H)
    as (price & pd & maxq & acts & ms & lf & w2 & bt & qt & tf & ra & rq & mf & b2 & T2 & Hpl & Hfin).
  destruct (placed_numbers _ _ _ _ _ _ _ _ _ _ _ _ _ _ _ _ _ _ _ _ _ _ _ _ Hsc Hf Hpl)
    as (_ & _ & _ & _ & _ & _ & _ & _ & _ & _ & _ & _ & _ & _ & _ & _ & Hef & _).
  pose proof (pc_settle _ _ _ _ _ _ _ _ _ _ _ _ _ _ _ _ _ _ _ _ _ _ _ _ Hpl) as Hst.
  apply settle_taker_gap in Hst as [Hst Hra]. apply effects_gap in Hef.
  assert (E0 : gap (w_set_mkt w (m_set_seq (w_mkt w) (m_seq (w_mkt w) + 1))) = gap w) by reflexivity.
  destruct Hfin as [Hno|t w4 pb pq mfees Hpos Htg Hpeg Hpost]; cbn [oa_referrer].
  - split; [|exact Hra]. rewrite (gap_mkt w2) by apply w_set_book_mkt. destruct taker; lia.
  - split; [|exact Hra]. apply post_order_mkt in Hpost. rewrite w_set_book_mkt in Hpost. rewrite (gap_mkt w2) by exact Hpost. destruct taker; lia.
Qed.

Lemma lock_funds_gap w k s r grew w' d : lock_funds w k s r grew = Ok (w', d) -> gap w' = gap w.
Proof.
  intros H. apply lock_funds_inv in H as (a & m' & p' & _ & (_ & _ & pen & _ & Hp) & ->).
  destruct s; destruct Hp as [-> _]; reflexivity.
Qed.
Lemma place_ix_gap e s x o limit s' id : world_sound (s_w s) -> params_sane (o_params o) ->
  place_order_ix e s x o limit = Ok (s', id) -> gap (s_w s') = gap (s_w s).
Proof.
  intros Hs Hp H. apply place_ix_inv in H as (Hb & Hq & _ & _ & oracle & w1 & r & w2 & d & t & _ & _ & En & Ek & _ & -> & _).
  apply lock_funds_gap in Ek. cbn [s_w]. rewrite Ek.
  assert (Hsc : sound_call (s_w s) o (Some (px_acct x)) (px_acct x)).
  { apply sound_call_of; [exact Hs| |left; reflexivity]. constructor; assumption. }
  apply new_order_gap in En as [En _]; [|exact Hsc]. lia.
Qed.
Lemma multi_loop_gap os : forall w x ub uq oracle now limit ba qa w' ba' qa' ids,
  world_sound w -> Forall (fun o => params_sane (o_params o)) os ->
  multi_loop w x ub uq oracle now limit os ba qa = Ok (w', ba', qa', ids) -> gap w' = gap w.
Proof.
  induction os as [|o r IH]; intros w x ub uq oracle now limit ba qa w' ba' qa' ids Hs Ho H; cbn [multi_loop] in H.
  - injection H as <- <- <- _. reflexivity.
  - apply bind_ok in H as ([[[w1 b1] q1] i1] & E & H). inversion Ho as [|o0 r0 Ho1 Ho2]; subst.
    apply bind_ok in H as ([[[w2 b2] q2] i2] & E2 & H). injection H as <- <- <- _.
    destruct (multi_one_place _ _ _ _ _ _ _ _ _ _ _ _ _ _ Hs Ho1 E) as (o' & r' & Go & _ & En & _ & _ & _).
    assert (Hsc : sound_call w o' (Some (mx_acct x)) (mx_acct x)) by (apply sound_call_of; [exact Hs|exact Go|left; reflexivity]).
    apply IH in E2; [|eapply new_order_sound; [exact Hsc|exact En]|exact Ho2].
    apply new_order_gap in En as [En _]; [|exact Hsc]. lia.
Qed.
Lemma consume_gap ss : forall w rem w', consume_loop w rem ss = Ok w' -> gap w' = gap w.
Proof.
  induction ss as [|a ss IH]; intros w0 rem w' E; cbn [consume_loop] in E; [injection E as <-; reflexivity|].
  apply bind_ok in E as (w1 & E1 & E). rewrite (IH _ _ _ E). clear - E1. apply consume_one_inv in E1 as (ev & _ & E1). destruct ev as [f|o].
  - destruct (mem_key _ _); [|subst; reflexivity]. destruct E1 as (b & b' & m' & h' & x & _ & E2 & _ & ->). exact (execute_maker_gap _ _ _ _ _ E2).
  - destruct (mem_key _ _); [|subst; reflexivity]. destruct E1 as (b & b' & h' & x & _ & _ & _ & ->). reflexivity.
Qed.
Lemma round_off_leftover m p : round_off m p = leftover m p.
Proof. unfold round_off, round_now, leftover. reflexivity. Qed.
Lemma settle_gap s k ub uq ref s' : settle_core s k ub uq ref = Ok s' ->
  exists a, acct_get k (w_accts (s_w s)) = Some a /\ gap (s_w s') = gap (s_w s) - leftover (w_mkt (s_w s)) (a_pos a).
Proof.
  intros H. apply settle_inv in H as (a & t0 & t1 & t2 & Ha & H). cbv zeta in H. destruct H as (_ & _ & _ & _ & ->).
  exists a. split; [exact Ha|]. rewrite <- round_off_leftover. cbn [s_w]. unfold gap, put_aside.
  cbn [w_set_acct w_set_accts w_set_mkt w_mkt settled_mkt m_fees_accrued m_rebates_accrued m_fees_to_referrers m_fees_available].
  destruct ref; lia.
Qed.
Lemma deposit_gap e s u k ub uq b q s' : deposit_ix e s u k ub uq b q = Ok s' -> gap (s_w s') = gap (s_w s).
Proof. intros H. unfold deposit_ix in H. cbv zeta in H. do 10 (apply bind_ok in H as (? & _ & H)). injection H as <-. reflexivity. Qed.
Lemma multi_gap e s x cancel os limit s' ids : world_sound (s_w s) -> Forall (fun o => params_sane (o_params o)) os ->
  multi_ix e s x cancel os limit = Ok (s', ids) -> gap (s_w s') = gap (s_w s).
Proof.
  intros Hs Hp H. unfold multi_ix in H. cbv zeta in H. do 3 (apply bind_ok in H as (? & _ & H)). apply bind_ok in H as (w0 & E0 & H).
  do 2 (apply bind_ok in H as (? & _ & H)). apply bind_ok in H as ([[[w1 ba] qa] is] & E1 & H). apply bind_ok in H as (a & _ & H). cbv zeta in H.
  do 9 (apply bind_ok in H as (? & _ & H)). injection H as <- _. cbn [s_w].
  assert (G0 : gap w0 = gap (s_w s) /\ world_sound w0).
  { destruct cancel; [|injection E0 as <-; split; [reflexivity|exact Hs]]. apply bind_ok in E0 as ([w' q] & E0 & E0'). injection E0' as <-.
    split; [apply gap_mkt; exact (proj1 (cancel_orders_mkt _ _ _ _ _ _ _ E0))|]. exact (wsteps_sound _ _ _ _ _ _ _ (cancel_orders_steps _ _ _ _ _ _ _ E0) Hs). }
  destruct G0 as [G0 Hs0]. apply multi_loop_gap in E1; [|exact Hs0|exact Hp].
  unfold gap in *. exact (eq_trans E1 G0).
Qed.

Lemma exec_gap e s i s' out : reachable s -> exec e s i = Ok (s', out) -> is_take i = false ->
  gap (s_w s') = gap (s_w s) + swept_by i s - left_by i s.
Proof.
  intros Hr H Ht. pose proof (reachable_sound _ Hr) as Hs.
  destruct (is_placing i) eqn:Hp.
  - apply exec_placing in H; [|exact Hp].
    destruct H as [i _ _ _|i x o limit s' id Hi _ Hps _ H|i x cid ex o limit s' id Hi _ Hps _ H|x g o limit s' _ _ _ _ H|x cancel t bids asks limit os s' ids _ _ Hps _ H].
    + destruct i; try discriminate Hp; cbn; lia.
    + apply place_ix_gap in H; [|exact Hs|exact Hps]. destruct Hi as [(g & ->)|(g & ->)]; cbn [swept_by left_by]; lia.
    + unfold edit_order_ix in H. apply bind_ok in H as (u1 & _ & H). apply bind_ok in H as ([w q] & E & H). cbv zeta in H.
      pose proof (proj1 (cancel_orders_mkt _ _ _ _ _ _ _ E)) as Em.
      apply bind_ok in H as (f & _ & H).
      assert (G : gap (s_w s') = gap (s_w s)).
      { match type of H with (if ?c then _ else _) = _ => destruct c end.
        - apply bind_ok in H as (mb & _ & H). apply place_ix_gap in H; [|exact (wsteps_sound _ _ _ _ _ _ _ (cancel_orders_steps _ _ _ _ _ _ _ E) Hs)|exact Hps].
          cbn [s_set_w s_w] in H. rewrite H. apply gap_mkt. exact Em.
        - injection H as <- _. cbn [s_set_w s_w]. apply gap_mkt. exact Em. }
      destruct Hi as [(g & ->)|(g & ->)]; cbn [swept_by left_by]; lia.
    + discriminate Ht.
    + apply multi_gap in H; [|exact Hs|exact Hps]. cbn [swept_by left_by]. lia.
  - unfold exec in H. destruct (s_closed s && needs_market i); [discriminate H|]. unfold exec_open in H. cbv zeta in H.
    destruct i as [| | | | | |u k' id|u k' c|u k' sd l|u l r|u l r|u k' ub uq b q|u k' ub uq b q|u k' ub uq ref|u k' ub uq ref|u r
      |k' ow dl n|u k'|u k' d|u|u k' l|u|au f t n|t n|k0 mi ow0|au k0 ow0|au k0 n|au k0]; try discriminate Hp; unfold lift_w, lift_s in H; cbn [swept_by left_by]; rewrite ?Z.add_0_r, ?Z.sub_0_r.
    + apply bind_ok in H as (w & E & H). injection H as <- _. cbn [s_set_w s_w].
      unfold cancel_order_ix in E. do 3 (apply bind_ok in E as (? & _ & E)). destruct (find_order_with_order_id _ _); [|discriminate].
      apply bind_ok in E as ([w1 l] & E & E'). injection E' as <-. apply book_cancel_mkt in E as [E _]. exact (gap_mkt _ _ E).
    + do 2 (apply bind_ok in H as (? & _ & H)). apply bind_ok in H as ([w q] & E & H). injection H as <- _. cbn [s_set_w s_w].
      exact (gap_mkt _ _ (proj1 (cancel_orders_mkt _ _ _ _ _ _ _ E))).
    + do 2 (apply bind_ok in H as (? & _ & H)). apply bind_ok in H as ([w q] & E & H). injection H as <- _. cbn [s_set_w s_w].
      exact (gap_mkt _ _ (proj1 (cancel_orders_mkt _ _ _ _ _ _ _ E))).
    + do 2 (apply bind_ok in H as (? & _ & H)). apply bind_ok in H as (w & E & H). injection H as <- _. cbn [s_set_w s_w].
      unfold consume_events_ix in E. apply bind_ok in E as (ss & _ & E). exact (consume_gap _ _ _ _ E).
    + do 2 (apply bind_ok in H as (? & _ & H)). apply bind_ok in H as (w & E & H). injection H as <- _. cbn [s_set_w s_w].
      unfold consume_events_ix in E. apply bind_ok in E as (ss & _ & E). exact (consume_gap _ _ _ _ E).
    + do 3 (apply bind_ok in H as (? & _ & H)). apply bind_ok in H as (s1 & E & H). injection H as <- _. exact (deposit_gap _ _ _ _ _ _ _ _ _ E).
    + do 3 (apply bind_ok in H as (? & _ & H)). apply bind_ok in H as (s1 & E & H). injection H as <- _. unfold refill_ix in E.
      do 3 (apply bind_ok in E as (? & _ & E)). exact (deposit_gap _ _ _ _ _ _ _ _ _ E).
    + apply bind_ok in H as (s1 & E & H). injection H as <- _. unfold settle_funds_ix in E. do 7 (apply bind_ok in E as (? & _ & E)).
      apply settle_gap in E as (a & -> & E). lia.
    + apply bind_ok in H as (s1 & E & H). injection H as <- _. unfold settle_funds_expired_ix in E. do 8 (apply bind_ok in E as (? & _ & E)).
      apply settle_gap in E as (a & -> & E). lia.
    + apply bind_ok in H as (s1 & E & H). injection H as <- _. unfold sweep_fees_ix in E. cbv zeta in E. do 3 (apply bind_ok in E as (? & _ & E)).
      apply bind_ok in E as (t1 & T & E). injection E as <-. unfold gap, put_aside.
      cbn [s_w w_mkt w_set_mkt m_set_quote_total m_set_fees_available m_fees_accrued m_rebates_accrued m_fees_to_referrers m_fees_available]. lia.
    + apply bind_ok in H as (w & E & H). injection H as <- _. unfold create_account_ix in E. do 2 (apply bind_ok in E as (? & _ & E)). injection E as <-. reflexivity.
    + apply bind_ok in H as (w & E & H). injection H as <- _. unfold close_account_ix in E. do 3 (apply bind_ok in E as (? & _ & E)). injection E as <-. reflexivity.
    + apply bind_ok in H as (w & E & H). injection H as <- _. unfold set_delegate_ix in E. do 2 (apply bind_ok in E as (? & _ & E)). injection E as <-. reflexivity.
    + apply bind_ok in H as (w & E & H). injection H as <- _. unfold set_market_expired_ix in E. do 2 (apply bind_ok in E as (? & _ & E)). injection E as <-. reflexivity.
    + apply bind_ok in H as (? & _ & H). apply bind_ok in H as (w & E & H). injection H as <- _. unfold prune_orders_ix in E. do 3 (apply bind_ok in E as (? & _ & E)).
      apply bind_ok in E as ([w1 q] & E & E'). injection E' as <-. cbn [s_set_w s_w].
      exact (gap_mkt _ _ (proj1 (cancel_orders_mkt _ _ _ _ _ _ _ E))).
    + apply bind_ok in H as (w & _ & H). injection H as <- _. reflexivity.
    + apply bind_ok in H as (? & _ & H). apply bind_ok in H as (t1 & T & H). injection H as <- _. reflexivity.
    + do 3 (apply bind_ok in H as (? & _ & H)). injection H as <- _. reflexivity.
    + do 1 (apply bind_ok in H as (? & _ & H)). injection H as <- _. reflexivity.
    + do 3 (apply bind_ok in H as (? & _ & H)). injection H as <- _. reflexivity.
    + do 5 (apply bind_ok in H as (? & _ & H)). injection H as <- _. reflexivity.
    + do 4 (apply bind_ok in H as (? & _ & H)). injection H as <- _. reflexivity.
Qed.

(** A take order: exactly the part of the fee that its sender does not pay. *)
Lemma take_gap e s x g s' out : reachable s -> exec e s (IPlaceTake x g) = Ok (s', out) -> gap (s_w s) <= gap (s_w s').
Proof.
  intros Hr H. pose proof (reachable_sound _ Hr) as Hs. apply exec_placing in H; [|reflexivity].
  inversion H as [i _ Hn _ | i x0 o limit s1 id Hi _ _ _ _ | i x0 cid ex o limit s1 id Hi _ _ _ _ |x0 g0 o limit s1 _ _ Hps _ E| ]; subst.
  - exfalso. exact (Hn _ _ eq_refl).
  - destruct Hi as [(g' & Hi)|(g' & Hi)]; discriminate Hi.
  - destruct Hi as [(g' & Hi)|(g' & Hi)]; discriminate Hi.
  - unfold place_take_ix in E. cbv zeta in E. apply bind_ok in E as (u1 & R1 & E). apply bind_ok in E as (u2 & R2 & E). apply require_ok in R1, R2.
    do 4 (apply bind_ok in E as (? & _ & E)). apply bind_ok in E as ([w1 r] & En & E).
    assert (Hsc : sound_call (s_w s) o None (tx_signer x)).
    { apply sound_call_of; [exact Hs| |right; reflexivity]. constructor; [lia|lia|exact Hps]. }
    apply new_order_gap in En as [En R]; [|exact Hsc]. apply bind_ok in E as (reb & _ & E).
    assert (G : gap (s_w s') = gap w1).
    { destruct (o_side o); do 5 (apply bind_ok in E as (? & _ & E)); injection E as <-; reflexivity. }
    lia.
Qed.

Lemma fee_history_reachable s sw lf : fee_history s sw lf -> reachable s.
Proof. induction 1 as [now t c te s H|s sw lf e i s' out _ IH _ H]; [exact (reach_create _ _ _ _ _ H)|exact (reach_step _ _ _ _ _ IH H)]. Qed.
Lemma fees_balance s sw lf : fee_history s sw lf -> m_fees_accrued (w_mkt (s_w s)) + lf = put_aside (w_mkt (s_w s)) + sw.
Proof.
  induction 1 as [now t c te s H|s sw lf e i s' out H0 IH Ht H].
  - unfold create_market_ix in H. cbv zeta in H. repeat (apply bind_ok in H as (? & _ & H)). injection H as <-. reflexivity.
  - apply exec_gap in H; [|exact (fee_history_reachable _ _ _ H0)|exact Ht]. unfold gap in H. lia.
Qed.
