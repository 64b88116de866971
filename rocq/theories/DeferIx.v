(** It does not matter in the end which accounts are passed along: the instructions. *)
From Coq Require Import ZArith List Bool Lia ZifyBool Permutation.
From Verif Require Import Base Nodes OrderTree BookSide Heap Market OpenOrders Order Book Instructions
  BaseFacts NodesFacts HeapFacts TreeRep TreeFacts TreeOps TreeIter BookSideFacts BookSideOrder BookSpecProofs SpecBook SpecFees SpecHeap
  HeapSpecProofs FeeFacts SpecOrder MatchFacts MatchBook OrderFacts PlaceFacts OrderSpecProofs OrderClaims Steps StepFacts TokenFacts
  SpecLedger SpecEvents Ledger LedgerOps LedgerMoves LedgerPlace LedgerOrder LedgerInv SpecSystem SystemFacts ConsumeFacts
  SpecDefer DeferFacts DeferOrder DeferPlace DeferRuns.
Import ListNotations.
Open Scope Z_scope.

(** ** Alike but for the sender's penalties *)
Definition bump (n : Z) (a : ooa) : ooa := a_set_pos a (p_set_penalty (a_pos a) n).
Lemma bump_event m a e n : ev_acct m (bump n a) e = bump n (ev_acct m a e).
Proof.
  destruct e as [f|o]; cbn [ev_acct].
  - unfold filled, bump, freed, set_order_at, filled_pos. destruct (fe_maker_out f), (fill_side f); reflexivity.
  - unfold cancelled. change (order_at (bump n a) (oe_slot o)) with (order_at a (oe_slot o)).
    destruct (order_at a (oe_slot o)) as [oo|]; [|reflexivity]. unfold bump, freed, set_order_at, cancelled_pos.
    destruct (oo_side oo); reflexivity.
Qed.
Lemma bump_events m es n : forall a, fold_left (ev_acct m) es (bump n a) = bump n (fold_left (ev_acct m) es a).
Proof. induction es as [|e es IH]; intros a; [reflexivity|]. cbn [fold_left]. rewrite bump_event. apply IH. Qed.

Lemma bump_fate u k a n j : acct_get k (w_accts u) = Some a ->
  fate (w_set_acct u k (bump n a)) j = if j =? k then option_map (bump n) (fate u k) else fate u j.
Proof.
  intros Ha. unfold fate. change (due (w_set_acct u k (bump n a))) with (due u). cbn [w_set_acct w_set_accts w_accts w_mkt].
  destruct (Z.eqb_spec j k) as [E|Hn]; [subst j|].
  - rewrite (get_set_same _ _ _ _ Ha), Ha. cbn [option_map]. rewrite bump_events. reflexivity.
  - rewrite get_set_other by exact Hn. reflexivity.
Qed.
Lemma bump_takings u k a a' : acct_get k (w_accts u) = Some a -> takings (w_set_acct u k a') = takings u.
Proof.
  intros Ha. unfold takings. change (due (w_set_acct u k a')) with (due u). cbn [w_set_acct w_set_accts w_mkt]. f_equal.
  apply filter_ext. intros y. unfold known. cbn [w_set_acct w_set_accts w_accts]. destruct (Z.eq_dec (ev_owner y) k) as [E|Hn].
  - rewrite E, (get_set_same _ _ _ _ Ha), Ha. reflexivity.
  - rewrite get_set_other by exact Hn. reflexivity.
Qed.

Definition near (tk : option Z) (w1 w2 : world) : Prop :=
  even tk w1 w2 \/ exists k u1 u2 a n1 n2, tk = Some k /\ even tk u1 u2 /\ acct_get k (w_accts u1) = Some a /\ acct_get k (w_accts u2) = Some a /\
    Z.abs (n1 - n2) <= 1 /\ w1 = w_set_acct u1 k (bump n1 a) /\ w2 = w_set_acct u2 k (bump n2 a).

Lemma pay_near k w1 w2 a g p n1 n2 : even (Some k) w1 w2 -> acct_get k (w_accts w1) = Some a -> steady g -> Z.abs (n1 - n2) <= 1 ->
  near (Some k) (w_set_acct (w_set_mkt w1 (g (w_mkt w1))) k (a_set_pos a (p_set_penalty p n1)))
                (w_set_acct (w_set_mkt w2 (g (w_mkt w2))) k (a_set_pos a (p_set_penalty p n2))).
Proof.
  intros HE Ha Hg Hn. right.
  exists k, (w_set_acct (w_set_mkt w1 (g (w_mkt w1))) k (a_set_pos a p)), (w_set_acct (w_set_mkt w2 (g (w_mkt w2))) k (a_set_pos a p)), (a_set_pos a p), n1, n2.
  pose proof (proj1 (ev_own _ _ _ HE k eq_refl)) as Hb. rewrite Ha in Hb. symmetry in Hb.
  split; [reflexivity|]. split; [|split; [|split; [|split; [exact Hn|split]]]].
  - apply (even_set_own _ _ _ _ a); [reflexivity|exact Ha|]. apply even_set_mkt; [exact Hg|exact HE].
  - cbn [w_set_acct w_set_accts w_set_mkt w_accts]. eapply get_set_same. exact Ha.
  - cbn [w_set_acct w_set_accts w_set_mkt w_accts]. eapply get_set_same. exact Hb.
  - unfold w_set_acct, w_set_accts. cbn [w_set_mkt w_accts w_mkt w_bids w_asks w_heap]. rewrite acct_set_twice. reflexivity.
  - unfold w_set_acct, w_set_accts. cbn [w_set_mkt w_accts w_mkt w_bids w_asks w_heap]. rewrite acct_set_twice. reflexivity.
Qed.

(** ** Paying *)
Definition lk_due (s : side) (r : order_amounts) (p : position) : Z :=
  cost_of s r - Z.min (cost_of s r) (match s with Bid => p_quote_free p | Ask => p_base_free p end).
Definition lk_pos (s : side) (r : order_amounts) (p : position) : position :=
  match s with
  | Bid => p_set_quote_free p (p_quote_free p - Z.min (cost_of s r) (p_quote_free p))
  | Ask => p_set_base_free p (p_base_free p - Z.min (cost_of s r) (p_base_free p))
  end.
Definition lk_mkt (s : side) (d : Z) (m : market) : market :=
  m_set_quote_total (m_set_base_total m (m_base_total m + match s with Bid => 0 | Ask => d end)) (m_quote_total m + match s with Bid => d | Ask => 0 end).
Lemma lk_steady s d : steady (lk_mkt s d).
Proof. apply steady_totals. Qed.
Definition one_more (b : bool) : Z := if b then 1 else 0.
Lemma lock_run w k s r grew w' d : lock_funds w k s r grew = Ok (w', d) -> exists a, acct_get k (w_accts w) = Some a /\
  d = lk_due s r (a_pos a) /\
  w' = w_set_acct (w_set_mkt w (lk_mkt s d (w_mkt w))) k (a_set_pos a (p_set_penalty (lk_pos s r (a_pos a)) (p_penalty (a_pos a) + one_more grew))).
Proof.
  intros H. unfold lock_funds in H. apply bind_ok in H as (a & Ea & H). apply acct_load_ok in Ea. cbv zeta in H.
  apply bind_ok in H as ([[m' p'] dd] & E & H). apply bind_ok in H as (p'' & E2 & H). injection H as <- <-.
  exists a. split; [exact Ea|].
  assert (Hp : p'' = p_set_penalty p' (p_penalty p' + one_more grew)).
  { destruct grew; cbn [one_more].
    - apply bind_ok in E2 as (n & E2 & E3). apply chk_u64_ok in E2 as [-> R]. injection E3 as <-. reflexivity.
    - injection E2 as <-. rewrite Z.add_0_r. destruct p'; reflexivity. }
  subst p''. unfold lk_due, lk_pos, lk_mkt, cost_of. destruct s.
  - do 6 (let X := fresh in apply bind_ok in E as (? & X & E); apply chk_u64_ok in X as [-> _]). injection E as <- <- <-. split; [reflexivity|].
    cbn [p_set_quote_free p_penalty]. do 2 f_equal. destruct (w_mkt w). unfold m_set_quote_total, m_set_base_total. cbn. f_equal; lia.
  - do 4 (let X := fresh in apply bind_ok in E as (? & X & E); apply chk_u64_ok in X as [-> _]). injection E as <- <- <-. split; [reflexivity|].
    cbn [p_set_base_free p_penalty]. do 2 f_equal. destruct (w_mkt w). unfold m_set_quote_total, m_set_base_total. cbn. f_equal; lia.
Qed.
Lemma one_more_near n b c : Z.abs ((n + one_more b) - (n + one_more c)) <= 1.
Proof. destruct b, c; cbn [one_more]; lia. Qed.

(** ** Instructions *)
Definition pctx (x : place_ctx) (r : list Z) : place_ctx := mkPlaceCtx (px_signer x) (px_acct x) (px_admin x) (px_user_token x) (px_vault x) r.
Definition invariant (w : world) : Prop := exists cl ct P, Inv w 0 0 cl ct P.
(** Two outcomes that come to the same. *)
Record level (tk : option Z) (s1 s2 : sys) : Prop := {
  lv_near : near tk (s_w s1) (s_w s2);
  lv_tok : s_tok s1 = s_tok s2;
  lv_closed : s_closed s1 = s_closed s2 }.
Lemma level_refl tk s : level tk s s.
Proof. constructor; [left; apply even_refl|reflexivity|reflexivity]. Qed.

Lemma place_level e s x r1 r2 o limit s1 s2 i1 i2 : invariant (s_w s) -> params_sane (o_params o) ->
  place_order_ix e s (pctx x r1) o limit = Ok (s1, i1) -> place_order_ix e s (pctx x r2) o limit = Ok (s2, i2) ->
  i1 = i2 /\ level (Some (px_acct x)) s1 s2.
Proof.
  intros (cl & ct & P & HI) Hp H1 H2.
  apply place_ix_inv in H1 as (Hb & Hq & _ & _ & oracle & w1 & ra & w1' & d1 & t1 & _ & O1 & N1 & L1 & T1 & -> & ->).
  apply place_ix_inv in H2 as (_ & _ & _ & _ & oracle' & w2 & rb & w2' & d2 & t2 & _ & O2 & N2 & L2 & T2 & -> & ->).
  cbn [pctx px_signer px_acct px_user_token px_vault px_rem] in *. rewrite O1 in O2. injection O2 as <-.
  assert (Hso : sane_order o) by (constructor; assumption).
  destruct (new_order_even _ _ _ _ _ _ _ _ _ _ _ _ _ _ _ _ _ _ _ _ _ _ _ _ HI HI Hso (or_introl eq_refl) (even_refl _ _) N1 N2) as [<- HE].
  split; [reflexivity|].
  apply lock_run in L1 as (a & A1 & D1 & W1). apply lock_run in L2 as (b & A2 & D2 & W2).
  pose proof (proj1 (ev_own _ _ _ HE _ eq_refl)) as Eo. rewrite A1, A2 in Eo. injection Eo as <-. rewrite <- D1 in D2. subst d2.
  rewrite T1 in T2. injection T2 as <-. constructor; [|reflexivity|reflexivity]. cbn [s_w]. rewrite W1, W2.
  apply (pay_near _ _ _ _ (lk_mkt (o_side o) d1)); [exact HE|exact A1|apply lk_steady|apply one_more_near].
Qed.

Lemma cancel_invariant w k limit so co w' q : invariant w -> cancel_all_orders w k limit so co = Ok (w', q) -> invariant w'.
Proof.
  intros (cl & ct & P & HI) H. apply cancel_orders_steps in H. destruct (wsteps_inv _ _ _ _ _ _ _ _ _ H _ HI) as (P' & G). exists cl, ct, P'. exact G.
Qed.

Lemma edit_level e s x r1 r2 cid expected o limit s1 s2 i1 i2 : invariant (s_w s) -> params_sane (o_params o) ->
  edit_order_ix e s (pctx x r1) cid expected o limit = Ok (s1, i1) -> edit_order_ix e s (pctx x r2) cid expected o limit = Ok (s2, i2) ->
  i1 = i2 /\ level (Some (px_acct x)) s1 s2.
Proof.
  intros HI Hp H1 H2. unfold edit_order_ix in H1, H2. cbn [pctx px_acct] in H1, H2.
  apply bind_ok in H1 as (u1 & _ & H1). apply bind_ok in H1 as ([w q] & E & H1).
  apply bind_ok in H2 as (u2 & _ & H2). apply bind_ok in H2 as ([w' q'] & E' & H2). rewrite E in E'. injection E' as <- <-.
  cbv zeta in H1, H2. apply bind_ok in H1 as (f & F & H1). apply bind_ok in H2 as (f' & F' & H2). rewrite F in F'. injection F' as <-.
  match type of H1 with (if ?c then _ else _) = _ => destruct c end.
  - apply bind_ok in H1 as (mb & M & H1). apply bind_ok in H2 as (mb' & M' & H2). rewrite M in M'. injection M' as <-.
    apply (place_level e (s_set_w s w) x r1 r2 (o_set_max_base o mb) limit); [|exact Hp|exact H1|exact H2]. eapply cancel_invariant; [exact HI|exact E].
  - injection H1 as <- <-. injection H2 as <- <-. split; [reflexivity|apply level_refl].
Qed.

Definition tctx (x : take_ctx) (r : list Z) : take_ctx := mkTakeCtx (tx_signer x) (tx_admin x) (tx_user_base x) (tx_user_quote x) r.
Lemma take_level e s x r1 r2 o limit s1 s2 : invariant (s_w s) -> params_sane (o_params o) ->
  place_take_ix e s (tctx x r1) o limit = Ok s1 -> place_take_ix e s (tctx x r2) o limit = Ok s2 -> level None s1 s2.
Proof.
  intros (cl & ct & P & HI) Hp H1 H2. unfold place_take_ix in H1, H2. cbv zeta in H1, H2.
  cbn [tctx tx_signer tx_user_base tx_user_quote tx_rem] in H1, H2.
  apply bind_ok in H1 as (u1 & E1 & H1). apply require_ok in E1. apply bind_ok in H1 as (u2 & E2 & H1). apply require_ok in E2.
  apply bind_ok in H2 as (v1 & _ & H2). apply bind_ok in H2 as (v2 & _ & H2).
  apply bind_ok in H1 as (u3 & _ & H1). apply bind_ok in H2 as (v3 & _ & H2).
  apply bind_ok in H1 as (now & N1 & H1). apply bind_ok in H2 as (now' & N2 & H2). rewrite N1 in N2. injection N2 as <-.
  apply bind_ok in H1 as (oracle & O1 & H1). apply bind_ok in H2 as (oracle' & O2 & H2). rewrite O1 in O2. injection O2 as <-.
  apply bind_ok in H1 as (u4 & E4 & H1). apply require_ok in E4. apply bind_ok in H2 as (v4 & _ & H2).
  assert (Hn : acct_get (tx_signer x) (w_accts (s_w s)) = None) by (destruct (acct_get (tx_signer x) (w_accts (s_w s))); [discriminate E4|reflexivity]).
  apply bind_ok in H1 as ([w1 ra] & W1 & H1). apply bind_ok in H2 as ([w2 rb] & W2 & H2).
  assert (Hso : sane_order o) by (constructor; [lia|lia|assumption]).
  destruct (new_order_even _ _ _ _ _ _ _ _ _ _ _ _ _ _ _ _ _ _ _ _ _ _ _ _ HI HI Hso (or_intror (conj eq_refl Hn)) (even_refl _ _) W1 W2) as [<- HE].
  apply bind_ok in H1 as (rf & R1 & H1). apply bind_ok in H2 as (rf' & R2 & H2). rewrite R1 in R2. injection R2 as <-.
  assert (G : forall b q m, m_set_quote_total (m_set_base_total m (m_base_total m - b)) (m_quote_total m + q) =
      (fun y => m_set_quote_total (m_set_base_total y (m_base_total y + - b)) (m_quote_total y + q)) m).
  { intros b q m. destruct m. unfold m_set_quote_total, m_set_base_total. cbn. f_equal; lia. }
  assert (G' : forall b q m, m_set_quote_total (m_set_base_total m (m_base_total m + b)) (m_quote_total m - q) =
      (fun y => m_set_quote_total (m_set_base_total y (m_base_total y + b)) (m_quote_total y + - q)) m).
  { intros b q m. destruct m. unfold m_set_quote_total, m_set_base_total. cbn. f_equal; lia. }
  destruct (o_side o).
  - apply bind_ok in H1 as (q & Q1 & H1). apply bind_ok in H2 as (q' & Q2 & H2). rewrite Q1 in Q2. injection Q2 as <-.
    apply bind_ok in H1 as (bt & X & H1). apply chk_u64_ok in X as [-> _]. apply bind_ok in H1 as (qt & X & H1). apply chk_u64_ok in X as [-> _].
    apply bind_ok in H2 as (bt & X & H2). apply chk_u64_ok in X as [-> _]. apply bind_ok in H2 as (qt & X & H2). apply chk_u64_ok in X as [-> _].
    apply bind_ok in H1 as (t1 & T1 & H1). apply bind_ok in H2 as (t1' & T1' & H2). rewrite T1 in T1'. injection T1' as <-.
    apply bind_ok in H1 as (t2 & T2 & H1). apply bind_ok in H2 as (t2' & T2' & H2). rewrite T2 in T2'. injection T2' as <-.
    injection H1 as <-. injection H2 as <-. constructor; [|reflexivity|reflexivity]. left. cbn [s_w]. rewrite !G.
    apply (even_set_mkt None w1 w2 (fun y => m_set_quote_total (m_set_base_total y (m_base_total y + - oa_base_taken ra)) (m_quote_total y + q)));
      [apply steady_totals|exact HE].
  - apply bind_ok in H1 as (q & Q1 & H1). apply bind_ok in H2 as (q' & Q2 & H2). rewrite Q1 in Q2. injection Q2 as <-.
    apply bind_ok in H1 as (bt & X & H1). apply chk_u64_ok in X as [-> _]. apply bind_ok in H1 as (qt & X & H1). apply chk_u64_ok in X as [-> _].
    apply bind_ok in H2 as (bt & X & H2). apply chk_u64_ok in X as [-> _]. apply bind_ok in H2 as (qt & X & H2). apply chk_u64_ok in X as [-> _].
    apply bind_ok in H1 as (t1 & T1 & H1). apply bind_ok in H2 as (t1' & T1' & H2). rewrite T1 in T1'. injection T1' as <-.
    apply bind_ok in H1 as (t2 & T2 & H1). apply bind_ok in H2 as (t2' & T2' & H2). rewrite T2 in T2'. injection T2' as <-.
    injection H1 as <-. injection H2 as <-. constructor; [|reflexivity|reflexivity]. left. cbn [s_w]. rewrite !G'.
    apply (even_set_mkt None w1 w2 (fun y => m_set_quote_total (m_set_base_total y (m_base_total y + oa_base_taken ra)) (m_quote_total y + - q)));
      [apply steady_totals|exact HE].
Qed.

(** Several orders at once. *)
Definition mctx (x : multi_ctx) (r : list Z) : multi_ctx := mkMultiCtx (mx_signer x) (mx_acct x) (mx_admin x) (mx_user_quote x) (mx_user_base x) r.
Definition multi_order (w : world) (k ub uq : Z) (o : order) (ba qa : Z) : res order :=
  capb <- max_base_lots (w_mkt w) ;;
  _ <- require (0 <=? o_max_quote o) InvalidInputLots ;;
  a <- acct_load k (w_accts w) ;;
  match o_side o with
  | Ask =>
      y <- chk_u64 (ub + p_base_free (a_pos a)) ;;
      av <- chk_u64 (y - ba) ;;
      l <- max_base_lots_from_lamports (w_mkt w) av ;;
      Ok (o_set_max_base o (Z.min capb l))
  | Bid =>
      y <- chk_u64 (uq + p_quote_free (a_pos a)) ;;
      av <- chk_u64 (y - qa) ;;
      l <- max_quote_lots_from_lamports (w_mkt w) av ;;
      Ok (mkOrder (o_side o) capb (Z.min (o_max_quote o) l) (o_client_id o) (o_tif o) (o_self_trade o) (o_params o))
  end.
Lemma multi_order_eq w1 w2 k ub uq o ba qa : m_cfg (w_mkt w1) = m_cfg (w_mkt w2) ->
  acct_get k (w_accts w1) = acct_get k (w_accts w2) -> multi_order w1 k ub uq o ba qa = multi_order w2 k ub uq o ba qa.
Proof.
  intros Ec Ea. unfold multi_order, max_base_lots, max_base_lots_from_lamports, max_quote_lots_from_lamports, bls, qls, acct_load.
  rewrite Ec, Ea. reflexivity.
Qed.
Lemma multi_order_sane w k ub uq o ba qa o' : world_sound w -> params_sane (o_params o) -> multi_order w k ub uq o ba qa = Ok o' -> sane_order o'.
Proof.
  intros [Hc _] Hp H. unfold multi_order in H.
  apply bind_ok in H as (capb & E1 & H). apply max_base_lots_nonneg in E1; [|exact Hc].
  apply bind_ok in H as (u2 & E2 & H). apply require_ok in E2. apply bind_ok in H as (a & Ea & Eo).
  pose proof (cs_bls _ Hc) as B1. pose proof (cs_qls _ Hc) as B2. unfold i64_max in B1, B2.
  destruct (o_side o) eqn:Es.
  - apply bind_ok in Eo as (y & X & Eo). apply bind_ok in Eo as (av & X1 & Eo). apply chk_u64_ok in X1 as [-> X1].
    apply bind_ok in Eo as (l & X2 & Eo). apply max_lots_nonneg in X2; [|exact B2|lia]. injection Eo as <-.
    constructor; cbn [o_max_base o_max_quote o_params]; [lia|lia|exact Hp].
  - apply bind_ok in Eo as (y & X & Eo). apply bind_ok in Eo as (av & X1 & Eo). apply chk_u64_ok in X1 as [-> X1].
    apply bind_ok in Eo as (l & X2 & Eo). apply max_lots_nonneg in X2; [|exact B1|lia]. injection Eo as <-.
    constructor; cbn [o_set_max_base o_max_base o_max_quote o_params]; [lia|lia|exact Hp].
Qed.
(** What one order of the list adds to the two bills. *)
Definition multi_bill (s : side) (ba qa : Z) (r : order_amounts) : Z * Z :=
  match s with Bid => (ba, qa + cost_of Bid r) | Ask => (ba + cost_of Ask r, qa) end.
Lemma multi_one_run w x ub uq oracle now limit o ba qa w' ba' qa' id : multi_one w x ub uq oracle now limit o ba qa = Ok (w', ba', qa', id) ->
  exists o' r, multi_order w (mx_acct x) ub uq o ba qa = Ok o' /\
    new_order w o' oracle (Some (mx_acct x)) (mx_acct x) now limit (mx_rem x) = Ok (w', r) /\ id = oa_order_id r /\
    (ba', qa') = multi_bill (o_side o) ba qa r.
Proof.
  intros H. unfold multi_one in H. unfold multi_order.
  apply bind_ok in H as (capb & E1 & H). rewrite E1. cbn [bind]. apply bind_ok in H as (u2 & E2 & H). rewrite E2. cbn [bind].
  apply bind_ok in H as (a & Ea & H). rewrite Ea. cbn [bind]. apply bind_ok in H as (o' & Eo & H). rewrite Eo.
  apply bind_ok in H as ([w1 r] & En & H). exists o', r. split; [reflexivity|]. unfold multi_bill, cost_of.
  destruct (o_side o).
  - do 3 (let X := fresh in apply bind_ok in H as (? & X & H); apply chk_u64_ok in X as [-> ?]).
    apply bind_ok in H as (u5 & _ & H). injection H as <- <- <- <-. auto.
  - apply bind_ok in H as (x1 & X & H). apply chk_u64_ok in X as [-> _]. apply bind_ok in H as (u5 & _ & H). injection H as <- <- <- <-. auto.
Qed.

Lemma multi_loop_even x r1 r2 ub uq oracle now limit : 0 <= limit -> 0 <= now -> forall os w1 w2 db1 dq1 db2 dq2 cl1 ct1 P1 cl2 ct2 P2 ba qa w1' ba1 qa1 ids1 w2' ba2 qa2 ids2,
  Inv w1 db1 dq1 cl1 ct1 P1 -> Inv w2 db2 dq2 cl2 ct2 P2 -> Forall (fun o => params_sane (o_params o)) os -> even (Some (mx_acct x)) w1 w2 ->
  multi_loop w1 (mctx x r1) ub uq oracle now limit os ba qa = Ok (w1', ba1, qa1, ids1) ->
  multi_loop w2 (mctx x r2) ub uq oracle now limit os ba qa = Ok (w2', ba2, qa2, ids2) ->
  ba1 = ba2 /\ qa1 = qa2 /\ ids1 = ids2 /\ even (Some (mx_acct x)) w1' w2'.
Proof.
  intros Hl Hn. induction os as [|o r IH]; intros w1 w2 db1 dq1 db2 dq2 cl1 ct1 P1 cl2 ct2 P2 ba qa w1' ba1 qa1 ids1 w2' ba2 qa2 ids2 I1 I2 Ho HE H1 H2;
    cbn [multi_loop] in H1, H2.
  - injection H1 as <- <- <- <-. injection H2 as <- <- <- <-. auto.
  - inversion Ho as [|? ? Ho1 Ho2]; subst.
    apply bind_ok in H1 as ([[[v1 b1] q1] i1] & E1 & H1). apply bind_ok in H1 as ([[[x1 y1] z1] j1] & F1 & H1). injection H1 as <- <- <- <-.
    apply bind_ok in H2 as ([[[v2 b2] q2] i2] & E2 & H2). apply bind_ok in H2 as ([[[x2 y2] z2] j2] & F2 & H2). injection H2 as <- <- <- <-.
    apply multi_one_run in E1 as (o1 & ra & M1 & N1 & -> & B1). apply multi_one_run in E2 as (o2 & rb & M2 & N2 & -> & B2).
    cbn [mctx mx_acct mx_rem] in M1, M2, N1, N2.
    rewrite (multi_order_eq w1 w2) in M1 by (first [exact (even_cfg _ _ _ HE)|exact (proj1 (ev_own _ _ _ HE _ eq_refl))]).
    rewrite M1 in M2. injection M2 as <-.
    assert (Hso : sane_order o1).
    { eapply multi_order_sane; [|exact Ho1|exact M1]. exact (rep_sound _ _ (iv_rep _ _ _ _ _ _ I2) (iv_led _ _ _ _ _ _ I2)). }
    destruct (new_order_even _ _ _ _ _ _ _ _ _ _ _ _ _ _ _ _ _ _ _ _ _ _ _ _ I1 I2 Hso (or_introl eq_refl) HE N1 N2) as [<- HE'].
    rewrite <- B1 in B2. injection B2 as -> ->.
    destruct (new_order_led _ _ _ _ _ _ _ _ _ _ _ _ _ _ _ I1 Hso (or_introl eq_refl) N1) as (Q1 & J1).
    destruct (new_order_led _ _ _ _ _ _ _ _ _ _ _ _ _ _ _ I2 Hso (or_introl eq_refl) N2) as (Q2 & J2).
    destruct (IH _ _ _ _ _ _ _ _ _ _ _ _ _ _ _ _ _ _ _ _ _ _ J1 J2 Ho2 HE' F1 F2) as (-> & -> & -> & HE'').
    auto.
Qed.

Lemma multi_level e s x r1 r2 cancel os limit s1 s2 i1 i2 : invariant (s_w s) -> Forall (fun o => params_sane (o_params o)) os -> 0 <= limit ->
  multi_ix e s (mctx x r1) cancel os limit = Ok (s1, i1) -> multi_ix e s (mctx x r2) cancel os limit = Ok (s2, i2) ->
  i1 = i2 /\ level (Some (mx_acct x)) s1 s2.
Proof.
  intros HI Ho Hl H1 H2. unfold multi_ix in H1, H2. cbv zeta in H1, H2. cbn [mctx mx_acct mx_signer mx_user_base mx_user_quote] in H1, H2.
  apply bind_ok in H1 as (u1 & _ & H1). apply bind_ok in H2 as (v1 & _ & H2).
  apply bind_ok in H1 as (now & N1 & H1). apply bind_ok in H2 as (now' & N2 & H2). rewrite N1 in N2. injection N2 as <-. apply now_u64_ok in N1.
  apply bind_ok in H1 as (oracle & O1 & H1). apply bind_ok in H2 as (oracle' & O2 & H2). rewrite O1 in O2. injection O2 as <-.
  apply bind_ok in H1 as (w0 & W1 & H1). apply bind_ok in H2 as (w0' & W2 & H2). rewrite W1 in W2. injection W2 as <-.
  assert (I0 : invariant w0).
  { destruct cancel; [|injection W1 as <-; exact HI]. apply bind_ok in W1 as ([w' q] & E & W1). injection W1 as <-. eapply cancel_invariant; [exact HI|exact E]. }
  clear W1. destruct I0 as (cl & ct & P & I0).
  apply bind_ok in H1 as (ub & U1 & H1). apply bind_ok in H2 as (ub' & U2 & H2). rewrite U1 in U2. injection U2 as <-.
  apply bind_ok in H1 as (uq & V1 & H1). apply bind_ok in H2 as (uq' & V2 & H2). rewrite V1 in V2. injection V2 as <-.
  apply bind_ok in H1 as ([[[w1 ba] qa] ids] & E1 & H1). apply bind_ok in H2 as ([[[w2 ba'] qa'] ids'] & E2 & H2).
  destruct (multi_loop_even x r1 r2 _ _ _ _ _ Hl N1 _ _ _ _ _ _ _ _ _ _ _ _ _ _ _ _ _ _ _ _ _ _ _ I0 I0 Ho (even_refl _ _) E1 E2) as (<- & <- & <- & HE).
  apply bind_ok in H1 as (a & A1 & H1). apply acct_load_ok in A1. apply bind_ok in H2 as (b & A2 & H2). apply acct_load_ok in A2.
  pose proof (proj1 (ev_own _ _ _ HE _ eq_refl)) as Eo. rewrite A1, A2 in Eo. injection Eo as <-.
  do 6 (let X := fresh in apply bind_ok in H1 as (? & X & H1); apply chk_u64_ok in X as [-> _]).
  do 6 (let X := fresh in apply bind_ok in H2 as (? & X & H2); apply chk_u64_ok in X as [-> _]).
  apply bind_ok in H1 as (p1 & P1 & H1). apply bind_ok in H2 as (p2 & P2 & H2).
  apply bind_ok in H1 as (t1 & T1 & H1). apply bind_ok in H2 as (t1' & T1' & H2). rewrite T1 in T1'. injection T1' as <-.
  apply bind_ok in H1 as (t2 & T2 & H1). apply bind_ok in H2 as (t2' & T2' & H2). rewrite T2 in T2'. injection T2' as <-.
  injection H1 as <- <-. injection H2 as <- <-. split; [reflexivity|]. constructor; [|reflexivity|reflexivity]. cbn [s_w].
  assert (Pen : forall p c q, (if c : bool then n <- chk_u64 (p_penalty p + 1) ;; Ok (p_set_penalty p n) else Ok p) = Ok q ->
    q = p_set_penalty p (p_penalty p + one_more c)).
  { intros p c q E. destruct c; cbn [one_more].
    - apply bind_ok in E as (n & X & E). apply chk_u64_ok in X as [-> _]. injection E as <-. reflexivity.
    - injection E as <-. rewrite Z.add_0_r. destruct p; reflexivity. }
  apply Pen in P1, P2. subst p1 p2.
  apply (pay_near _ _ _ _ (fun m => m_set_quote_total (m_set_base_total m (m_base_total m + _)) (m_quote_total m + _)));
    [exact HE|exact A1|apply steady_totals|apply one_more_near].
Qed.

(** ** Any instruction *)
Lemma exec_level e s i r1 r2 s1 s2 o1 o2 : reachable s -> exec e s (with_rem i r1) = Ok (s1, o1) -> exec e s (with_rem i r2) = Ok (s2, o2) ->
  o1 = o2 /\ level (placed_by i) s1 s2.
Proof.
  intros Hr H1 H2. assert (HI : invariant (s_w s)) by (exact (reachable_inv _ Hr)).
  unfold exec in H1, H2.
  destruct i; try (cbn [with_rem] in H1, H2; rewrite H1 in H2; injection H2 as <- <-; split; [reflexivity|apply level_refl]);
    (destruct (s_closed s && _); [discriminate H1|]);
    cbn [with_rem placed_by] in *; unfold exec_open in H1, H2; cbv zeta in H1, H2; cbn [px_acct px_rem px_signer tx_signer mx_signer] in H1, H2.
  - apply bind_ok in H1 as (u & E & H1). apply bind_ok in H2 as (u' & _ & H2). apply check_place_ok in E as [E El].
    apply bind_ok in H1 as (u2 & _ & H1). apply bind_ok in H2 as (v2 & _ & H2).
    apply bind_ok in H1 as (now & N1 & H1). apply bind_ok in H2 as (now' & N2 & H2). rewrite N1 in N2. injection N2 as <-.
    apply bind_ok in H1 as (oo & O1 & H1). apply bind_ok in H2 as (oo' & O2 & H2). rewrite O1 in O2. injection O2 as <-.
    destruct oo as [o|]; [|injection H1 as <- <-; injection H2 as <- <-; split; [reflexivity|apply level_refl]].
    unfold lift_id in H1, H2. apply bind_ok in H1 as ([z1 j1] & Z1 & H1). injection H1 as <- <-. apply bind_ok in H2 as ([z2 j2] & Z2 & H2). injection H2 as <- <-.
    destruct (place_level _ _ _ _ _ _ _ _ _ _ _ HI (order_of_args_sane _ _ _ E O1) Z1 Z2) as [<- L]. split; [reflexivity|exact L].
  - apply bind_ok in H1 as (u & _ & H1). apply bind_ok in H2 as (u' & _ & H2).
    apply bind_ok in H1 as (u2 & _ & H1). apply bind_ok in H2 as (v2 & _ & H2).
    apply bind_ok in H1 as (now & N1 & H1). apply bind_ok in H2 as (now' & N2 & H2). rewrite N1 in N2. injection N2 as <-.
    apply bind_ok in H1 as (oo & O1 & H1). apply bind_ok in H2 as (oo' & O2 & H2). rewrite O1 in O2. injection O2 as <-.
    destruct oo as [o|]; [|injection H1 as <- <-; injection H2 as <- <-; split; [reflexivity|apply level_refl]].
    unfold lift_id in H1, H2. apply bind_ok in H1 as ([z1 j1] & Z1 & H1). injection H1 as <- <-. apply bind_ok in H2 as ([z2 j2] & Z2 & H2). injection H2 as <- <-.
    destruct (place_level _ _ _ _ _ _ _ _ _ _ _ HI (order_of_peg_sane _ _ _ _ O1) Z1 Z2) as [<- L]. split; [reflexivity|exact L].
  - apply bind_ok in H1 as (u & E & H1). apply bind_ok in H2 as (u' & _ & H2). apply check_place_ok in E as [E El].
    do 3 (apply bind_ok in H1 as (? & _ & H1); apply bind_ok in H2 as (? & _ & H2)).
    apply bind_ok in H1 as (now & N1 & H1). apply bind_ok in H2 as (now' & N2 & H2). rewrite N1 in N2. injection N2 as <-.
    apply bind_ok in H1 as (oo & O1 & H1). apply bind_ok in H2 as (oo' & O2 & H2). rewrite O1 in O2. injection O2 as <-.
    destruct oo as [o|]; [|injection H1 as <- <-; injection H2 as <- <-; split; [reflexivity|apply level_refl]].
    unfold lift_id in H1, H2. apply bind_ok in H1 as ([z1 j1] & Z1 & H1). injection H1 as <- <-. apply bind_ok in H2 as ([z2 j2] & Z2 & H2). injection H2 as <- <-.
    destruct (edit_level _ _ _ _ _ _ _ _ _ _ _ _ _ HI (order_of_args_sane _ _ _ E O1) Z1 Z2) as [<- L]. split; [reflexivity|exact L].
  - do 4 (apply bind_ok in H1 as (? & _ & H1); apply bind_ok in H2 as (? & _ & H2)).
    apply bind_ok in H1 as (now & N1 & H1). apply bind_ok in H2 as (now' & N2 & H2). rewrite N1 in N2. injection N2 as <-.
    apply bind_ok in H1 as (oo & O1 & H1). apply bind_ok in H2 as (oo' & O2 & H2). rewrite O1 in O2. injection O2 as <-.
    destruct oo as [o|]; [|injection H1 as <- <-; injection H2 as <- <-; split; [reflexivity|apply level_refl]].
    unfold lift_id in H1, H2. apply bind_ok in H1 as ([z1 j1] & Z1 & H1). injection H1 as <- <-. apply bind_ok in H2 as ([z2 j2] & Z2 & H2). injection H2 as <- <-.
    destruct (edit_level _ _ _ _ _ _ _ _ _ _ _ _ _ HI (order_of_peg_sane _ _ _ _ O1) Z1 Z2) as [<- L]. split; [reflexivity|exact L].
  - apply bind_ok in H1 as (u & E & H1). apply bind_ok in H2 as (u' & _ & H2). apply check_take_ok in E as [E El].
    do 2 (apply bind_ok in H1 as (? & _ & H1); apply bind_ok in H2 as (? & _ & H2)).
    apply bind_ok in H1 as (o & O1 & H1). apply bind_ok in H2 as (o' & O2 & H2). rewrite O1 in O2. injection O2 as <-.
    unfold lift_s in H1, H2. apply bind_ok in H1 as (z1 & Z1 & H1). injection H1 as <- <-. apply bind_ok in H2 as (z2 & Z2 & H2). injection H2 as <- <-.
    split; [reflexivity|]. exact (take_level _ _ _ _ _ _ _ _ _ HI (order_of_take_sane _ _ E O1) Z1 Z2).
  - apply bind_ok in H1 as (u & E & H1). apply bind_ok in H2 as (u' & _ & H2). unfold check_multi_args in E. apply require_ok in E. rewrite forallb_app in E.
    apply andb_true_iff in E as [Ea Eb].
    apply bind_ok in H1 as (u3 & El & H1). apply bind_ok in H2 as (u3' & _ & H2).
    do 2 (apply bind_ok in H1 as (? & _ & H1); apply bind_ok in H2 as (? & _ & H2)).
    apply bind_ok in H1 as (now & N1 & H1). apply bind_ok in H2 as (now' & N2 & H2). rewrite N1 in N2. injection N2 as <-.
    apply bind_ok in H1 as (bo & O1 & H1). apply bind_ok in H2 as (bo' & O2 & H2). rewrite O1 in O2. injection O2 as <-.
    apply bind_ok in H1 as (ao & A1 & H1). apply bind_ok in H2 as (ao' & A2 & H2). rewrite A1 in A2. injection A2 as <-.
    apply bind_ok in H1 as ([z1 j1] & Z1 & H1). injection H1 as <- <-. apply bind_ok in H2 as ([z2 j2] & Z2 & H2). injection H2 as <- <-.
    assert (Hl : 0 <= limit) by (unfold u8_arg, in_range in El; apply require_ok in El; lia).
    assert (Ho : Forall (fun o => params_sane (o_params o)) (bo ++ ao)).
    { apply Forall_app. split; [exact (orders_of_multi_sane _ _ _ _ _ _ Ea O1)|exact (orders_of_multi_sane _ _ _ _ _ _ Eb A1)]. }
    destruct (multi_level _ _ _ _ _ _ _ _ _ _ _ _ HI Ho Hl Z1 Z2) as [<- L]. split; [reflexivity|exact L].
Qed.

(** ** Once everything waiting is delivered *)
Lemma settled_world s s' : reachable s -> consumed s s' -> waiting (s_w s') = [] ->
  w_mkt (s_w s') = takings (s_w s) /\ (forall sd, w_book (s_w s') sd = w_book (s_w s) sd) /\
  (forall k, acct_get k (w_accts (s_w s')) = fate (s_w s) k) /\ s_tok s' = s_tok s /\ s_closed s' = s_closed s.
Proof.
  intros Hr H He. destruct (consumed_deliver _ _ H Hr) as (_ & es & HP & Ew & Et & Ec). rewrite He, app_nil_r in HP.
  destruct (reachable_queue _ Hr) as (cl & ct & P & HI & _ & Hw).
  assert (Ed : deliver (s_w s) es = deliver (s_w s) (waiting (s_w s))).
  { symmetry. apply deliver_perm; [exact HP|]. eapply Permutation_NoDup; [|exact (led_last_keys _ _ _ (iv_led _ _ _ _ _ _ HI))].
    apply Permutation_flat_map. symmetry. exact Hw. }
  rewrite Ed in Ew. rewrite Ew. split; [|split; [|split; [|split; [exact Et|exact Ec]]]].
  - rewrite takings_deliver. reflexivity.
  - intros sd. transitivity (w_book (deliver (s_w s) (waiting (s_w s))) sd); [destruct sd; reflexivity|apply deliver_book].
  - intros k. rewrite fate_deliver. reflexivity.
Qed.

Lemma defer_same e s i r1 r2 s1 s2 o1 o2 s1' s2' : reachable s ->
  exec e s (with_rem i r1) = Ok (s1, o1) -> exec e s (with_rem i r2) = Ok (s2, o2) ->
  consumed s1 s1' -> consumed s2 s2' -> waiting (s_w s1') = [] -> waiting (s_w s2') = [] ->
  o1 = o2 /\ same_end (placed_by i) s1' s2'.
Proof.
  intros Hr H1 H2 C1 C2 W1 W2. destruct (exec_level _ _ _ _ _ _ _ _ _ Hr H1 H2) as [Eo [Hn Ht Hc]]. split; [exact Eo|].
  destruct (settled_world _ _ (reach_step _ _ _ _ _ Hr H1) C1 W1) as (M1 & B1 & A1 & T1 & K1).
  destruct (settled_world _ _ (reach_step _ _ _ _ _ Hr H2) C2 W2) as (M2 & B2 & A2 & T2 & K2).
  destruct Hn as [HE|(k & u1 & u2 & a & n1 & n2 & Ek & HE & G1 & G2 & Hd & E1 & E2)].
  - constructor; [rewrite M1, M2; exact (ev_takings _ _ _ HE)|intros sd; rewrite B1, B2; exact (ev_book _ _ _ HE sd)|congruence|congruence| |].
    + intros j _. rewrite A1, A2. exact (ev_fate _ _ _ HE j).
    + intros j b _ Hb. exists b. rewrite A1 in Hb. rewrite A2, <- (ev_fate _ _ _ HE j). split; [exact Hb|]. split; [reflexivity|lia].
  - rewrite E1 in M1, B1, A1. rewrite E2 in M2, B2, A2. constructor.
    + rewrite M1, M2, (bump_takings _ _ _ _ G1), (bump_takings _ _ _ _ G2). exact (ev_takings _ _ _ HE).
    + intros sd. rewrite B1, B2. destruct sd; [exact (ev_book _ _ _ HE Bid)|exact (ev_book _ _ _ HE Ask)].
    + congruence.
    + congruence.
    + intros j Hj. rewrite A1, A2, (bump_fate _ _ _ _ _ G1), (bump_fate _ _ _ _ _ G2). destruct (Z.eqb_spec j k) as [E|_]; [congruence|].
      exact (ev_fate _ _ _ HE j).
    + intros j b Hj Hb. rewrite Ek in Hj. injection Hj as <-. rewrite A1, (bump_fate _ _ _ _ _ G1), Z.eqb_refl in Hb.
      rewrite A2, (bump_fate _ _ _ _ _ G2), Z.eqb_refl, <- (ev_fate _ _ _ HE k). destruct (fate u1 k) as [f|]; [|discriminate Hb].
      cbn [option_map] in *. injection Hb as <-. exists (bump n2 f). split; [reflexivity|]. split; [reflexivity|]. cbn [bump a_set_pos a_pos p_set_penalty p_penalty]. exact Hd.
Qed.
Lemma defer_book e s i r1 r2 s1 s2 o1 o2 : reachable s ->
  exec e s (with_rem i r1) = Ok (s1, o1) -> exec e s (with_rem i r2) = Ok (s2, o2) ->
  (forall sd, w_book (s_w s1) sd = w_book (s_w s2) sd) /\ s_tok s1 = s_tok s2.
Proof.
  intros Hr H1 H2. destruct (exec_level _ _ _ _ _ _ _ _ _ Hr H1 H2) as [_ [Hn Ht _]]. split; [|exact Ht]. intros sd.
  destruct Hn as [HE|(k & u1 & u2 & a & n1 & n2 & _ & HE & _ & _ & _ & -> & ->)]; [exact (ev_book _ _ _ HE sd)|].
  pose proof (ev_book _ _ _ HE sd) as G. destruct sd; exact G.
Qed.
