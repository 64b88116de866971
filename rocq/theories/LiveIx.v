(** When placing an order goes through: the instructions. *)
From Coq Require Import ZArith List Bool Lia ZifyBool Permutation.
From Verif Require Import Base Nodes OrderTree BookSide Heap Market OpenOrders Order Book Instructions
  BaseFacts NodesFacts HeapFacts TreeRep TreeFacts TreeOps TreeIter BookSideFacts BookSideOrder BookSpecProofs SpecBook SpecFees
  FeeFacts SpecOrder MatchFacts MatchBook OrderFacts PlaceFacts OrderSpecProofs OrderClaims Steps StepFacts TokenFacts SpecLedger SpecEvents Ledger LedgerOps LedgerMoves
  LedgerPlace LedgerOrder LedgerInv SpecSystem SystemFacts Solvency ConsumeFacts ClientProofs LiveFacts LivePlace LiveOrder SpecControl SpecLive.
Import ListNotations.
Open Scope Z_scope.

(** ** The order's own price *)
Lemma best_runs s bs T now oracle : fits s bs T -> exists b, best_price bs now oracle = Ok b /\
  forall p, b = Some p -> 1 <= p <= 9223372036854775807.
Proof.
  intros Hf. unfold best_price, iter_valid. rewrite (iter_all_spec _ _ now oracle (ft_ok _ _ _ Hf) (ft_leaves _ _ _ Hf)). cbn [bind].
  eexists. split; [reflexivity|]. intros p Hp. destruct (filter is_valid (merged bs T now oracle)) as [|i l] eqn:E; [discriminate Hp|].
  injection Hp as <-. assert (Hi : In i (merged bs T now oracle)) by (apply (filter_In is_valid); rewrite E; left; reflexivity).
  pose proof (market_within _ _ _ _ _ _ Hf Hi Bid) as H1. pose proof (market_within _ _ _ _ _ _ Hf Hi Ask) as H2.
  unfold is_price_within_limit, market_order_limit, i64_max in H1, H2. lia.
Qed.

Lemma price_runs w o oracle taker owner now limit rem T : sane_order o ->
  fits (invert_side (o_side o)) (w_book w (invert_side (o_side o))) T ->
  match o_params o with OImmediateOrCancel p | OFillOrKill p | OFixed p _ => 1 <= p | OOraclePegged off _ _ => in_i64 off = true | OMarket => True end ->
  (forall op, oracle = Some op -> in_i64 op = true) ->
  (exists price pd, order_price o (w_book w (invert_side (o_side o))) now oracle = Ok (price, pd)) \/
  (exists er, order_price o (w_book w (invert_side (o_side o))) now oracle = Err er /\ refusal w o oracle taker owner now limit rem er).
Proof.
  intros [_ _ Hs] Hf Hp Ho. unfold is_i64 in Hs. change (2 ^ 63) with 9223372036854775808 in Hs.
  assert (Hfx : forall p, 1 <= p <= 9223372036854775807 -> exists x, fixed_price_data p = Ok x).
  { intros p Hr. unfold fixed_price_data. replace (1 <=? p) with true by lia. cbn [require bind]. eauto. }
  destruct (best_runs _ _ _ now oracle Hf) as (b & Hb & Hbr).
  assert (Hsl : forall p t, -9223372036854775808 <= p <= 9223372036854775807 -> (t = PTPostOnlySlide -> slides o = true) ->
    (exists x, price_for_order_type (o_side o) (w_book w (invert_side (o_side o))) now oracle p t = Ok x /\ -9223372036854775808 <= x <= 9223372036854775807 /\
       (t <> PTPostOnlySlide -> x = p) /\ (x < 1 -> p < 1 \/ refusal w o oracle taker owner now limit rem InvalidPriceLots)) \/
    (price_for_order_type (o_side o) (w_book w (invert_side (o_side o))) now oracle p t = Err Panic /\ refusal w o oracle taker owner now limit rem Panic)).
  { intros p t Hr Ht. unfold price_for_order_type. destruct t; try (left; exists p; split; [reflexivity|]; split; [exact Hr|]; split; [reflexivity|intros Hx; left; exact Hx]).
    specialize (Ht eq_refl). rewrite Hb. cbn [bind].
    destruct b as [b|]; [|left; exists p; split; [reflexivity|]; split; [exact Hr|]; split; [congruence|intros Hx; left; exact Hx]].
    specialize (Hbr b eq_refl). unfold post_only_slide_limit. destruct (o_side o) eqn:Es.
    - rewrite chk_i64_in by lia. cbn [bind]. left. eexists. split; [reflexivity|]. split; [lia|]. split; [congruence|].
      intros Hx. destruct (Z.eq_dec b 1) as [-> | Hne]; [right; apply rf_slide_bid; [exact Ht|exact Es|exact Hb]|left; lia].
    - destruct (Z.eq_dec b 9223372036854775807) as [-> | Hne].
      + right. split; [reflexivity|]. apply rf_slide_ask; [exact Ht|exact Es|exact Hb].
      + rewrite chk_i64_in by lia. cbn [bind]. left. eexists. split; [reflexivity|]. split; [lia|]. split; [congruence|lia]. }
  unfold order_price. destruct (o_params o) as [|p|p t|off t pl|p] eqn:Ep.
  - left. cbn [bind]. unfold market_order_limit, i64_max. destruct (Hfx (match o_side o with Bid => 9223372036854775807 | Ask => 1 end)) as (x & Ex); [destruct (o_side o); lia|].
    replace (1 <=? _) with true by (destruct (o_side o); reflexivity). cbn [require bind]. rewrite Ex. cbn [bind]. eauto.
  - left. cbn [bind]. destruct (Hfx p) as (x & Ex); [lia|]. replace (1 <=? p) with true by lia. cbn [require bind]. rewrite Ex. cbn [bind]. eauto.
  - destruct (Hsl p t) as [(x & Ex & Rx & _ & Hx)|[Ex Rx]]; [lia|unfold slides; rewrite Ep; intros ->; reflexivity| |]; rewrite Ex; cbn [bind].
    + destruct (Z.leb_spec 1 x) as [L|L]; cbn [require bind].
      * left. destruct (Hfx x ltac:(lia)) as (y & Ey). rewrite Ey. cbn [bind]. eauto.
      * right. eexists. split; [reflexivity|]. destruct (Hx L) as [H|H]; [lia|exact H].
    + right. eexists. split; [reflexivity|exact Rx].
  - destruct oracle as [op|].
    2:{ right. eexists. split; [reflexivity|]. eapply rf_no_oracle; [exact Ep|reflexivity]. }
    specialize (Ho op eq_refl). unfold in_i64, in_range, i64_min, i64_max in *. cbn [bind].
    assert (Hbad : ~ 1 <= op + off < 2 ^ 63 -> refusal w o (Some op) taker owner now limit rem InvalidPriceLots).
    { intros N. eapply rf_peg; [exact Ep|reflexivity|exact N]. }
    change (2 ^ 63) with 9223372036854775808 in Hbad.
    destruct ((-9223372036854775808 <=? op + off) && (op + off <=? 9223372036854775807)) eqn:Er.
    2:{ right. eexists. split; [reflexivity|]. apply Hbad. lia. }
    cbn [bind]. destruct (Hsl (op + off) t) as [(x & Ex & Rx & Hx1 & Hx2)|[Ex Rx]]; [lia|unfold slides; rewrite Ep; intros ->; reflexivity| |]; rewrite Ex; cbn [bind].
    2:{ right. eexists. split; [reflexivity|exact Rx]. }
    destruct (Z.leb_spec 1 x) as [L|L]; cbn [require unwrap bind].
    2:{ right. eexists. split; [reflexivity|]. destruct (Hx2 L) as [H|H]; [apply Hbad; lia|exact H]. }
    destruct (Z.leb_spec (x - op) 9223372036854775807) as [L2|L2].
    + left. rewrite chk_i64_in by lia. cbn [bind]. eauto.
    + right. exists Panic. split.
      * unfold chk_i64, chk, in_i64, in_range, i64_min, i64_max. replace (x - op <=? 9223372036854775807) with false by lia. rewrite andb_false_r. reflexivity.
      * eapply rf_slide_peg; [exact Ep| |reflexivity|lia]. unfold slides. rewrite Ep. destruct t; try reflexivity; exfalso; specialize (Hx1 ltac:(discriminate)); lia.
  - left. cbn [bind]. destruct (Hfx p) as (x & Ex); [lia|]. replace (1 <=? p) with true by lia. cbn [require bind]. rewrite Ex. cbn [bind]. eauto.
Qed.

(** ** Fill or kill *)
Definition as_fok (o : order) (p : Z) : order :=
  mkOrder (o_side o) (o_max_base o) (o_max_quote o) (o_client_id o) (o_tif o) (o_self_trade o) (OFillOrKill p).
Lemma loop_fok o p price taker owner rem now items : forall s,
  match_loop (as_fok o p) price taker owner rem now items s = match_loop (as_ioc o p) price taker owner rem now items s.
Proof.
  induction items as [|i r IH]; intros s; [reflexivity|]. cbn [match_loop].
  change (o_side (as_fok o p)) with (o_side (as_ioc o p)). change (o_self_trade (as_fok o p)) with (o_self_trade (as_ioc o p)).
  change (is_post_only (as_fok o p)) with (is_post_only (as_ioc o p)).
  destruct ((ms_base s =? 0) || (ms_quote s =? 0)); [reflexivity|].
  destruct (negb (is_valid i)). { destruct (match_invalid _ _ _ _ _ _ _); cbn [bind]; [apply IH|reflexivity]. }
  destruct (negb (is_price_within_limit _ _ _)); [reflexivity|]. destruct (is_post_only _); [reflexivity|].
  destruct (ms_limit s =? 0); [reflexivity|]. destruct (div_i64 _ _) as [q|]; cbn [bind]; [|reflexivity].
  destruct (q =? 0); [reflexivity|]. cbv zeta. destruct (chk_i64 _) as [mq|]; cbn [bind]; [|reflexivity].
  destruct (_ && _).
  - destruct (o_self_trade (as_ioc o p)).
    + destruct (chk_i64 _) as [d|]; cbn [bind]; [|reflexivity].
      change (match_fill (as_fok o p)) with (match_fill (as_ioc o p)). destruct (match_fill _ _ _ _ _ _ _ _ _ _ _); cbn [bind]; [apply IH|reflexivity].
    + destruct (unwrap taker) as [t|]; cbn [bind]; [|reflexivity]. destruct (acct_load _ _); cbn [bind]; [|reflexivity].
      destruct (ooa_cancel_order _ _ _ _); cbn [bind]; [apply IH|reflexivity].
    + reflexivity.
  - repeat match goal with |- (x <- ?e ;; _) = _ => lazymatch e with match_fill _ _ _ _ _ _ _ _ _ _ _ => fail | _ => destruct e; cbn [bind]; [|reflexivity] end end.
    change (match_fill (as_fok o p)) with (match_fill (as_ioc o p)). destruct (match_fill _ _ _ _ _ _ _ _ _ _ _); cbn [bind]; [apply IH|reflexivity].
Qed.

Lemma settle_fok o p taker maxq ms : settle_taker (as_fok o p) taker maxq ms = settle_taker (as_ioc o p) taker maxq ms.
Proof. reflexivity. Qed.
Lemma settle_base o taker maxq ms w' bt qt tf ra rq : 1 <= bls (w_mkt (ms_w ms)) ->
  settle_taker o taker maxq ms = Ok (w', bt, qt, tf, ra, rq) -> bt = (o_max_base o - ms_base ms) * bls (w_mkt (ms_w ms)).
Proof.
  intros Hb H. unfold settle_taker in H. cbv zeta in H. apply bind_ok in H as (x1 & _ & H). apply bind_ok in H as (x2 & E & H). apply chk_i64_ok in E as [-> _].
  apply bind_ok in H as (u1 & _ & H). apply bind_ok in H as (u2 & E & H). apply massert_ok in E. apply bind_ok in H as (x3 & E3 & H). apply chk_i64_ok in E3 as [-> R3].
  apply bind_ok in H as (x4 & _ & H). apply bind_ok in H as ([[? ?] ?] & _ & H). do 5 (try (apply bind_ok in H as (? & _ & H))). injection H as _ <- _ _ _ _.
  apply as_u64_id. assert (0 <= (o_max_base o - ms_base ms) * bls (w_mkt (ms_w ms))) by nia. lia.
Qed.

Lemma fok_fate w o p oracle taker owner now limit rem w' r : cfg_sound (m_cfg (w_mkt w)) -> tk_ok taker owner ->
  new_order w (as_ioc o p) oracle taker owner now limit rem = Ok (w', r) ->
  new_order w (as_fok o p) oracle taker owner now limit rem = Ok (w', r) \/
  (new_order w (as_fok o p) oracle taker owner now limit rem = Err WouldExecutePartially /\ oa_base_taken r < o_max_base o * bls (w_mkt w)).
Proof.
  intros Hc Htk H. unfold new_order in *. cbv zeta in *.
  change (order_price (as_fok o p)) with (order_price (as_ioc o p)).
  change (o_side (as_fok o p)) with (o_side o). change (o_side (as_ioc o p)) with (o_side o) in *.
  change (is_post_only (as_fok o p)) with (is_post_only (as_ioc o p)). change (o_max_quote (as_fok o p)) with (o_max_quote o). change (o_max_base (as_fok o p)) with (o_max_base o).
  change (o_max_quote (as_ioc o p)) with (o_max_quote o) in *. change (o_max_base (as_ioc o p)) with (o_max_base o) in *.
  change (post_target (as_fok o p)) with (@None otree_id). change (post_target (as_ioc o p)) with (@None otree_id) in *.
  change (order_peg_limit (as_fok o p)) with (-1). change (order_peg_limit (as_ioc o p)) with (-1) in *.
  change (is_fill_or_kill (as_ioc o p)) with false in *. change (is_fill_or_kill (as_fok o p)) with true.
  cbn [Z.eqb negb andb Pos.eqb] in *.
  apply bind_ok in H as ([price pd] & E1 & H). rewrite E1. cbn [bind].
  apply bind_ok in H as ([m1 id] & E2 & H). rewrite E2. cbn [bind]. apply bind_ok in H as (maxq & E3 & H). rewrite E3. cbn [bind].
  apply bind_ok in H as (c1 & E4 & H). rewrite E4. cbn [bind]. apply bind_ok in H as (u1 & E5 & H). rewrite E5. cbn [bind].
  apply bind_ok in H as (c2 & E6 & H). rewrite E6. cbn [bind]. apply bind_ok in H as (u2 & E7 & H). rewrite E7. cbn [bind].
  apply bind_ok in H as (items & E8 & H). rewrite E8. cbn [bind]. rewrite loop_fok.
  apply bind_ok in H as (ms & E9 & H). rewrite E9. cbn [bind]. rewrite settle_fok.
  apply bind_ok in H as ([[[[[w2 bt] qt] tf] ra] rq] & E10 & H). rewrite E10. cbn [bind].
  apply bind_ok in H as (b1 & E11 & H). rewrite E11. cbn [bind]. apply bind_ok in H as (b2 & E12 & H). rewrite E12. cbn [bind].
  apply bind_ok in H as (mf & E13 & H). rewrite E13. cbn [bind]. apply bind_ok in H as (rq' & E14 & H). rewrite E14. cbn [bind].
  apply bind_ok in H as (q & E15 & H). rewrite E15. cbn [bind]. cbn [require negb bind] in H.
  apply match_loop_trace in E9 as (acts & lf & Htr). pose proof (lt_target _ _ _ _ _ _ _ _ _ _ _ Htr eq_refl) as Et. rewrite Et in *.
  assert (En : (if Z.min (ms_base ms) q <=? 0 then None else @None otree_id) = None) by (destruct (Z.min (ms_base ms) q <=? 0); reflexivity). rewrite En in H |- *.
  injection H as <- <-. destruct (Z.ltb_spec 0 (ms_base ms)) as [L|L]; cbn [negb require bind]; [right|left; reflexivity].
  split; [reflexivity|]. cbn [oa_base_taken].
  pose proof (effects_rest _ _ _ _ _ _ _ _ (lt_effects _ _ _ _ _ _ Htk _ _ _ _ _ Htr)) as (_ & _ & Ecm & _). cbn [ms_w w_set_mkt w_mkt] in Ecm.
  unfold gen_order_id in E2. apply bind_ok in E2 as (sq & _ & E2). injection E2 as <- _. cbn [m_set_seq m_cfg] in Ecm.
  assert (Eb : bls (w_mkt (ms_w ms)) = bls (w_mkt w)) by (apply bls_eq; exact Ecm).
  pose proof (cs_bls _ Hc) as C2. change (c_bls (m_cfg (w_mkt w))) with (bls (w_mkt w)) in C2.
  apply settle_base in E10; [|lia]. change (o_max_base (as_ioc o p)) with (o_max_base o) in E10. rewrite Eb in E10. rewrite E10. nia.
Qed.

Lemma bind_err {A B} (x : res A) (f : A -> res B) er : bind x f = Err er -> x = Err er \/ exists a, x = Ok a /\ f a = Err er.
Proof. destruct x as [a|e]; cbn [bind]; intros H; [right; eauto|left; injection H as ->; reflexivity]. Qed.

Lemma fok_err w o p oracle taker owner now limit rem er :
  new_order w (as_ioc o p) oracle taker owner now limit rem = Err er -> new_order w (as_fok o p) oracle taker owner now limit rem = Err er.
Proof.
  intros H. unfold new_order in *. cbv zeta in *.
  change (order_price (as_fok o p)) with (order_price (as_ioc o p)).
  change (o_side (as_fok o p)) with (o_side o). change (o_side (as_ioc o p)) with (o_side o) in *.
  change (is_post_only (as_fok o p)) with (is_post_only (as_ioc o p)). change (o_max_quote (as_fok o p)) with (o_max_quote o). change (o_max_base (as_fok o p)) with (o_max_base o).
  change (o_max_quote (as_ioc o p)) with (o_max_quote o) in *. change (o_max_base (as_ioc o p)) with (o_max_base o) in *.
  change (post_target (as_fok o p)) with (@None otree_id). change (post_target (as_ioc o p)) with (@None otree_id) in *.
  change (order_peg_limit (as_fok o p)) with (-1). change (order_peg_limit (as_ioc o p)) with (-1) in *.
  change (is_fill_or_kill (as_ioc o p)) with false in *. change (is_fill_or_kill (as_fok o p)) with true.
  cbn [Z.eqb negb andb Pos.eqb] in *.
  apply bind_err in H as [H|([price pd] & E1 & H)]; [rewrite H; reflexivity|]. rewrite E1. cbn [bind].
  apply bind_err in H as [H|([m1 id] & E2 & H)]; [rewrite H; reflexivity|]. rewrite E2. cbn [bind].
  apply bind_err in H as [H|(maxq & E3 & H)]; [rewrite H; reflexivity|]. rewrite E3. cbn [bind].
  apply bind_err in H as [H|(c1 & E4 & H)]; [rewrite H; reflexivity|]. rewrite E4. cbn [bind].
  apply bind_err in H as [H|(u1 & E5 & H)]; [rewrite H; reflexivity|]. rewrite E5. cbn [bind].
  apply bind_err in H as [H|(c2 & E6 & H)]; [rewrite H; reflexivity|]. rewrite E6. cbn [bind].
  apply bind_err in H as [H|(u2 & E7 & H)]; [rewrite H; reflexivity|]. rewrite E7. cbn [bind].
  apply bind_err in H as [H|(items & E8 & H)]; [rewrite H; reflexivity|]. rewrite E8. cbn [bind]. rewrite loop_fok.
  apply bind_err in H as [H|(ms & E9 & H)]; [rewrite H; reflexivity|]. rewrite E9. cbn [bind]. rewrite settle_fok.
  apply bind_err in H as [H|([[[[[w2 bt] qt] tf] ra] rq] & E10 & H)]; [rewrite H; reflexivity|]. rewrite E10. cbn [bind].
  apply bind_err in H as [H|(b1 & E11 & H)]; [rewrite H; reflexivity|]. rewrite E11. cbn [bind].
  apply bind_err in H as [H|(b2 & E12 & H)]; [rewrite H; reflexivity|]. rewrite E12. cbn [bind].
  apply bind_err in H as [H|(mf & E13 & H)]; [rewrite H; reflexivity|]. rewrite E13. cbn [bind].
  apply bind_err in H as [H|(rq' & E14 & H)]; [rewrite H; reflexivity|]. rewrite E14. cbn [bind].
  apply bind_err in H as [H|(q & E15 & H)]; [rewrite H; reflexivity|]. exfalso. cbn [require negb bind] in H.
  apply match_loop_trace in E9 as (acts & lf & Htr). pose proof (lt_target _ _ _ _ _ _ _ _ _ _ _ Htr eq_refl) as Et. rewrite Et in H.
  assert (En : (if Z.min (ms_base ms) q <=? 0 then None else @None otree_id) = None) by (destruct (Z.min (ms_base ms) q <=? 0); reflexivity). rewrite En in H.
  discriminate H.
Qed.

(** ** Any order *)
Lemma spacious_fits w P s T0 : Rep w P -> fits s (w_book w s) T0 -> (length (orders w s) < 512)%nat -> (length (all_leaves T0) < 512)%nat.
Proof.
  intros HR HT Hl. unfold orders, all_leaves in *.
  rewrite (proj1 (fits_orders _ _ _ Fixed HT)), (proj1 (fits_orders _ _ _ OraclePegged HT)) in Hl.
  rewrite app_length, !map_length in *. rewrite (Permutation_length (dir_perm s (oleaves (T0 Fixed)))), (Permutation_length (dir_perm s (oleaves (T0 OraclePegged)))) in Hl. exact Hl.
Qed.

Lemma order_runs w cl ct P o oracle taker owner now limit rem fb fq :
  Inv w 0 0 cl ct P -> 0 <= ct -> sane_order o -> tk_ok taker owner -> (taker <> None -> ~ In owner rem) ->
  match o_params o with OImmediateOrCancel p | OFillOrKill p | OFixed p _ => 1 <= p | OOraclePegged off _ _ => in_i64 off = true | OMarket => True end ->
  (forall op, oracle = Some op -> in_i64 op = true) ->
  spacious w (o_max_base o) (o_max_quote o) limit -> (post_target o <> None -> side_room w (o_side o)) -> live_acct w o taker owner fb fq ->
  (exists w' r, new_order w o oracle taker owner now limit rem = Ok (w', r) /\ 0 <= oa_referrer r <= oa_taker_fees r /\
     (o_side o = Ask -> oa_taker_fees r <= oa_quote_taken r) /\
     (taker <> None -> exists a, acct_get owner (w_accts w') = Some a /\ p_penalty (a_pos a) < 18446744073709551615 /\
       fb <= p_base_free (a_pos a) /\ fq <= p_quote_free (a_pos a))) \/
  (exists er, new_order w o oracle taker owner now limit rem = Err er /\ refusal w o oracle taker owner now limit rem er).
Proof.
  intros HI Hct Hso Htk Hrem Hps Hor [Sl Ss Sb Sq Sh Se] Sd Hla.
  pose proof (iv_rep _ _ _ _ _ _ HI) as HR. destruct (rp_side _ _ HR (invert_side (o_side o))) as (T & Hf & _).
  change (2 ^ 64 - 1) with 18446744073709551615 in Ss. change (2 ^ 63) with 9223372036854775808 in *. change (2 ^ 64) with 18446744073709551616 in *.
  assert (Hself : (exists t l, In (t, l) (pleaves (invert_side (o_side o)) P) /\ lf_owner l = owner) -> has_resting w owner (invert_side (o_side o))).
  { intros (t & l & Hin & E). exists t, l. split; [|exact E]. exact (Permutation_in _ (Permutation_sym (rep_orders _ _ _ HR)) Hin). }
  destruct (price_runs w o oracle taker owner now limit rem T Hso Hf Hps Hor) as [(price & pd & Hp)|(er & Hp & Hr)].
  2:{ right. exists er. split; [|exact Hr]. unfold new_order. cbv zeta.
      match goal with |- bind ?x _ = _ => assert (E : x = Err er) by (rewrite <- Hp; destruct (o_side o); reflexivity); rewrite E end. reflexivity. }
  assert (Hroom : heap_room (w_heap w) (limit + 6)) by (unfold heap_room; lia).
  destruct (new_order_runs w cl ct P o oracle taker owner now limit rem price pd fb fq HI Hct Hso Htk Hrem Hp Sl ltac:(lia) ltac:(lia) ltac:(lia) Hroom
    Hla (fun Hpt T0 HT => spacious_fits _ _ _ _ HR HT (Sd Hpt))) as [Hok|[(H1 & H2 & H3 & H4)|(H1 & H2)]].
  - left. exact Hok.
  - right. eexists. split; [exact H2|]. apply rf_self; [exact H1|exact H3|exact (Hself H4)].
  - right. exists WouldExecutePartially. split; [exact H2|].
    destruct (o_params o) as [|p|p t|off t pl|p] eqn:Ep; try (unfold is_fill_or_kill in H1; rewrite Ep in H1; discriminate H1).
    apply (rf_partly _ _ _ _ _ _ _ _ p Ep).
    assert (Eo : o = as_fok o p) by (destruct o; cbn in *; unfold as_fok; cbn; subst; reflexivity).
    assert (Hso' : sane_order (as_ioc o p)) by (destruct Hso as [A B C]; constructor; [exact A|exact B|rewrite Ep in C; exact C]).
    assert (Hp' : order_price (as_ioc o p) (w_book w (invert_side (o_side (as_ioc o p)))) now oracle = Ok (price, pd)).
    { rewrite <- Hp. unfold order_price. rewrite Ep. reflexivity. }
    assert (Hla' : live_acct w (as_ioc o p) taker owner fb fq).
    { unfold live_acct in *. destruct taker; [exact Hla|]. split; [exact (proj1 Hla)|reflexivity]. }
    destruct (new_order_runs w cl ct P (as_ioc o p) oracle taker owner now limit rem price pd fb fq HI Hct Hso' Htk Hrem Hp' Sl ltac:(lia) ltac:(cbn; lia) ltac:(cbn; lia) Hroom Hla'
      (fun Hpt => False_ind _ (Hpt eq_refl))) as [(w' & r & Hok & _)|[(_ & K2 & _)|(K1 & _)]].
    + destruct (fok_fate _ _ _ _ _ _ _ _ _ _ _ (mk_cfg _ (ld_mkt _ _ _ (iv_led _ _ _ _ _ _ HI))) Htk Hok) as [F|[_ F]].
      * rewrite <- Eo in F. congruence.
      * exists w', r. split; [exact Hok|exact F].
    + apply fok_err in K2. rewrite <- Eo in K2. congruence.
    + discriminate K1.
Qed.

(** ** Paying *)
Lemma amounts_nonneg w o oracle taker owner now limit rem w' r : sound_call w o taker owner ->
  new_order w o oracle taker owner now limit rem = Ok (w', r) ->
  0 <= oa_base_taken r /\ 0 <= oa_quote_taken r /\ 0 <= oa_taker_fees r /\ 0 <= oa_posted_base r /\ 0 <= oa_posted_quote r /\ 0 <= oa_maker_fees r.
Proof.
  intros Hsc Hno. destruct (new_order_full _ _ _ _ _ _ _ _ _ _ Hsc Hno) as
    (T & T0 & price & pd & maxq & acts & ms & lf & w2 & bt & qt & tf & ra & rq & mf & b2 & T2 & T3 & gone & put & Hf & Hf0 & Hpl & Hex & R1 & R2 & R3 & R4 & _ & _ & _ & _ & Ecfg' & _ & Hput).
  destruct (placed_numbers _ _ _ _ _ _ _ _ _ _ _ _ _ _ _ _ _ _ _ _ _ _ _ _ Hsc Hf Hpl)
    as (Haf & Eb & Eq & Hb & Hq & Hbl & Hql & Ebt & Eqt & Bbt & Bqt & Etf & _).
  pose proof Hsc as [Hc _ Hso Htk]. pose proof (own_quote_bounds _ _ _ _ _ Haf) as [Hown _].
  pose proof Hc as [C1 C2 C3 C4 C5]. change (c_qls (m_cfg (w_mkt w))) with (qls (w_mkt w)) in C1. change (c_bls (m_cfg (w_mkt w))) with (bls (w_mkt w)) in C2.
  pose proof (ex_put _ _ _ _ _ _ _ _ _ _ _ _ _ Hex) as Hpk.
  set (m := w_mkt w) in *. set (x := quote_lots acts - sumZ (map (self_quote taker owner) acts)) in *.
  assert (Hx : 0 <= x * qls m) by (apply Z.mul_nonneg_nonneg; lia).
  pose proof (taker_pays_bounds m (x * qls m) Hc Hx) as Btf. rewrite <- Etf in Btf.
  rewrite R1, R2, R3. split; [rewrite Ebt; apply Z.mul_nonneg_nonneg; lia|]. split; [rewrite Eqt; apply Z.mul_nonneg_nonneg; lia|]. split; [lia|].
  destruct put as [[t l]|]; cbn [put_ok] in Hpk.
  2:{ destruct Hpk as (_ & -> & -> & ->). lia. }
  destruct Hpk as (_ & _ & Hpos & -> & _). destruct Hput as [_ _ Ppos _ _ _ Pqt Pf _].
  destruct (order_price_facts _ _ _ _ _ _ Hso (pc_price _ _ _ _ _ _ _ _ _ _ _ _ _ _ _ _ _ _ _ _ _ _ _ _ Hpl)) as (Rp & _).
  pose proof (lock_price_pos o price Hso ltac:(lia)) as Hlp.
  assert (Hq0 : 0 <= oa_posted_quote r) by (rewrite Pqt; fold m; repeat apply Z.mul_nonneg_nonneg; lia).
  split; [fold m; apply Z.mul_nonneg_nonneg; lia|]. split; [exact Hq0|]. rewrite Pf. destruct (o_side o); [|lia].
  exact (proj1 (maker_locks_bounds m _ Hc Hq0)).
Qed.

Lemma lock_runs w k s r g a need : acct_get k (w_accts w) = Some a -> p_penalty (a_pos a) < 18446744073709551615 -> 0 <= p_penalty (a_pos a) ->
  0 <= p_base_free (a_pos a) <= 18446744073709551615 -> 0 <= p_quote_free (a_pos a) <= 18446744073709551615 ->
  0 <= oa_base_taken r -> 0 <= oa_quote_taken r -> 0 <= oa_taker_fees r -> 0 <= oa_posted_base r -> 0 <= oa_posted_quote r -> 0 <= oa_maker_fees r ->
  match s with
  | Bid => oa_quote_taken r + oa_taker_fees r + oa_posted_quote r + oa_maker_fees r <= need /\ 0 <= m_quote_total (w_mkt w) /\ m_quote_total (w_mkt w) + need <= 18446744073709551615
  | Ask => oa_base_taken r + oa_posted_base r <= need /\ 0 <= m_base_total (w_mkt w) /\ m_base_total (w_mkt w) + need <= 18446744073709551615
  end -> exists w2 d, lock_funds w k s r g = Ok (w2, d) /\ 0 <= d <= need /\ d <= Z.max 0 (need - free_of a s).
Proof.
  intros Ha Hp Hp0 Hb Hq A1 A2 A3 A4 A5 A6 Hs. unfold lock_funds. rewrite (load_get _ _ _ Ha). cbn [bind]. cbv zeta. unfold free_of.
  assert (Hpen : forall p, p_penalty p = p_penalty (a_pos a) -> exists p2, (if g then n <- chk_u64 (p_penalty p + 1) ;; Ok (p_set_penalty p n) else Ok p) = Ok p2).
  { intros p E. destruct g; [|eauto]. rewrite chk_u64_in by lia. cbn [bind]. eauto. }
  destruct s.
  - do 6 (rewrite chk_u64_in by lia; cbn [bind]).
    match goal with |- exists w2 d, (p'' <- (if g then n <- chk_u64 (p_penalty ?p + 1) ;; _ else _) ;; _) = _ /\ _ => destruct (Hpen p eq_refl) as (p2 & ->) end.
    cbn [bind]. do 2 eexists. split; [reflexivity|]. lia.
  - do 4 (rewrite chk_u64_in by lia; cbn [bind]).
    match goal with |- exists w2 d, (p'' <- (if g then n <- chk_u64 (p_penalty ?p + 1) ;; _ else _) ;; _) = _ /\ _ => destruct (Hpen p eq_refl) as (p2 & ->) end.
    cbn [bind]. do 2 eexists. split; [reflexivity|]. lia.
Qed.

(** ** The instructions *)
Lemma history_volumes s gone : history s gone -> Forall (fun p => 0 <= p_taker_volume p) gone.
Proof.
  induction 1 as [now t c te s H|e s i s' out gone Hh IH H]; [constructor|]. apply Forall_app. split; [|exact IH].
  destruct i; try constructor. cbn [closing]. destruct (acct_get _ _) as [a|] eqn:Ea; constructor; [|constructor].
  destruct (history_inv _ _ Hh) as (P & HI). exact (po_tv _ _ (ac_pos _ _ _ _ (ld_acct _ _ _ (iv_led _ _ _ _ _ _ HI) _ _ Ea))).
Qed.
Lemma reachable_live s : reachable s -> exists cl ct P, Inv (s_w s) 0 0 cl ct P /\ 0 <= ct.
Proof.
  intros H. destruct (reachable_history _ H) as (gone & Hh). destruct (history_inv _ _ Hh) as (P & HI). do 3 eexists. split; [exact HI|].
  pose proof (history_volumes _ _ Hh) as Hv. clear - Hv. induction Hv as [|p l Hp _ IH]; [reflexivity|]. cbn [map]. rewrite sumZ_cons. lia.
Qed.
Lemma oracle_i64 m e oracle : oracle_input m e = Ok oracle -> forall op, oracle = Some op -> in_i64 op = true.
Proof.
  unfold oracle_input. destruct (_ =? _); [intros H; injection H as <-; discriminate|]. intros H op ->.
  apply bind_ok in H as ([p|] & _ & H); [|discriminate H]. apply bind_ok in H as (u & E & H). apply massert_ok in E. congruence.
Qed.
Lemma now_runs e : 0 <= e_now e -> now_u64 e = Ok (e_now e).
Proof. intros H. unfold now_u64. replace (0 <=? e_now e) with true by lia. reflexivity. Qed.

Definition price_given (ps : order_params) : Prop :=
  match ps with OImmediateOrCancel p | OFillOrKill p | OFixed p _ => 1 <= p | OOraclePegged off _ _ => in_i64 off = true | OMarket => True end.

Lemma transfer_runs t d from to auth a b : t from = Some a -> t to = Some b -> t_mint a = t_mint b -> t_owner a = auth ->
  d <= Z.max 0 (t_amount a) -> t_amount b + d <= 18446744073709551615 -> exists t', token_transfer t d from to auth = Ok t'.
Proof.
  intros Ha Hb Hm Ho Hd Hc. destruct (Z.le_gt_cases d 0) as [H|H].
  - unfold token_transfer. replace (0 <? d) with false by lia. eauto.
  - eapply transfer_succeeds; [exact Ha|exact Hb|exact Hm|exact Ho|lia|exact Hc].
Qed.

Lemma still_live now m : ~ expired now m -> market_is_expired m now = false.
Proof. unfold expired, market_is_expired. lia. Qed.
Lemma in_control u a : controls u a -> is_owner_or_delegate a u = true.
Proof. unfold controls, is_owner_or_delegate. destruct (a_delegate a =? 0) eqn:?; lia. Qed.
Lemma place_ix_runs e s x o limit oracle a : reachable s -> trading e s oracle -> sane_order o -> price_given (o_params o) ->
  spacious (s_w s) (o_max_base o) (o_max_quote o) limit -> (post_target o <> None -> side_room (s_w s) (o_side o)) -> may_place s x (o_side o) (o_max_base o) (o_max_quote o) a ->
  (exists s' id, place_order_ix e s x o limit = Ok (s', id)) \/
  (exists er, place_order_ix e s x o limit = Err er /\
     refusal (s_w s) o oracle (Some (px_acct x)) (px_acct x) (e_now e) limit (px_rem x) er).
Proof.
  intros Hr [_ Hlive0 Hnow Horacle] Hso Hpg Hsp Hsd [[Ma Ms0 Mslot Mb Mk Mq Mp] Hsig _ Hvault Hrem Hpay].
  pose proof (still_live _ _ Hlive0) as Hlive. pose proof (in_control _ _ Ms0) as Ms. change (px_vault x = vault_by_side (w_mkt (s_w s)) (o_side o)) in Hvault.
  destruct (reachable_live _ Hr) as (cl & ct & P & HI & Hct). destruct (reachable_solvent _ Hr) as [Vb Vq _ _].
  pose proof (rep_sound _ _ (iv_rep _ _ _ _ _ _ HI) (iv_led _ _ _ _ _ _ HI)) as Hws.
  pose proof (ld_mkt _ _ _ (iv_led _ _ _ _ _ _ HI)) as [Hc Mb0 Mq0 _ _ _ _ _ _ _]. unfold u64_ok in Mb0, Mq0.
  assert (Hsc : sound_call (s_w s) o (Some (px_acct x)) (px_acct x)) by (apply sound_call_of; [exact Hws|exact Hso|left; reflexivity]).
  unfold place_order_ix. pose proof Hso as [Sb Sq _]. pose proof Hsp as [_ _ Xb Xq _ _]. cbv zeta.
  change (2 ^ 63) with 9223372036854775808 in *. change (2 ^ 64 - 1) with 18446744073709551615 in *.
  replace (0 <=? o_max_base o) with true by lia. replace (0 <=? o_max_quote o) with true by lia. cbn [require bind].
  rewrite <- Hvault, Z.eqb_refl, Hlive. cbn [negb require bind]. rewrite (now_runs _ Hnow). cbn [bind]. rewrite Horacle. cbn [bind].
  destruct (order_runs (s_w s) cl ct P o oracle (Some (px_acct x)) (px_acct x) (e_now e) limit (px_rem x) (p_base_free (a_pos a)) (p_quote_free (a_pos a))
    HI Hct Hso (or_introl eq_refl) (fun _ => Hrem) Hpg (oracle_i64 _ _ _ Horacle) Hsp Hsd) as [(w1 & r & Hno & _ & _ & Hac)|(er & Hno & Href)].
  - exists a. split; [exact Ma|]. repeat split; try exact Mslot; lia.
  - left. rewrite Hno. cbn [bind]. destruct (Hac ltac:(discriminate)) as (a1 & Ha1 & Hpen & Hfb & Hfq).
    destruct (new_order_led _ _ _ _ _ _ _ _ _ _ _ _ _ _ _ HI Hso (or_introl eq_refl) Hno) as (P1 & HI1).
    destruct (ac_pos _ _ _ _ (ld_acct _ _ _ (iv_led _ _ _ _ _ _ HI1) _ _ Ha1)) as [Q1 Q2 _ _ Q5 _ _ _]. unfold u64_ok in Q1, Q2, Q5.
    destruct (new_order_terms _ _ _ _ _ _ _ _ _ _ Hsc Hno) as (Ec & _ & Eb & Eq & _).
    destruct (amounts_nonneg _ _ _ _ _ _ _ _ _ _ Hsc Hno) as (A1 & A2 & A3 & A4 & A5 & A6).
    destruct (within_budget _ _ _ _ _ _ _ _ _ _ Hsc Hno) as [B1 B2].
    pose proof (cs_qls _ Hc) as C1. change (c_qls (m_cfg (w_mkt (s_w s)))) with (qls (w_mkt (s_w s))) in C1.
    assert (Hlock : match o_side o with
      | Bid => oa_quote_taken r + oa_taker_fees r + oa_posted_quote r + oa_maker_fees r <= most_native (w_mkt (s_w s)) (o_side o) (o_max_base o) (o_max_quote o) /\ 0 <= m_quote_total (w_mkt w1) /\ m_quote_total (w_mkt w1) + most_native (w_mkt (s_w s)) (o_side o) (o_max_base o) (o_max_quote o) <= 18446744073709551615
      | Ask => oa_base_taken r + oa_posted_base r <= most_native (w_mkt (s_w s)) (o_side o) (o_max_base o) (o_max_quote o) /\ 0 <= m_base_total (w_mkt w1) /\ m_base_total (w_mkt w1) + most_native (w_mkt (s_w s)) (o_side o) (o_max_base o) (o_max_quote o) <= 18446744073709551615
      end).
    { rewrite Eb, Eq. unfold most_native. destruct (o_side o); lia. }
    destruct (lock_runs w1 (px_acct x) (o_side o) r (h_count (w_heap (s_w s)) <? h_count (w_heap w1)) a1 _ Ha1 Hpen ltac:(lia) ltac:(lia) ltac:(lia) A1 A2 A3 A4 A5 A6 Hlock)
      as (w2 & d & Hlk & Hd & Hd2). rewrite Hlk. cbn [bind].
    assert (Hfree : free_of a (o_side o) <= free_of a1 (o_side o)) by (unfold free_of; destruct (o_side o); lia).
    destruct Hpay as [(ut & Ut & Uo & Um & Un) Hcap].
    assert (Hv : exists v, s_tok s (px_vault x) = Some v /\ t_mint v = paid_mint (w_mkt (s_w s)) (o_side o)).
    { rewrite Hvault. unfold vault_by_side, paid_mint. destruct (o_side o); [destruct Vq as (v & V1 & _ & V2 & _)|destruct Vb as (v & V1 & _ & V2 & _)]; eauto. }
    destruct Hv as (v & Hv & Hvm). specialize (Hcap v Hv). change (2 ^ 64) with 18446744073709551616 in Hcap.
    destruct (transfer_runs (s_tok s) d (px_user_token x) (px_vault x) (px_signer x) ut v Ut Hv ltac:(congruence) Uo ltac:(lia) ltac:(lia)) as (t' & Ht).
    rewrite Ht. cbn [bind]. eauto.
  - right. exists er. split; [|exact Href]. rewrite Hno. reflexivity.
Qed.

Lemma place_allowed s x sd mb mq a : reachable s -> may_place s x sd mb mq a -> place_constraints s x = Ok tt.
Proof.
  intros Hr [[Ma Ms0 _ _ _ _ _] Hsig Hadm Hvault _ [(ut & Ut & Uo & Um & _) _]]. pose proof (in_control _ _ Ms0) as Ms. destruct (reachable_solvent _ Hr) as [Vb Vq _ _].
  unfold place_constraints. cbv zeta. rewrite (load_get _ _ _ Ma). cbn [bind]. rewrite Ms. cbn [require bind].
  replace (px_signer x =? _) with false by (symmetry; apply Z.eqb_neq; exact Hsig). cbn [negb require bind].
  assert (Hv : exists v, s_tok s (px_vault x) = Some v /\ t_mint v = paid_mint (w_mkt (s_w s)) sd).
  { rewrite Hvault. unfold paid_vault, paid_mint. destruct sd; [destruct Vq as (v & V1 & _ & V2 & _)|destruct Vb as (v & V1 & _ & V2 & _)]; eauto. }
  destruct Hv as (v & Hv & Hvm). unfold check_mint, tok_load. rewrite Ut, Hv. cbn [bind]. rewrite Um, Hvm, Z.eqb_refl. cbn [require bind].
  rewrite Hadm, Z.eqb_refl. cbn [require bind]. rewrite Hvault. unfold paid_vault. destruct sd; rewrite Z.eqb_refl, ?orb_true_r; reflexivity.
Qed.

Lemma spacious_sizes s mb mq limit : reachable s -> spacious (s_w s) mb mq limit -> 0 <= mb -> 0 <= mq ->
  mb <= 9223372036854775807 /\ mq <= 9223372036854775807.
Proof.
  intros Hr [_ _ Xb Xq _ _] H1 H2. destruct (reachable_live _ Hr) as (cl & ct & P & HI & _).
  pose proof (ld_mkt _ _ _ (iv_led _ _ _ _ _ _ HI)) as [[C1 C2 _ _ _] Mb0 Mq0 _ _ _ _ _ _ _]. unfold u64_ok in Mb0, Mq0.
  change (c_qls (m_cfg (w_mkt (s_w s)))) with (qls (w_mkt (s_w s))) in C1. change (c_bls (m_cfg (w_mkt (s_w s)))) with (bls (w_mkt (s_w s))) in C2.
  change (2 ^ 63) with 9223372036854775808 in *. clear - Xb Xq Mb0 Mq0 C1 C2 H1 H2.
  set (q := qls _) in *. set (b := bls _) in *. nia.
Qed.

Lemma open_exec e s i : s_closed s = false -> exec e s i = exec_open e s i.
Proof. intros H. unfold exec. rewrite H. reflexivity. Qed.
Lemma lift_runs r : (exists s' id, r = Ok (s', id)) -> exists s' out, lift_id r = Ok (s', out).
Proof. intros (s' & id & ->). cbn. eauto. Qed.

Ltac ranges := unfold i64_arg, u64_arg, u8_arg, in_i64, in_u64, in_range, i64_min, i64_max, u64_max, u8_max.

Lemma place_order_goes e s x g oracle a : reachable s -> trading e s oracle -> fair_place g ->
  spacious (s_w s) (pa_max_base g) (pa_max_quote g) (pa_limit g) -> (may_rest (pa_type g) = true -> side_room (s_w s) (pa_side g)) ->
  may_place s x (pa_side g) (pa_max_base g) (pa_max_quote g) a ->
  (exists s' out, exec e s (IPlaceOrder x g) = Ok (s', out)) \/
  (exists o er, order_of_args (e_now e) g = Ok (Some o) /\ exec e s (IPlaceOrder x g) = Err er /\
     refusal (s_w s) o oracle (Some (px_acct x)) (px_acct x) (e_now e) (pa_limit g) (px_rem x) er).
Proof.
  intros Hr Ht [F1 F2 F3 F4 F5] Hsp Hsd Hmp. pose proof Ht as [To Tl Tn Tor]. unfold price_lots, u64 in *.
  destruct (spacious_sizes _ _ _ _ Hr Hsp F2 F3) as [Z1 Z2]. pose proof (sp_limit _ _ _ _ Hsp) as Zl.
  change (2 ^ 63) with 9223372036854775808 in *. change (2 ^ 64) with 18446744073709551616 in *.
  rewrite (open_exec _ _ _ To). unfold exec_open. cbv zeta.
  assert (Hargs : check_place_args g = Ok tt).
  { unfold check_place_args. ranges.
    repeat match goal with |- context [require ?c _] => replace c with true by lia; cbn [require bind] end. reflexivity. }
  rewrite Hargs. cbn [bind]. rewrite (place_allowed _ _ _ _ _ _ Hr Hmp). cbn [bind]. rewrite (now_runs _ Tn). cbn [bind].
  unfold order_of_args. replace (1 <=? pa_price g) with true by lia. cbn [require bind].
  destruct (tif_from_expiry (e_now e) (pa_expiry g)) as [tif|]; cbn [bind]; [|left; eauto].
  assert (Hps : exists ps, params_of (pa_type g) (pa_price g) = Ok ps /\ price_given ps /\ params_sane ps /\
    forall sd mb mq cid tif st, post_target (mkOrder sd mb mq cid tif st ps) <> None -> may_rest (pa_type g) = true).
  { unfold params_of, price_given, params_sane, is_i64. change (2 ^ 63) with 9223372036854775808. destruct (pa_type g); cbn [to_post_order_type bind]; eexists; (split; [reflexivity|]); cbn; (split; [lia|]); (split; [lia|]); intros sd mb mq cid tf st; try reflexivity; intros X; contradiction (X eq_refl). }
  destruct Hps as (ps & -> & Hpg & Hsn & Hmr). cbn [bind].
  set (o := mkOrder (pa_side g) (pa_max_base g) (pa_max_quote g) (pa_client_id g) tif (pa_self_trade g) ps).
  destruct (place_ix_runs e s x o (pa_limit g) oracle a Hr Ht ltac:(constructor; assumption) Hpg Hsp (fun X => Hsd (Hmr _ _ _ _ _ _ X)) Hmp) as [H|(er & H & Href)].
  - left. apply lift_runs. exact H.
  - right. exists o, er. split; [reflexivity|]. split; [rewrite H; reflexivity|exact Href].
Qed.

Lemma place_pegged_goes e s x g oracle a : reachable s -> trading e s oracle -> fair_peg (w_mkt (s_w s)) g ->
  spacious (s_w s) (ga_max_base g) (ga_max_quote g) (ga_limit g) -> side_room (s_w s) (ga_side g) ->
  may_place s x (ga_side g) (ga_max_base g) (ga_max_quote g) a ->
  (exists s' out, exec e s (IPlacePegged x g) = Ok (s', out)) \/
  (exists o er, order_of_peg_args (w_mkt (s_w s)) (e_now e) g = Ok (Some o) /\ exec e s (IPlacePegged x g) = Err er /\
     refusal (s_w s) o oracle (Some (px_acct x)) (px_acct x) (e_now e) (ga_limit g) (px_rem x) er).
Proof.
  intros Hr Ht [F0 F1 F2 F3 F4 F5 F6 F7] Hsp Hsd Hmp. pose proof Ht as [To Tl Tn Tor]. unfold price_lots, u64, is_i64 in *.
  destruct (spacious_sizes _ _ _ _ Hr Hsp F4 F5) as [Z1 Z2]. pose proof (sp_limit _ _ _ _ Hsp) as Zl.
  change (2 ^ 63) with 9223372036854775808 in *. change (2 ^ 64) with 18446744073709551616 in *.
  rewrite (open_exec _ _ _ To). unfold exec_open. cbv zeta.
  assert (Hargs : check_peg_args g = Ok tt).
  { unfold check_peg_args. ranges.
    repeat match goal with |- context [require ?c _] => replace c with true by lia; cbn [require bind] end. reflexivity. }
  rewrite Hargs. cbn [bind]. rewrite (place_allowed _ _ _ _ _ _ Hr Hmp). cbn [bind]. rewrite (now_runs _ Tn). cbn [bind].
  unfold order_of_peg_args. replace (c_oracle_a _ =? 0) with false by (symmetry; apply Z.eqb_neq; exact F0).
  replace (0 <? ga_peg_limit g) with true by lia. cbn [negb require bind].
  destruct (tif_from_expiry (e_now e) (ga_expiry g)) as [tif|]; cbn [bind]; [|left; eauto].
  assert (Hps : exists pt, to_post_order_type (ga_type g) = Ok pt).
  { cbn [In] in F3. destruct F3 as [<- | [<- | [<- | []]]]; cbn; eauto. }
  destruct Hps as (pt & ->). cbn [bind].
  set (o := mkOrder (ga_side g) (ga_max_base g) (ga_max_quote g) (ga_client_id g) tif (ga_self_trade g) (OOraclePegged (ga_offset g) pt (ga_peg_limit g))).
  assert (Hpg : price_given (o_params o)) by (cbn; ranges; lia).
  destruct (place_ix_runs e s x o (ga_limit g) oracle a Hr Ht ltac:(constructor; [exact F4|exact F5|cbn; lia]) Hpg Hsp (fun _ => Hsd) Hmp) as [H|(er & H & Href)].
  - left. apply lift_runs. exact H.
  - right. exists o, er. split; [reflexivity|]. split; [rewrite H; reflexivity|exact Href].
Qed.

Lemma gap_sums w db dq cl ct P : Inv w db dq cl ct P -> 0 <= db + m_base_total (w_mkt w) /\ 0 <= dq + m_quote_total (w_mkt w).
Proof.
  intros [HR HL Gb Gq _ _ _ _]. unfold base_gap, quote_gap in *. pose proof (ld_mkt _ _ _ HL) as [Hc _ _ Mf _ _ _ _ _ _]. unfold u64_ok in Mf.
  assert (S4 : 0 <= psum (base_claim (w_mkt w)) P) by (apply psum_nonneg; intros p Hp; apply base_claim_nonneg; [exact Hc|exact (ld_piece _ _ _ HL _ Hp)]).
  assert (S5 : 0 <= psum (quote_claim (w_mkt w)) P) by (apply psum_nonneg; intros p Hp; apply quote_claim_nonneg; [exact Hc|exact (ld_piece _ _ _ HL _ Hp)]).
  assert (Hpos : forall k b, acct_get k (w_accts w) = Some b -> pos_ok (w_mkt w) (a_pos b)) by (intros k b Hb; exact (ac_pos _ _ _ _ (ld_acct _ _ _ HL _ _ Hb))).
  pose proof (asum_nonneg p_base_free _ (ld_keys _ _ _ HL) (fun k b H => proj1 (po_bf _ _ (Hpos k b H)))).
  pose proof (asum_nonneg p_quote_free _ (ld_keys _ _ _ HL) (fun k b H => proj1 (po_qf _ _ (Hpos k b H)))).
  pose proof (asum_nonneg p_locked_fees _ (ld_keys _ _ _ HL) (fun k b H => proj1 (po_lf _ _ (Hpos k b H)))).
  pose proof (asum_nonneg p_rebates _ (ld_keys _ _ _ HL) (fun k b H => proj1 (po_rb _ _ (Hpos k b H)))). lia.
Qed.

(** One transfer in and one out, of different mints. *)
Lemma swap_runs t d1 d2 user1 vault1 vault2 user2 signer authority a1 v1 v2 a2 :
  t user1 = Some a1 -> t vault1 = Some v1 -> t vault2 = Some v2 -> t user2 = Some a2 ->
  t_mint a1 = t_mint v1 -> t_mint v2 = t_mint a2 -> t_mint a1 <> t_mint v2 -> t_owner a1 = signer -> t_owner v2 = authority ->
  0 <= d1 -> d1 <= Z.max 0 (t_amount a1) -> t_amount v1 + d1 <= 18446744073709551615 -> d2 <= t_amount v2 -> t_amount a2 + d2 <= 18446744073709551615 ->
  exists t1 t2, token_transfer t d1 user1 vault1 signer = Ok t1 /\ token_transfer t1 d2 vault2 user2 authority = Ok t2.
Proof.
  intros U1 V1 V2 U2 M1 M2 N O1 O2 D0 D1 C1 D2 C2.
  destruct (transfer_runs t d1 user1 vault1 signer a1 v1 U1 V1 M1 O1 D1 C1) as (t1 & Ht1).
  assert (E : forall k x, t k = Some x -> t_mint x = t_mint v2 -> t1 k = Some x).
  { intros k x Hk Hm. rewrite (transfer_at _ _ _ _ _ _ k Ht1 D0), Hk. cbn [option_map].
    assert (k <> user1) by (intros ->; congruence). assert (k <> vault1) by (intros ->; congruence).
    replace (k =? vault1) with false by lia. replace (k =? user1) with false by lia. rewrite Z.add_0_r. destruct x; reflexivity. }
  destruct (transfer_succeeds t1 d2 vault2 user2 authority v2 a2 (E _ _ V2 eq_refl) (E _ _ U2 ltac:(congruence)) M2 O2 D2 C2) as (t2 & Ht2). eauto.
Qed.

Lemma take_ix_runs e s x o limit oracle : reachable s -> trading e s oracle -> sane_order o -> price_given (o_params o) -> post_target o = None ->
  spacious (s_w s) (o_max_base o) (o_max_quote o) limit -> may_take s x (o_side o) (o_max_base o) (o_max_quote o) ->
  (exists s', place_take_ix e s x o limit = Ok s') \/
  (exists er, place_take_ix e s x o limit = Err er /\
     refusal (s_w s) o oracle None (tx_signer x) (e_now e) limit (tx_rem x) er).
Proof.
  intros Hr [_ Hlive0 Hnow Horacle] Hso Hpg Htg Hsp [[Hsig Hacct] _ [(pt & Pt & Po & Pm & Pn) Hcap] (gt & Gt & Gm & Gn)].
  pose proof (still_live _ _ Hlive0) as Hlive.
  destruct (reachable_live _ Hr) as (cl & ct & P & HI & Hct). pose proof (reachable_funded _ Hr) as ((_ & Hmn) & _).
  destruct (reachable_solvent _ Hr) as [(vb & Vb & Ob & Mb & Ab) (vq & Vq & Oq & Mq & Aq) _ _].
  pose proof (rep_sound _ _ (iv_rep _ _ _ _ _ _ HI) (iv_led _ _ _ _ _ _ HI)) as Hws.
  pose proof (ld_mkt _ _ _ (iv_led _ _ _ _ _ _ HI)) as [Hc Mb0 Mq0 _ _ _ _ _ _ _]. unfold u64_ok in Mb0, Mq0.
  assert (Hsc : sound_call (s_w s) o None (tx_signer x)) by (apply sound_call_of; [exact Hws|exact Hso|right; reflexivity]).
  unfold place_take_ix. pose proof Hso as [Sb Sq _]. pose proof Hsp as [_ _ Xb Xq _ _]. cbv zeta.
  change (2 ^ 63) with 9223372036854775808 in *. change (2 ^ 64) with 18446744073709551616 in *.
  replace (0 <=? o_max_base o) with true by lia. replace (0 <=? o_max_quote o) with true by lia. cbn [require bind].
  rewrite Hlive. cbn [negb require bind]. rewrite (now_runs _ Hnow). cbn [bind]. rewrite Horacle. cbn [bind]. rewrite Hacct. cbn [require bind].
  destruct (order_runs (s_w s) cl ct P o oracle None (tx_signer x) (e_now e) limit (tx_rem x) 0 0
    HI Hct Hso (or_intror eq_refl) (fun H => False_ind _ (H eq_refl)) Hpg (oracle_i64 _ _ _ Horacle) Hsp (fun Hpt => False_ind _ (Hpt Htg)) (conj Hacct Htg)) as [(w1 & r & Hno & Hrf & Hfe & _)|(er & Hno & Href)].
  2:{ right. exists er. split; [|exact Href]. rewrite Hno. reflexivity. }
  left. rewrite Hno. cbn [bind].
  destruct (new_order_led _ _ _ _ _ _ _ _ _ _ _ _ _ _ _ HI Hso (or_intror (conj eq_refl Hacct)) Hno) as (P1 & HI1).
  destruct (gap_sums _ _ _ _ _ _ HI1) as [Cb Cq].
  destruct (new_order_terms _ _ _ _ _ _ _ _ _ _ Hsc Hno) as (Ec & _ & Eb & Eq & _). rewrite Eb in *. rewrite Eq in *.
  destruct (amounts_nonneg _ _ _ _ _ _ _ _ _ _ Hsc Hno) as (A1 & A2 & A3 & A4 & A5 & A6).
  destruct (within_budget _ _ _ _ _ _ _ _ _ _ Hsc Hno) as [B1 B2].
  pose proof (cs_qls _ Hc) as C1. change (c_qls (m_cfg (w_mkt (s_w s)))) with (qls (w_mkt (s_w s))) in C1.
  assert (Xq' : m_quote_total (w_mkt (s_w s)) + o_max_quote o * qls (w_mkt (s_w s)) < 9223372036854775808) by lia. clear Xq.
  unfold take_pays, take_gets, take_pays, paid_mint, got_mint, paid_mint, most_native, paid_vault, vault_by_side, owed_base, owed_quote in *.
  destruct (o_side o) eqn:Es; cbn [invert_side] in *.
  - do 4 (rewrite chk_u64_in by lia; cbn [bind]).
    specialize (Hcap vq Vq).
    destruct (swap_runs (s_tok s) (oa_quote_taken r + (oa_taker_fees r - oa_referrer r)) (oa_base_taken r) (tx_user_quote x)
      (c_quote_vault (m_cfg (w_mkt (s_w s)))) (c_base_vault (m_cfg (w_mkt (s_w s)))) (tx_user_base x) (tx_signer x) (c_authority (m_cfg (w_mkt (s_w s)))) pt vq vb gt
      Pt Vq Vb Gt ltac:(congruence) ltac:(congruence) ltac:(congruence) Po Ob ltac:(lia) ltac:(lia) ltac:(lia) ltac:(lia) ltac:(lia)) as (t1 & t2 & T1 & T2).
    rewrite T1. cbn [bind]. rewrite T2. cbn [bind]. eauto.
  - specialize (Hfe eq_refl). do 4 (rewrite chk_u64_in by lia; cbn [bind]).
    specialize (Hcap vb Vb).
    destruct (swap_runs (s_tok s) (oa_base_taken r) (oa_quote_taken r - (oa_taker_fees r - oa_referrer r)) (tx_user_base x)
      (c_base_vault (m_cfg (w_mkt (s_w s)))) (c_quote_vault (m_cfg (w_mkt (s_w s)))) (tx_user_quote x) (tx_signer x) (c_authority (m_cfg (w_mkt (s_w s)))) pt vb vq gt
      Pt Vb Vq Gt ltac:(congruence) ltac:(congruence) ltac:(congruence) Po Oq ltac:(lia) ltac:(lia) ltac:(lia) ltac:(lia) ltac:(lia)) as (t1 & t2 & T1 & T2).
    rewrite T1. cbn [bind]. rewrite T2. cbn [bind]. eauto.
Qed.

Lemma place_take_goes e s x g oracle : reachable s -> trading e s oracle -> fair_take g ->
  spacious (s_w s) (ta_max_base g) (ta_max_quote g) (ta_limit g) ->
  may_take s x (ta_side g) (ta_max_base g) (ta_max_quote g) ->
  (exists s' out, exec e s (IPlaceTake x g) = Ok (s', out)) \/
  (exists o er, order_of_take_args g = Ok o /\ exec e s (IPlaceTake x g) = Err er /\
     refusal (s_w s) o oracle None (tx_signer x) (e_now e) (ta_limit g) (tx_rem x) er).
Proof.
  intros Hr Ht [F1 F2 F3 F4] Hsp Hmp. pose proof Ht as [To Tl Tn Tor]. unfold price_lots in *.
  destruct (spacious_sizes _ _ _ _ Hr Hsp F2 F3) as [Z1 Z2]. pose proof (sp_limit _ _ _ _ Hsp) as Zl.
  change (2 ^ 63) with 9223372036854775808 in *.
  rewrite (open_exec _ _ _ To). unfold exec_open. cbv zeta.
  assert (Hargs : check_take_args g = Ok tt).
  { unfold check_take_args. ranges.
    repeat match goal with |- context [require ?c _] => replace c with true by lia; cbn [require bind] end. reflexivity. }
  rewrite Hargs. cbn [bind].
  destruct (reachable_solvent _ Hr) as [(vb & Vb & Ob & Mb & Ab) (vq & Vq & Oq & Mq & Aq) _ _].
  assert (Hcon : take_constraints s x = Ok tt).
  { pose proof Hmp as [_ Hadm [(pt & Pt & _ & Pm & _) _] (gt & Gt & Gm & _)].
    unfold take_constraints. cbv zeta. rewrite Hadm, Z.eqb_refl. cbn [require bind]. unfold check_mint, tok_load. rewrite Vb, Vq.
    unfold take_pays, take_gets, take_pays, paid_mint, got_mint, paid_mint in *.
    destruct (ta_side g); cbn [invert_side] in *; rewrite Pt, Gt; cbn [bind]; rewrite Pm, Gm, Mb, Mq, !Z.eqb_refl; reflexivity. }
  rewrite Hcon. cbn [bind]. replace (tx_signer x =? _) with false by (symmetry; apply Z.eqb_neq; exact (proj1 (mt_signer _ _ _ _ _ Hmp))). cbn [negb require bind].
  unfold order_of_take_args. replace (1 <=? ta_price g) with true by lia. cbn [require bind].
  assert (Hps : exists ps, (match ta_type g with POMarket => Ok OMarket | POImmediateOrCancel => Ok (OImmediateOrCancel (ta_price g)) | POFillOrKill => Ok (OFillOrKill (ta_price g))
        | _ => Err InvalidInputOrderType end) = Ok ps /\ price_given ps /\ params_sane ps /\ forall sd mb mq, post_target (mkOrder sd mb mq 0 0 DecrementTake ps) = None).
  { unfold price_given, params_sane, is_i64. change (2 ^ 63) with 9223372036854775808.
    cbn [In] in F4. destruct F4 as [<- | [<- | [<- | []]]]; eexists; (split; [reflexivity|]); cbn; (split; [lia|]); (split; [lia|]); reflexivity. }
  destruct Hps as (ps & Eps & Hpg & Hsn & Htg). rewrite Eps. cbn [bind].
  set (o := mkOrder (ta_side g) (ta_max_base g) (ta_max_quote g) 0 0 DecrementTake ps).
  destruct (take_ix_runs e s x o (ta_limit g) oracle Hr Ht ltac:(constructor; assumption) Hpg (Htg _ _ _) Hsp Hmp) as [(s' & H)|(er & H & Href)].
  - left. rewrite H. cbn. eauto.
  - right. exists o, er. split; [reflexivity|]. split; [rewrite H; reflexivity|exact Href].
Qed.

(** ** Deciding the hypotheses on examples *)
Definition spacious_b (w : world) (mb mq limit : Z) : bool :=
  (0 <=? limit) && (limit <=? 255) && (m_seq (w_mkt w) <? 2 ^ 64 - 1) && (m_base_total (w_mkt w) + mb * bls (w_mkt w) <? 2 ^ 63) &&
  (m_quote_total (w_mkt w) + (mq + 1) * qls (w_mkt w) <? 2 ^ 63) && (h_count (w_heap w) + limit + 6 <=? 600) &&
  (0 <=? h_seq (w_heap w)) && (h_seq (w_heap w) + limit + 6 <? 2 ^ 64).
Lemma spacious_b_ok w mb mq limit : spacious_b w mb mq limit = true -> spacious w mb mq limit.
Proof. unfold spacious_b. intros H. repeat (apply andb_prop in H as [H ?]). constructor; lia. Qed.

Definition trading_b (e : env) (s : sys) : bool :=
  negb (s_closed s) && negb (market_is_expired (w_mkt (s_w s)) (e_now e)) && (0 <=? e_now e).
Lemma trading_b_ok e s oracle : trading_b e s = true -> oracle_input (w_mkt (s_w s)) e = Ok oracle -> trading e s oracle.
Proof.
  unfold trading_b. intros H Ho. apply andb_prop in H as [H H3]. apply andb_prop in H as [H1 H2]. apply negb_true_iff in H1, H2.
  constructor; [exact H1|unfold market_is_expired in H2; unfold expired; lia|lia|exact Ho].
Qed.

Definition affords_b (t : tokens) (u signer mint vault free need : Z) : bool :=
  match t u with Some ut => (t_owner ut =? signer) && (t_mint ut =? mint) && (need <=? free + t_amount ut) | None => false end &&
  match t vault with Some v => t_amount v + need <? 2 ^ 64 | None => true end.
Lemma affords_b_ok t u signer mint vault free need : affords_b t u signer mint vault free need = true -> affords t u signer mint vault free need.
Proof.
  unfold affords_b, affords. intros H. apply andb_prop in H as [H1 H2]. split.
  - destruct (t u) as [ut|]; [|discriminate H1]. exists ut. split; [reflexivity|]. lia.
  - intros v Hv. rewrite Hv in H2. lia.
Qed.

Definition may_place_b (s : sys) (x : place_ctx) (sd : side) (mb mq slot : Z) (a : ooa) : bool :=
  let w := s_w s in let c := m_cfg (w_mkt w) in
  is_owner_or_delegate a (px_signer x) && match order_at a slot with Ok oo => oo_free oo | Err _ => false end &&
  (p_bids_base (a_pos a) + mb <? 2 ^ 63) && (p_asks_base (a_pos a) + mb <? 2 ^ 63) && (p_bids_quote (a_pos a) + mq <? 2 ^ 63) &&
  (p_penalty (a_pos a) <? 2 ^ 64 - 1) && negb (px_signer x =? c_authority c) && (px_admin x =? c_open_orders_admin c) &&
  (px_vault x =? paid_vault (w_mkt w) sd) && negb (existsb (Z.eqb (px_acct x)) (px_rem x)) &&
  affords_b (s_tok s) (px_user_token x) (px_signer x) (paid_mint (w_mkt w) sd) (px_vault x) (free_of a sd) (most_native (w_mkt w) sd mb mq).
Lemma may_place_b_ok s x sd mb mq slot a : acct_get (px_acct x) (w_accts (s_w s)) = Some a -> may_place_b s x sd mb mq slot a = true -> may_place s x sd mb mq a.
Proof.
  unfold may_place_b. cbv zeta. intros Ha H. repeat (apply andb_prop in H as [H ?]).
  repeat match goal with X : (_ && _) = true |- _ => apply andb_prop in X as [? ?] end.
  constructor; try lia.
  - constructor; try assumption; try lia; [unfold is_owner_or_delegate in *; unfold controls; destruct (a_delegate a =? 0) eqn:?; lia|]. destruct (order_at a slot) as [oo|] eqn:E; [|discriminate]. exists slot, oo. split; assumption.
  - intros Hin. match goal with X : negb (existsb _ _) = true |- _ => apply negb_true_iff in X; rename X into Hn end.
    assert (existsb (Z.eqb (px_acct x)) (px_rem x) = true) by (apply existsb_exists; exists (px_acct x); split; [exact Hin|apply Z.eqb_refl]). congruence.
  - apply affords_b_ok. assumption.
Qed.
Definition may_place_check (s : sys) (x : place_ctx) (sd : side) (mb mq slot : Z) : bool :=
  match acct_get (px_acct x) (w_accts (s_w s)) with Some a => may_place_b s x sd mb mq slot a | None => false end.
Lemma may_place_check_ok s x sd mb mq slot : may_place_check s x sd mb mq slot = true -> exists a, may_place s x sd mb mq a.
Proof.
  unfold may_place_check. destruct (acct_get _ _) as [a|] eqn:E; [|discriminate]. intros H. exists a. exact (may_place_b_ok _ _ _ _ _ _ _ E H).
Qed.

Definition may_take_b (s : sys) (x : take_ctx) (sd : side) (mb mq : Z) : bool :=
  let w := s_w s in let c := m_cfg (w_mkt w) in
  negb (tx_signer x =? c_authority c) && match acct_get (tx_signer x) (w_accts w) with None => true | _ => false end &&
  (tx_admin x =? c_open_orders_admin c) &&
  affords_b (s_tok s) (take_pays x sd) (tx_signer x) (paid_mint (w_mkt w) sd) (paid_vault (w_mkt w) sd) 0 (most_native (w_mkt w) sd mb mq) &&
  match s_tok s (take_gets x sd) with
  | Some ut => (t_mint ut =? got_mint (w_mkt w) sd) && (t_amount ut + most_native (w_mkt w) (invert_side sd) mb mq <? 2 ^ 64)
  | None => false
  end.
Lemma may_take_b_ok s x sd mb mq : may_take_b s x sd mb mq = true -> may_take s x sd mb mq.
Proof.
  unfold may_take_b. cbv zeta. intros H. do 4 (apply andb_prop in H as [H ?]). constructor.
  - split; [lia|]. destruct (acct_get _ _); [discriminate|reflexivity].
  - lia.
  - apply affords_b_ok. assumption.
  - unfold can_get. destruct (s_tok s _) as [ut|]; [|discriminate]. exists ut. split; [reflexivity|]. lia.
Qed.

(** ** Orders that cannot be refused *)
Lemma plain_goes e s x g oracle a : reachable s -> trading e s oracle -> fair_place g ->
  spacious (s_w s) (pa_max_base g) (pa_max_quote g) (pa_limit g) -> (may_rest (pa_type g) = true -> side_room (s_w s) (pa_side g)) ->
  may_place s x (pa_side g) (pa_max_base g) (pa_max_quote g) a ->
  pa_self_trade g <> AbortTransaction -> pa_type g <> POPostOnlySlide -> pa_type g <> POFillOrKill ->
  exists s' out, exec e s (IPlaceOrder x g) = Ok (s', out).
Proof.
  intros Hr Ht Hf Hsp Hsd Hmp N1 N2 N3. destruct (place_order_goes e s x g oracle a Hr Ht Hf Hsp Hsd Hmp) as [H|(o & er & Ho & _ & Href)]; [exact H|].
  exfalso. unfold order_of_args in Ho. apply bind_ok in Ho as (u & _ & Ho). destruct (tif_from_expiry _ _) as [tif|]; [|discriminate Ho].
  apply bind_ok in Ho as (ps & Ep & Ho). injection Ho as <-. unfold params_of in Ep.
  destruct (pa_type g) eqn:Et; cbn in Ep; try congruence; injection Ep as <-;
    inversion Href as [A|p A|off t p A|op off t p A|A|A|op off t p A]; cbn in *; congruence.
Qed.
