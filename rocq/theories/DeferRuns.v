(** Placing an order from two worlds that come to the same keeps them so. *)
From Coq Require Import ZArith List Bool Lia ZifyBool Permutation.
From Verif Require Import Base Nodes OrderTree BookSide Heap Market OpenOrders Order Book Instructions
  BaseFacts NodesFacts HeapFacts TreeRep TreeFacts TreeOps TreeIter BookSideFacts BookSideOrder BookSpecProofs SpecBook SpecFees SpecHeap
  HeapSpecProofs FeeFacts SpecOrder MatchFacts MatchBook OrderFacts PlaceFacts OrderSpecProofs OrderClaims Steps StepFacts
  SpecLedger SpecEvents Ledger LedgerOps LedgerMoves LedgerPlace LedgerOrder LedgerInv SpecSystem SystemFacts ConsumeFacts
  TradeFacts DeferFacts DeferOrder DeferPlace.
Import ListNotations.
Open Scope Z_scope.

Lemma post_even w1 w2 o tk ow rem1 rem2 oracle now id pl price qty target w1' w2' pb1 pq1 mf1 pb2 pq2 mf2 T1 T2 P1 P2 :
  let s := o_side o in
  even tk w1 w2 -> tk_ok tk ow -> cfg_sound (m_cfg (w_mkt w1)) -> 0 < qty -> 1 <= price ->
  fits s (w_book w1 s) T1 -> Led (w_mkt w1) (w_accts w1) P1 -> hrep (w_heap w1) P1 -> Permutation (all_leaves T1) (pleaves s P1) ->
  fits s (w_book w2 s) T2 -> Led (w_mkt w2) (w_accts w2) P2 -> hrep (w_heap w2) P2 -> Permutation (all_leaves T2) (pleaves s P2) ->
  post_order w1 o tk ow rem1 oracle now id pl price qty target = Ok (w1', pb1, pq1, mf1) ->
  post_order w2 o tk ow rem2 oracle now id pl price qty target = Ok (w2', pb2, pq2, mf2) ->
  pb1 = pb2 /\ pq1 = pq2 /\ mf1 = mf2 /\ even tk w1' w2'.
Proof.
  intros s HE Htk Hc Hq Hp F1 L1 H1 Q1 F2 L2 H2 Q2 X1 X2. pose proof (even_cfg _ _ _ HE) as Ec.
  destruct (post_run _ _ _ _ _ _ _ _ _ _ _ _ _ _ _ _ _ _ F1 Htk Hc Hq Hp L1 H1 Q1 X1)
    as (Et & Epb & Epq & Emf & wa & b1 & ex & es1 & w3 & wo & es2 & b2 & w4 & a & slot & b3 & hh & old & a' & A1 & A2 & A3 & A4 & A5 & A6 & A7 & A8 & A9 & A10 & A11 & A12).
  rewrite Ec in Hc.
  destruct (post_run _ _ _ _ _ _ _ _ _ _ _ _ _ _ _ _ _ _ F2 Htk Hc Hq Hp L2 H2 Q2 X2)
    as (_ & Gpb & Gpq & Gmf & wb & c1 & ey & fs1 & v3 & vo & fs2 & c2 & v4 & b & slot' & c3 & hh' & old' & b' & B1 & B2 & B3 & B4 & B5 & B6 & B7 & B8 & B9 & B10 & B11 & B12).
  fold s in Emf, Gmf, A1, A2, A3, A4, A5, A6, A7, A11, A12, B1, B2, B3, B4, B5, B6, B7, B11, B12.
  assert (pb1 = pb2) as <- by (rewrite Epb, Gpb, (bls_eq _ _ Ec); reflexivity).
  assert (pq1 = pq2) as <- by (rewrite Epq, Gpq, (qls_eq _ _ Ec); reflexivity).
  assert (mf1 = mf2) as <- by (rewrite Emf, Gmf; destruct s; [apply locks_eq; exact Ec|reflexivity]).
  split; [reflexivity|]. split; [reflexivity|]. split; [reflexivity|].
  assert (E1 : even tk wa wb).
  { unfold locks in A1, B1. destruct s.
    - destruct A1 as (x & Hx & _ & ->), B1 as (y & Hy & _ & ->). destruct (ev_own _ _ _ HE ow Et) as [Eo _].
      rewrite Hx, Hy in Eo. injection Eo as <-. exact (even_set_own _ _ _ _ _ _ Et Hx HE).
    - subst wa wb. exact HE. }
  rewrite (ev_book _ _ _ HE s), B2 in A2. injection A2 as <- <-.
  pose proof (even_steps _ _ _ _ A3 _ _ _ B3 (eq_trans A4 (eq_sym B4)) (even_set_book _ _ _ s c1 E1)) as E2.
  assert (E3 : c2 = b2 /\ vo = wo).
  { destruct (is_full (bs_nodes c1)).
    - destruct A5 as (x & p & A5 & ->), B5 as (y & r & B5 & ->). rewrite A5 in B5. injection B5 as -> -> _. auto.
    - destruct A5 as [-> ->], B5 as [-> ->]. auto. }
  destruct E3 as [-> ->].
  pose proof (even_steps _ _ _ _ A6 _ _ _ B6 (eq_trans A7 (eq_sym B7)) (even_set_book _ _ _ s b2 E2)) as E4.
  destruct (ev_own _ _ _ E4 ow Et) as [Eo _]. rewrite A8, B8 in Eo. injection Eo as <-.
  rewrite A9 in B9. injection B9 as <-. rewrite A10 in B10. injection B10 as <- _ _. rewrite A11 in B11. injection B11 as <-.
  subst w1' w2'. apply (even_set_own tk _ _ ow a a' Et); [destruct s; exact A8|]. apply even_set_book. exact E4.
Qed.

(** One run, taken apart. *)
Record run (w : world) (o : order) (oracle tk : option Z) (ow now limit : Z) (rem : list Z) (w' : world) (r : order_amounts)
  (T : trees) (price pd maxq : Z) (acts : list act) (ms : mstate) (lf : list item) (w2 : world) (bt qt tf ra rq mf : Z) (b2 : bookside) (T2 : trees) : Prop := {
  rn_placed : placed w o oracle tk ow now limit rem T price pd maxq acts ms lf w2 bt qt tf ra rq mf b2 T2;
  rn_finished : finished w o oracle tk ow now rem price pd ms w2 bt qt tf ra rq mf b2 w' r;
  rn_book : exists b1, apply_changes (w_book w (invert_side (o_side o))) (concat (map change_of acts)) = Ok b1 /\
      apply_deletes b1 (concat (map delete_of acts)) = Ok b2;
  rn_facts : Forall (act_fact o price tk ow) acts;
  rn_quote : 0 <= ms_quote ms /\ ms_quote ms = maxq - quote_lots acts /\ ms_dec ms = sumZ (map (self_quote tk ow) acts);
  rn_cfg : m_cfg (w_mkt (ms_w ms)) = m_cfg (w_mkt w) /\ m_cfg (w_mkt w2) = m_cfg (w_mkt w);
  rn_steps : exists es, event_steps tk (w_set_mkt w (m_set_seq (w_mkt w) (m_seq (w_mkt w) + 1))) es (ms_w ms) /\
      map strip es = map (event_of o ow now (m_seq (w_mkt w) + 1)) acts;
  rn_own : exists T0 P1, fits (o_side o) (w_book w2 (o_side o)) T0 /\ Led (w_mkt w2) (w_accts w2) P1 /\ hrep (w_heap w2) P1 /\
      Permutation (all_leaves T0) (pleaves (o_side o) P1);
  rn_lp : 1 <= lock_price o price;
  rn_post : forall t, ms_target ms = Some t -> post_target o = Some t }.

Lemma run_of w db dq cl ct P o oracle taker owner now limit rem w' r :
  Inv w db dq cl ct P -> sane_order o -> taker = Some owner \/ (taker = None /\ acct_get owner (w_accts w) = None) ->
  new_order w o oracle taker owner now limit rem = Ok (w', r) ->
  exists T price pd maxq acts ms lf w2 bt qt tf ra rq mf b2 T2,
    run w o oracle taker owner now limit rem w' r T price pd maxq acts ms lf w2 bt qt tf ra rq mf b2 T2.
Proof.
  intros [HR HL Gb Gq Gv Gf Gl Gt] Hso Htk0 H.
  assert (Htk : taker = Some owner \/ taker = None) by tauto.
  pose proof (rep_sound _ _ HR HL) as Hws. pose proof (sound_call_of _ _ _ _ Hws Hso Htk) as Hsc.
  pose proof Hws as [Hc _]. pose proof Hso as [Hb0 Hq0 _].
  destruct (rp_side _ _ HR (o_side o)) as (T0 & Hf0 & HP0).
  destruct (rp_side _ _ HR (invert_side (o_side o))) as (T & Hf & HP).
  destruct (new_order_book _ _ _ _ _ _ _ _ _ _ _ Hf Htk Hc Hb0 Hq0 H)
    as (price & pd & maxq & acts & ms & lf & w2 & bt & qt & tf & ra & rq & mf & b2 & T2 & Hpl & Hfin & Hbook).
  destruct (placed_numbers _ _ _ _ _ _ _ _ _ _ _ _ _ _ _ _ _ _ _ _ _ _ _ _ Hsc Hf Hpl)
    as (Haf & Eb & Eq & Hb & Hq & Hbl & Hql & Ebt & Eqt & Bbt & Bqt & Etf & Erq & Ecfg & Eseq & Ebk & Hef & Hqu).
  pose proof Hpl as [Hp Hseq Hmq Hcap Hit Htr Hst Hf2 Hlv Hmf Hlp Hfok].
  destruct (order_price_facts _ _ _ _ _ _ Hso Hp) as (Rp & Rpd & Hlim & Hkey & _).
  pose proof (lt_sub _ _ _ _ _ _ _ _ _ _ _ Htr) as Hsub.
  pose proof (lt_amounts _ _ _ _ _ _ Htk _ _ _ _ _ Htr) as (A1 & A2 & A3 & A4 & _).
  pose proof (own_quote_bounds _ _ _ _ _ Haf) as [Hown _].
  cbn [start_ms ms_base ms_quote ms_dec ms_rebates ms_w] in A1, A2, A3, A4. rewrite Z.add_0_l in A3, A4.
  set (s := o_side o) in *. set (os := invert_side s) in *. set (m := w_mkt w) in *.
  set (m0 := m_set_seq m (m_seq m + 1)) in *. cbn [w_set_mkt w_mkt] in A4. fold m0 in A4.
  assert (Hc0 : cfg_sound (m_cfg m0)) by exact Hc.
  assert (Eq0 : qls m0 = qls m) by reflexivity. assert (Eb0 : bls m0 = bls m) by reflexivity.
  assert (Hin : forall a, In a acts -> In (im_tree (act_item a), im_leaf (act_item a)) (pleaves os P)).
  { intros a Ha. apply (Permutation_in _ HP). apply in_all_leaves.
    pose proof (merged_on_book _ _ _ _ _ (ft_ok _ _ _ Hf) Hsub) as Hon. rewrite Forall_forall in Hon. specialize (Hon a Ha).
    unfold on_book in Hon. apply oitems_leaf in Hon. exact Hon. }
  assert (Hne : taker = None -> forall a, In a acts -> lf_owner (im_leaf (act_item a)) <> owner).
  { intros Et a Ha Eo. apply Hin in Ha. apply leaf_piece in Ha as (lp & Ha). destruct (ld_back _ _ _ HL _ Ha) as (x & Hx & _).
    cbn [pc_owner] in Hx. rewrite Eo in Hx. destruct Htk0 as [E|[_ E]]; congruence. }
  assert (Hpg : forall a, In a acts -> os = Bid -> im_tree (act_item a) = OraclePegged -> lf_peg_limit (im_leaf (act_item a)) <> -1).
  { intros a Ha Es Et. apply Hin in Ha. apply leaf_piece in Ha as (lp & Ha). pose proof (ld_piece _ _ _ HL _ Ha) as [_ K2 _ _ _ K6].
    rewrite Es, Et in K6. cbn [pc_lp] in K2. lia. }
  assert (Hq1 : quote_lots acts * qls m0 <= 9223372036854775807) by (rewrite Eq0; lia).
  pose proof (rebates_counted _ _ _ _ m0 Hc0 _ Haf Hq1 Hne) as Hreb.
  pose proof (rebates_le _ _ _ _ m0 Hc0 _ Haf Hne) as Hreb1.
  pose proof (led_seq _ _ _ Hseq HL) as HL0. fold m0 in HL0.
  assert (Hrd : ready o (w_set_mkt w m0) acts P).
  { constructor; fold s os.
    - exact HL0.
    - exact (rp_heap _ _ HR).
    - apply (Permutation_NoDup (Permutation_map lkey HP)). eapply all_leaves_keys. exact (ft_ok _ _ _ Hf).
    - eapply acts_akey_nodup; [exact (ft_ok _ _ _ Hf)|exact Hsub].
    - exact Hin.
    - eapply acts_known; [exact Hf|exact Hc0|exact Haf|exact Hq1|exact Hsub|exact Hpg]. }
  pose proof Hrd as [R1 R2 R3 R4 R5 R6].
  destruct (effects_led _ _ _ _ _ _ _ _ Hef P R1 R2 R3 R4 R5 R6) as (P1 & HL1 & Hh1 & _ & O1 & _).
  fold s in O1.
  assert (Ecm : m_cfg (w_mkt (ms_w ms)) = m_cfg m).
  { pose proof (effects_rest _ _ _ _ _ _ _ _ Hef) as (_ & _ & X & _). exact X. }
  assert (Eqm : qls (w_mkt (ms_w ms)) = qls m) by (apply qls_eq; exact Ecm).
  assert (Hms : ms_rebates ms = sumZ (map (act_rebate m0 owner) acts)) by (rewrite A4; exact Hreb).
  destruct (settle_led o taker owner maxq ms w2 bt qt tf ra rq P1 Htk Hq ltac:(lia) ltac:(lia) ltac:(rewrite Eqm, A3, Hms, <- Eq0; replace (maxq - ms_quote ms) with (quote_lots acts) by lia; lia) Hst HL1)
    as (Era & Ra & Htq & HL2 & Hh2 & _).
  exists T, price, pd, maxq, acts, ms, lf, w2, bt, qt, tf, ra, rq, mf, b2, T2. constructor.
  - exact Hpl.
  - exact Hfin.
  - exact Hbook.
  - exact Haf.
  - split; [exact Hq|]. split; [lia|exact A3].
  - split; [exact Ecm|exact Ecfg].
  - exact (trace_steps _ _ _ _ _ _ _ _ _ _ _ Htk Htr P Hrd).
  - exists T0, P1. fold s. rewrite Ebk. split; [exact Hf0|]. split; [exact HL2|]. split; [rewrite Hh2; exact Hh1|].
    rewrite HP0. symmetry. exact O1.
  - apply lock_price_pos; [exact Hso|lia].
  - intros t Ht. destruct (lt_target _ _ _ _ _ _ _ _ _ _ _ Htr) as [E|E]; [cbn [start_ms ms_target] in E; congruence|congruence].
Qed.

Lemma new_order_even w1 w2 db1 dq1 cl1 ct1 P1 db2 dq2 cl2 ct2 P2 o oracle tk ow now limit rem1 rem2 w1' w2' r1 r2 :
  Inv w1 db1 dq1 cl1 ct1 P1 -> Inv w2 db2 dq2 cl2 ct2 P2 -> sane_order o ->
  tk = Some ow \/ (tk = None /\ acct_get ow (w_accts w1) = None) -> even tk w1 w2 ->
  new_order w1 o oracle tk ow now limit rem1 = Ok (w1', r1) ->
  new_order w2 o oracle tk ow now limit rem2 = Ok (w2', r2) ->
  r1 = r2 /\ even tk w1' w2'.
Proof.
  intros I1 I2 Hso Htk1 HE H1 H2.
  assert (Htk2 : tk = Some ow \/ (tk = None /\ acct_get ow (w_accts w2) = None)).
  { destruct Htk1 as [E|[E F]]; [left; exact E|right]. split; [exact E|]. pose proof (ev_fate _ _ _ HE ow) as G. unfold fate in G.
    rewrite F in G. destruct (acct_get ow (w_accts w2)); [discriminate G|reflexivity]. }
  assert (Htk : tk_ok tk ow) by (destruct Htk1 as [E|[E _]]; [left|right]; exact E).
  pose proof (rep_sound _ _ (iv_rep _ _ _ _ _ _ I1) (iv_led _ _ _ _ _ _ I1)) as [Hc _].
  destruct (run_of _ _ _ _ _ _ _ _ _ _ _ _ _ _ _ I1 Hso Htk1 H1)
    as (Ta & price & pd & maxq & acts & msa & lfa & wa & bta & qta & tfa & raa & rqa & mfa & ba & T2a & [Pa Fa Ba Ka Qa Ca Sa Oa La Ga]).
  destruct (run_of _ _ _ _ _ _ _ _ _ _ _ _ _ _ _ I2 Hso Htk2 H2)
    as (Tb & price' & pd' & maxq' & acts' & msb & lfb & wb & btb & qtb & tfb & rab & rqb & mfb & bb & T2b & [Pb Fb Bb Kb Qb Cb Sb Ob Lb Gb]).
  pose proof (even_cfg _ _ _ HE) as Ec. pose proof (even_seq _ _ _ HE) as Eseq. pose proof (ev_book _ _ _ HE) as Ebk.
  destruct Pa as [Pa1 _ Pa3 _ Pa5 Pa6 Pa7 _ _ Pa10 _ _]. destruct Pb as [Pb1 _ Pb3 _ Pb5 Pb6 Pb7 _ _ Pb10 _ _].
  rewrite Ebk in Pa1, Pa5, Pa6, Ba. rewrite Pb1 in Pa1. injection Pa1 as -> ->.
  rewrite Pb5 in Pa5. injection Pa5 as Em. rewrite <- Em in Pa6.
  assert (maxq = maxq') as ->.
  { destruct (o_side o); [destruct (is_post_only o); [congruence|]|congruence]. rewrite (subtract_cfg _ _ _ Ec), Pb3 in Pa3. congruence. }
  destruct (runs_same o price now tk ow rem1 rem2 Htk _ _ _ _ _ Pa6 _ _ _ _ Pb6) as [-> S].
  { constructor; try reflexivity; cbn [start_ms ms_w w_set_mkt w_mkt m_set_seq m_cfg]; exact Ec. }
  (* the matching loop *)
  destruct Sa as (esa & Sa & Ea), Sb as (esb & Sb & Eb). rewrite Eseq in Ea.
  pose proof (even_steps _ _ _ _ Sa _ _ _ Sb (eq_trans Ea (eq_sym Eb)) (even_set_mkt _ _ _ _ steady_seq HE)) as E1.
  (* settling *)
  destruct (settle_even o tk ow maxq' acts' price msa msb wa wb bta qta tfa raa rqa btb qtb tfb rab rqb) as ((<- & <- & <- & <- & <-) & E2);
    [rewrite (proj1 Ca); exact Hc|exact Htk|exact S|exact Ka|exact (proj1 Qa)|exact (proj1 (proj2 Qa))|exact (proj2 (proj2 Qa))|exact E1|exact Pa7|exact Pb7|].
  (* the opposing side *)
  destruct Ba as (c1 & Ba1 & Ba2), Bb as (d1 & Bb1 & Bb2). rewrite Ba1 in Bb1. injection Bb1 as <-. rewrite Ba2 in Bb2. injection Bb2 as <-.
  pose proof (even_set_book _ _ _ (invert_side (o_side o)) ba E2) as E3.
  pose proof (even_cfg _ _ _ E2) as Ec2. 
  assert (mfa = mfb) as <- by (rewrite (ceil_cfg _ (w_mkt wa) (w_mkt wb)), Pb10 in Pa10 by exact Ec2; congruence).
  assert (Epq : post_qty o price msa rqa mfa = post_qty o price msb rqa mfa) by (unfold post_qty; rewrite (si_base _ _ S); reflexivity).
  pose proof (si_target _ _ S) as Etg.
  destruct Fa as [Na|t u1 pb1 pq1 m1 Pos1 Tg1 Pg1 X1], Fb as [Nb|t' u2 pb2 pq2 m2 Pos2 Tg2 Pg2 X2].
  - split; [reflexivity|exact E3].
  - exfalso. destruct Na as [F|[F|[F1 F2]]]; [lia|congruence|rewrite (Pg2 F1) in F2; discriminate F2].
  - exfalso. destruct Nb as [F|[F|[F1 F2]]]; [lia|congruence|rewrite (Pg1 F1) in F2; discriminate F2].
  - rewrite <- Eseq, <- Epq in X2. assert (t' = t) as -> by congruence.
    destruct Oa as (T0a & Q1 & Fa0 & La0 & Ha0 & Pa0). destruct Ob as (T0b & Q2 & Fb0 & Lb0 & Hb0 & Pb0).
    assert (Eos : forall u, w_book (w_set_book u (invert_side (o_side o)) ba) (o_side o) = w_book u (o_side o)) by (intros u; destruct (o_side o); reflexivity).
    assert (Emk : forall u, w_mkt (w_set_book u (invert_side (o_side o)) ba) = w_mkt u) by (intros u; destruct (o_side o); reflexivity).
    assert (Eac : forall u, w_accts (w_set_book u (invert_side (o_side o)) ba) = w_accts u) by (intros u; destruct (o_side o); reflexivity).
    assert (Ehp : forall u, w_heap (w_set_book u (invert_side (o_side o)) ba) = w_heap u) by (intros u; destruct (o_side o); reflexivity).
    edestruct (post_even (w_set_book wa (invert_side (o_side o)) ba) (w_set_book wb (invert_side (o_side o)) ba) o tk ow rem1 rem2 oracle now)
      with (T1 := T0a) (T2 := T0b) (P1 := Q1) (P2 := Q2) as (Y1 & Y2 & Y3 & E4).
    { exact E3. } { exact Htk. } { rewrite Emk, (proj2 Ca). exact Hc. } { exact Pos1. } { exact La. }
    { rewrite Eos. exact Fa0. } { rewrite Emk, Eac. exact La0. } { rewrite Ehp. exact Ha0. } { exact Pa0. }
    { rewrite Eos. exact Fb0. } { rewrite Emk, Eac. exact Lb0. } { rewrite Ehp. exact Hb0. } { exact Pb0. }
    { exact X1. } { exact X2. }
    split; [rewrite Eseq, Y1, Y2, Y3; reflexivity|exact E4].
Qed.
