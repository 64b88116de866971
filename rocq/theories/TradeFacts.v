(** The matching loop, run for two senders without orders of their own on the opposing side. *)
From Coq Require Import ZArith List Bool Lia Permutation.
From Verif Require Import Base Nodes OrderTree BookSide Heap Market OpenOrders Order Book Instructions
  BaseFacts NodesFacts TreeRep TreeFacts TreeIter BookSideFacts SpecBook SpecFees SpecOrder MatchFacts MatchBook FeeFacts
  OrderFacts PlaceFacts BookSpecProofs OrderSpecProofs OrderClaims SpecSystem SystemFacts LifeFacts SpecTrade.
Import ListNotations.
Open Scope Z_scope.

Record sim (s1 s2 : mstate) : Prop := {
  si_base : ms_base s1 = ms_base s2;
  si_quote : ms_quote s1 = ms_quote s2;
  si_dec : ms_dec s1 = ms_dec s2;
  si_reb : ms_rebates s1 = ms_rebates s2;
  si_dropped : ms_dropped s1 = ms_dropped s2;
  si_limit : ms_limit s1 = ms_limit s2;
  si_target : ms_target s1 = ms_target s2;
  si_cfg : m_cfg (w_mkt (ms_w s1)) = m_cfg (w_mkt (ms_w s2)) }.

Lemma rebate_cfg m m' x : m_cfg m = m_cfg m' -> maker_rebate_floor m x = maker_rebate_floor m' x.
Proof. intros E. unfold maker_rebate_floor, unsigned_maker_fees_floor, maker_fee. rewrite E. reflexivity. Qed.

Lemma out_cfg w tk owner rem s now l w' : tk_ok tk owner ->
  process_out_event w tk owner rem (mkOut s (lf_slot l) now (h_seq (w_heap w)) (lf_owner l) (lf_qty l)) = Ok w' ->
  m_cfg (w_mkt w') = m_cfg (w_mkt w).
Proof.
  intros Ht H. apply process_out_effect in H; [|exact Ht]. destruct H; reflexivity.
Qed.
Lemma fill_cfg w tk owner rem np o now i q w' np' :
  process_fill_event w tk rem np (fill_of o owner now (m_seq (w_mkt w)) i q) = Ok (w', np') ->
  m_cfg (w_mkt w') = m_cfg (w_mkt w).
Proof.
  intros H. unfold process_fill_event in H. match type of H with (if ?c then _ else _) = _ => destruct c end.
  - apply bind_ok in H as (a & _ & H). apply bind_ok in H as ([a' m'] & E & H). injection H as <- _.
    exact (proj1 (execute_maker_mkt _ _ _ _ _ E)).
  - apply bind_ok in H as (h & _ & H). injection H as <- _. reflexivity.
Qed.

Section Two.
Variables (o o' : order) (price now : Z) (tk1 tk2 : option Z) (ow1 ow2 : Z) (rem1 rem2 : list Z).
Hypothesis Hside : o_side o' = o_side o.
Hypothesis Hpost : is_post_only o' = is_post_only o.
Hypothesis Hk1 : tk_ok tk1 ow1.
Hypothesis Hk2 : tk_ok tk2 ow2.

Lemma trace_same items : forall s1 acts1 s1' lf1, ltrace o price tk1 ow1 rem1 now items s1 acts1 s1' lf1 ->
  forall s2 acts2 s2' lf2, ltrace o' price tk2 ow2 rem2 now items s2 acts2 s2' lf2 ->
  (forall i, In i items -> own_trade tk1 ow1 i = false /\ own_trade tk2 ow2 i = false) ->
  sim s1 s2 -> acts1 = acts2 /\ sim s1' s2'.
Proof.
  intros s1 acts1 s1' lf1 H1.
  induction H1 as [s|i r s Hd|i r s Hb Hv Hp|i r s Hb Hv Hp Hs|i r s acts s' lf Hb Hv Hd H IH|i r s w acts s' lf Hb Hv Hd Hpo H IH
    |i r s t a a' acts s' lf Hb Hv Hp Hpo Hl Hq Ht Ho Hst Ha Hc H IH|i r s q dec reb w np acts s' lf Hb Hv Hp Hpo Hl Hpz Hq Eq Hqq Ho Hno Hpf H IH];
  intros s2 acts2 s2' lf2 H2 Hown S;
  (assert (Hsi := S); destruct Hsi as [S1 S2 S3 S4 S5 S6 S7 S8]);
  inversion H2 as [sx|ix rx sx Gd|ix rx sx Gb Gv Gp|ix rx sx Gb Gv Gp Gs|ix rx sx actsx sx' lfx Gb Gv Gd G|ix rx sx wx actsx sx' lfx Gb Gv Gd Gpo G
    |ix rx sx tx ax ax' actsx sx' lfx Gb Gv Gp Gpo Gl Gq Gt Go Gst Ga Gc G|ix rx sx qx decx rebx wx npx actsx sx' lfx Gb Gv Gp Gpo Gl Gpz Gq Eqx Gqq Go Gno Gpf G];
  subst; unfold busy in *; rewrite ?Hside, ?Hpost in *;
  try (exfalso; (congruence || (destruct Hb; destruct Gd; congruence) || (destruct Gb; destruct Hd; congruence)
      || lia || (destruct Hs as [Hs|[Hs|Hs]]; (congruence || (rewrite ?S6 in *; lia) || (rewrite S2 in Hs; congruence)))
      || (destruct Gs as [Gs|[Gs|Gs]]; (congruence || (rewrite <- ?S6 in *; lia) || (rewrite <- S2 in Gs; congruence))))).
  - split; [reflexivity|exact S].
  - split; [reflexivity|exact S].
  - split; [reflexivity|exact S].
  - split; [reflexivity|]. constructor; cbn [ms_stop ms_base ms_quote ms_dec ms_rebates ms_dropped ms_limit ms_target ms_w]; try assumption; reflexivity.
  - eapply IH; [exact G| |exact S]. intros j Hj. apply Hown. right. exact Hj.
  - apply out_cfg in Hpo; [|exact Hk1]. apply out_cfg in Gpo; [|exact Hk2].
    destruct (IH _ _ _ _ G) as [E1 E2]; [intros j Hj; apply Hown; right; exact Hj| |subst actsx; split; [reflexivity|exact E2]].
    constructor; cbn [after_drop ms_base ms_quote ms_dec ms_rebates ms_dropped ms_limit ms_target ms_w]; congruence.
  - exfalso. destruct (Hown i (or_introl eq_refl)) as [O1 _]. unfold own_trade in O1. rewrite Z.eqb_refl in O1. discriminate O1.
  - exfalso. destruct (Hown i (or_introl eq_refl)) as [O1 _]. unfold own_trade in O1. rewrite Z.eqb_refl in O1. discriminate O1.
  - exfalso. destruct (Hown i (or_introl eq_refl)) as [_ O1]. unfold own_trade in O1. rewrite Z.eqb_refl in O1. discriminate O1.
  - destruct (Hown i (or_introl eq_refl)) as [O1 O2]. specialize (Hno O1). specialize (Gno O2). clear Ho Go.
    destruct Hno as (-> & x & Ex & ->), Gno as (-> & y & Ey & ->).
    assert (Eq : to_fill s i (ms_quote s ÷ im_price i) = to_fill s2 i (ms_quote s2 ÷ im_price i)).
    { unfold to_fill. rewrite S1, S2. reflexivity. }
    rewrite Eq in *. set (q := to_fill s2 i (ms_quote s2 ÷ im_price i)) in *.
    rewrite (rebate_cfg _ _ _ S8), (qls_eq _ _ S8), Ey in Ex. injection Ex as <-.
    apply fill_cfg in Hpf, Gpf.
    destruct (IH _ _ _ _ G) as [E1 E2]; [intros j Hj; apply Hown; right; exact Hj| |subst actsx; split; [reflexivity|exact E2]].
    constructor; cbn [after_fill ms_base ms_quote ms_dec ms_rebates ms_dropped ms_limit ms_target ms_w]; congruence.
Qed.
End Two.

(** ** The two placements *)
Lemma strangers_items w s tk ow T now oracle : fits s (w_book w s) T -> tk_ok tk ow -> stranger w s tk ->
  forall i, In i (merged (w_book w s) T now oracle) -> own_trade tk ow i = false.
Proof.
  intros Hf Htk Hs i Hi. apply merged_in in Hi as [Hi _]. apply oitems_leaf in Hi.
  apply (in_orders _ _ _ _ _ _ Hf eq_refl) in Hi. unfold own_trade. destruct tk as [k|]; [|reflexivity].
  destruct Htk as [E|E]; [|discriminate E]. injection E as E. cbn [stranger] in Hs. specialize (Hs _ _ Hi). apply Z.eqb_neq. intros F. apply Hs. cbn [snd]. congruence.
Qed.

Lemma subtract_cfg m m' x : m_cfg m = m_cfg m' -> subtract_taker_fees m x = subtract_taker_fees m' x.
Proof. intros E. unfold subtract_taker_fees, taker_fee. rewrite E. reflexivity. Qed.
Lemma ceil_cfg t m m' x : m_cfg m = m_cfg m' -> maker_fees_ceil t m x = maker_fees_ceil t m' x.
Proof. intros E. unfold maker_fees_ceil, maker_fee. rewrite E. reflexivity. Qed.

Lemma orders_lists w w' s : (forall t L, lists (w_book w s) t L -> lists (w_book w' s) t L) ->
  (forall t, exists L, lists (w_book w s) t L) -> orders w s = orders w' s.
Proof.
  intros H He. unfold orders. assert (G : forall t, tree_orders (w_book w s) t = tree_orders (w_book w' s) t).
  { intros t. destruct (He t) as (L & HL). pose proof (H t L HL) as (i' & E' & Em'). destruct HL as (i & E & Em).
    unfold tree_orders. rewrite E, E'. congruence. }
  rewrite !G. reflexivity.
Qed.

Lemma settle_same o o' maxq tk1 ow1 tk2 acts price s1 s2 w1 w2 bt1 qt1 tf1 ra1 rq1 bt2 qt2 tf2 ra2 rq2 :
  o_max_base o' = o_max_base o -> o_max_quote o' = o_max_quote o ->
  cfg_sound (m_cfg (w_mkt (ms_w s1))) -> sim s1 s2 ->
  Forall (act_fact o price tk1 ow1) acts ->
  0 <= ms_quote s1 -> ms_quote s1 = maxq - quote_lots acts -> ms_dec s1 = sumZ (map (self_quote tk1 ow1) acts) ->
  settle_taker o tk1 maxq s1 = Ok (w1, bt1, qt1, tf1, ra1, rq1) ->
  settle_taker o' tk2 maxq s2 = Ok (w2, bt2, qt2, tf2, ra2, rq2) ->
  bt1 = bt2 /\ qt1 = qt2 /\ tf1 = tf2 /\ ra1 = ra2 /\ rq1 = rq2.
Proof.
  intros Emb Emq Hc [S1 S2 S3 S4 S5 S6 S7 S8] F1 Hq Eq Ed H1 H2.
  destruct (own_quote_bounds _ _ _ _ _ F1) as [G1 _].
  apply settle_taker_inv in H1; [|exact Hc|exact Hq|lia].
  apply settle_taker_inv in H2; [|rewrite <- S8; exact Hc|lia|lia]. cbv zeta in H1, H2.
  destruct H1 as (_ & _ & A1 & A2 & _ & _ & A3 & A4 & _ & A5 & _). destruct H2 as (_ & _ & B1 & B2 & _ & _ & B3 & B4 & _ & B5 & _).
  rewrite Emb in B1. rewrite Emq in B5. rewrite (bls_eq _ _ S8) in A1. rewrite (qls_eq _ _ S8) in A2, A3, A4, A5. rewrite (taker_pays_eq _ _ _ S8) in A3.
  rewrite S1 in A1. rewrite S2 in A2, A3, A4, A5. rewrite S3 in A3, A4. rewrite S4 in A4.
  split; [congruence|]. split; [congruence|]. assert (E : tf1 = tf2) by congruence. split; [exact E|]. rewrite E in A4, A5.
  split; congruence.
Qed.

Lemma same_trade w1 w2 o o' oracle tk1 tk2 ow1 ow2 now limit rem1 rem2 w1' w2' r1 r2 :
  alike o' o -> sound_call w1 o tk1 ow1 -> sound_call w2 o' tk2 ow2 ->
  w_book w1 (invert_side (o_side o)) = w_book w2 (invert_side (o_side o)) ->
  m_cfg (w_mkt w1) = m_cfg (w_mkt w2) ->
  stranger w1 (invert_side (o_side o)) tk1 -> stranger w2 (invert_side (o_side o)) tk2 ->
  new_order w1 o oracle tk1 ow1 now limit rem1 = Ok (w1', r1) ->
  new_order w2 o' oracle tk2 ow2 now limit rem2 = Ok (w2', r2) ->
  same_deal r1 r2 /\ orders w1' (invert_side (o_side o)) = orders w2' (invert_side (o_side o)).
Proof.
  intros (Esd & Emb & Emq & Epm) C1 C2 Eb Ec N1 N2 H1 H2.
  destruct (new_order_full _ _ _ _ _ _ _ _ _ _ C1 H1) as (Ta & T0a & pa & pda & mqa & acta & msa & lfa & wa & bta & qta & tfa & raa & rqa & mfa & ba & T2a & T3a & ga & puta &
    Fa & _ & Pa & Xa & Ra1 & Ra2 & Ra3 & Ra4 & _ & Ba & _ & _ & _ & _ & Puta).
  destruct (new_order_full _ _ _ _ _ _ _ _ _ _ C2 H2) as (Tb & T0b & pb & pdb & mqb & actb & msb & lfb & wb & btb & qtb & tfb & rab & rqb & mfb & bb & T2b & T3b & gb & putb &
    Fb & _ & Pb & Xb & Rb1 & Rb2 & Rb3 & Rb4 & _ & Bb & _ & _ & _ & _ & Putb).
  pose proof (placed_numbers _ _ _ _ _ _ _ _ _ _ _ _ _ _ _ _ _ _ _ _ _ _ _ _ C1 Fa Pa) as Na.
  pose proof (placed_numbers _ _ _ _ _ _ _ _ _ _ _ _ _ _ _ _ _ _ _ _ _ _ _ _ C2 Fb Pb) as Nb.
  assert (Epo : is_post_only o' = is_post_only o) by (unfold is_post_only; rewrite Epm; reflexivity).
  assert (Ept : post_target o' = post_target o) by (unfold post_target; rewrite Epm; reflexivity).
  assert (Epl : order_peg_limit o' = order_peg_limit o) by (unfold order_peg_limit; rewrite Epm; reflexivity).
  assert (Eow : own_peg o' = own_peg o) by (unfold own_peg; rewrite Epl; reflexivity).
  assert (Elp : forall p, lock_price o' p = lock_price o p) by (intros p; unfold lock_price; rewrite Eow, Epl, Esd; reflexivity).
  assert (Eop : forall b, order_price o' b now oracle = order_price o b now oracle) by (intros b; unfold order_price; rewrite Epm, Esd; reflexivity).
  cbv zeta in Na, Nb. destruct Na as (Ka & A1 & A2 & A3 & A4 & A5 & A6 & A7 & A8 & _ & _ & A9 & A10 & A11 & A12 & A13 & A14 & _).
  destruct Nb as (Kb & B1 & B2 & B3 & B4 & B5 & B6 & B7 & B8 & _ & _ & B9 & B10 & B11 & B12 & B13 & B14 & _).
  pose proof (strangers_items _ _ _ _ _ now oracle Fa (sc_taker _ _ _ _ C1) N1) as Oa.
  rewrite Esd in Fb.
  pose proof (strangers_items _ _ _ _ _ now oracle Fb (sc_taker _ _ _ _ C2) N2) as Ob.
  destruct Pa as [Pa1 _ Pa3 _ Pa5 Pa6 Pa7 _ _ Pa10 _ _]. destruct Pb as [Pb1 _ Pb3 _ Pb5 Pb6 Pb7 _ _ Pb10 _ _].
  rewrite Eop in Pb1. rewrite Esd in Pb1, Pb3, Pb5, Pb6. rewrite Emq, Epo in Pb3.
  rewrite Eb in Pa1, Pa5, Pa6, Oa.
  rewrite Pb1 in Pa1. injection Pa1 as -> ->.
  rewrite Pb5 in Pa5. injection Pa5 as Em. rewrite <- Em in Pa6, Oa.
  assert (mqa = mqb) as ->.
  { destruct (o_side o); [destruct (is_post_only o); [congruence|]|congruence]. rewrite (subtract_cfg _ _ _ Ec), Pb3 in Pa3. congruence. }
  destruct (trace_same o o' pa now tk1 tk2 ow1 ow2 rem1 rem2 Esd Epo (sc_taker _ _ _ _ C1) (sc_taker _ _ _ _ C2) _ _ _ _ _ Pa6 _ _ _ _ Pb6) as [-> S].
  { intros i Hi. split; [exact (Oa i Hi)|exact (Ob i Hi)]. }
  { constructor; try reflexivity; cbn [start_ms ms_w w_set_mkt w_mkt m_set_seq m_cfg ms_base ms_target]; congruence. }
  destruct S as [S1 S2 S3 S4 S5 S6 S7 S8].
  pose proof (bls_eq _ _ Ec) as El. pose proof (qls_eq _ _ Ec) as Eq.
  pose proof (lt_amounts _ _ _ _ _ _ (sc_taker _ _ _ _ C1) _ _ _ _ _ Pa6) as (_ & _ & Da & _).
  cbn [start_ms ms_dec] in Da. rewrite Z.add_0_l in Da.
  assert (Hcm : m_cfg (w_mkt (ms_w msa)) = m_cfg (w_mkt w1)) by exact (proj1 (proj2 (proj2 (effects_rest _ _ _ _ _ _ _ _ A14)))).
  destruct (settle_same o o' mqb tk1 ow1 tk2 actb pa msa msb wa wb bta qta tfa raa rqa btb qtb tfb rab rqb) as (Z1 & Z2 & Z3 & Z4 & Z5);
    [exact Emb|exact Emq|rewrite Hcm; exact (sc_cfg _ _ _ _ C1)|constructor; assumption|exact Ka|exact A4|exact A2|exact Da|exact Pa7|exact Pb7|].
  assert (mfa = mfb) as -> by (rewrite (ceil_cfg _ (w_mkt wa) (w_mkt wb)), Z5, Pb10 in Pa10 by congruence; congruence).
  assert (Epq : post_qty o pa msa rqa mfb = post_qty o' pa msb rqb mfb) by (unfold post_qty; rewrite S1, Z5, Elp; reflexivity).
  split.
  - destruct Xa as [_ _ _ _ Xa _ _ _ _]. destruct Xb as [_ _ _ _ Xb _ _ _ _].
    destruct puta as [[ta la]|], putb as [[tb lb]|]; cbn [put_ok] in Xa, Xb.
    + destruct Puta as [_ Qa _ _ _ _ Ga Ha _]. destruct Putb as [_ Qb _ _ _ _ Gb Hb _].
      destruct Xa as (_ & Ia & _ & Ja & _). destruct Xb as (_ & Ib & _ & Jb & _).
      assert (Elq : lf_qty la = lf_qty lb) by congruence.
      assert (Epoq : oa_posted_quote r1 = oa_posted_quote r2) by (rewrite Ga, Gb, Elq, Eq, Elp; reflexivity).
      constructor; try congruence.
      * rewrite Ia, Ib. split; discriminate.
      * rewrite Ha, Hb, Epoq, Esd. destruct (o_side o); [apply locks_eq; congruence|reflexivity].
    + exfalso. destruct Puta as [_ Qa Qp Qt _ _ _ _ Qg]. rewrite Epq in Qa. destruct Putb as [F|[F|[F1 F2]]]; [lia|congruence|rewrite ?Eow, ?Esd, ?Epl in *; rewrite (Qg F1) in F2; discriminate F2].
    + exfalso. destruct Putb as [_ Qa Qp Qt _ _ _ _ Qg]. rewrite <- Epq in Qa. destruct Puta as [F|[F|[F1 F2]]]; [lia|congruence|rewrite ?Eow, ?Esd, ?Epl in *; rewrite (Qg F1) in F2; discriminate F2].
    + destruct Xa as (I1 & I2 & I3 & I4). destruct Xb as (J1 & J2 & J3 & J4). constructor; try congruence. rewrite I1, J1. tauto.
  - destruct Xa as [_ _ Xa _ _ _ _ _ _]. destruct Xb as [_ _ Xb _ _ _ _ _ _]. rewrite Eb in Xa. rewrite Esd in Xb.
    assert (Hl : forall t, exists L, lists (w_book w2 (invert_side (o_side o))) t L).
    { intros t. eexists. apply bs_lists. exact (ft_ok _ _ _ Fb). }
    apply orders_lists.
    + intros t L HL. destruct (Hl t) as (L0 & HL0). rewrite (lists_fun _ _ _ _ HL (Xa _ _ HL0)). exact (Xb _ _ HL0).
    + intros t. destruct (Hl t) as (L0 & HL0). exists (residues actb t L0). exact (Xa _ _ HL0).
Qed.
