(** An order placed through an account, from the account's point of view. *)
From Coq Require Import ZArith List Bool Lia ZifyBool Permutation.
From Verif Require Import Base Nodes OrderTree BookSide Heap Market OpenOrders Order Book Instructions
  BaseFacts NodesFacts HeapFacts TreeRep TreeFacts TreeOps TreeIter BookSideFacts BookSideOrder BookSpecProofs SpecBook SpecFees SpecHeap
  HeapSpecProofs FeeFacts SpecOrder MatchFacts MatchBook OrderFacts PlaceFacts OrderSpecProofs OrderClaims Steps StepFacts
  SpecLedger SpecEvents Ledger LedgerOps LedgerMoves LedgerPlace LedgerOrder LedgerInv SpecSystem SystemFacts ConsumeFacts
  SpecMatch Logs SpecLogs LogFacts LogOrder LogTally
  TradeFacts SpecExit ExitFacts DeferFacts DeferOrder SpecWorth WorthFacts WorthSteps WorthRuns SpecOwn OwnFacts.
Import ListNotations.
Open Scope Z_scope.

Lemma self_cfg m m' f : m_cfg m' = m_cfg m -> self_base m' f = self_base m f /\ self_quote_moved m' f = self_quote_moved m f /\ self_round m' f = self_round m f.
Proof.
  intros E. unfold self_base, self_quote_moved, self_round, self_fee, fill_quote, maker_pays, bls, qls, maker_fee. rewrite E. repeat split.
Qed.
Lemma valued_refl k w L : valued k w L w L 0 0 0.
Proof. constructor; [reflexivity|]. intros a Ha. exists a. split; [exact Ha|]. split; [lia|]. exists 0. lia. Qed.
Lemma valued_same k w L w' L' : m_cfg (w_mkt w') = m_cfg (w_mkt w) -> DeferFacts.fate w' k = DeferFacts.fate w k ->
  (forall s, Permutation (L' s) (L s)) -> valued k w L w' L' 0 0 0.
Proof.
  intros Ec Ef HL. eapply (valued_perm k w L w' L); [reflexivity|intros s; symmetry; apply HL|].
  constructor; [exact Ec|]. intros a Ha. exists a. split; [rewrite Ef; exact Ha|]. split; [lia|]. exists 0. lia.
Qed.
Lemma valued_shift k w P w' a a' : Led (w_mkt w) (w_accts w) P -> hrep (w_heap w) P ->
  acct_get k (w_accts w) = Some a -> acct_get k (w_accts w') = Some a' -> w_heap w' = w_heap w -> m_cfg (w_mkt w') = m_cfg (w_mkt w) ->
  (forall i oo, order_at a i = Ok oo -> oo_free oo = false -> order_at a' i = order_at a i) -> forall L,
  valued k w L w' L (p_base_free (a_pos a') - p_base_free (a_pos a)) (p_quote_free (a_pos a') - p_quote_free (a_pos a)) 0.
Proof.
  intros HL Hh Ha Ha' Eh Ec Hs L. constructor; [exact Ec|]. intros X HX.
  destruct (fate_shift _ _ _ _ _ _ _ HL Hh Ha Ha' Eh Ec Hs HX) as (X' & HX' & E1 & E2). exists X'. split; [exact HX'|]. split; [lia|]. exists 0. lia.
Qed.

Lemma effects_valued o tk owner rem now w acts w' : effects o tk owner rem now w acts w' -> forall P, ready o w acts P ->
  Forall (fair_act o owner now) acts -> let s := invert_side (o_side o) in
  let M := with_self owner (fills_of o owner now (m_seq (w_mkt w)) acts) in
  exists P', Led (w_mkt w') (w_accts w') P' /\ hrep (w_heap w') P' /\
    Permutation (pleaves (o_side o) P') (pleaves (o_side o) P) /\
    Permutation (pleaves s P') (presidues acts (pleaves s P)) /\
    (forall n, ids_le n P -> ids_le n P') /\
    valued owner w (pool_of P) w' (pool_of P') (fsum (self_base (w_mkt w)) M) (fsum (self_quote_moved (w_mkt w)) M) (fsum (self_round (w_mkt w)) M).
Proof.
  induction 1 as [w|w a w1 r w2 H1 _ IH]; intros P [HL Hh Hnd Hak Hin Hk] Hfa s M.
  - exists P. split; [exact HL|]. split; [exact Hh|]. split; [reflexivity|]. split; [|split; [auto|]].
    + replace (presidues [] (pleaves s P)) with (pleaves s P); [reflexivity|].
      unfold presidues. clear. induction (pleaves s P) as [|[t l] L IHL]; [reflexivity|]. cbn [flat_map]. rewrite <- IHL at 1. reflexivity.
    + apply valued_refl.
  - inversion Hk as [|a0 r0 Hk1 Hk2]; subst a0 r0. cbn [map] in Hak. inversion Hak as [|x y N1 N2]; subst x y.
    inversion Hfa as [|a0 r0 Hf1 Hf2]; subst a0 r0.
    set (t := im_tree (act_item a)) in *. set (l := im_leaf (act_item a)) in *.
    destruct (effect_valued o tk owner rem now w a w1 P H1 HL Hh (Hin a (or_introl eq_refl)) Hk1 Hf1)
      as (P1 & R & HL1 & Hh1 & O1 & S1 & S1' & I1 & T1). fold s t l in S1, S1'.
    pose proof (effect_rest _ _ _ _ _ _ _ _ H1) as (_ & _ & Ec & Es & _).
    assert (NR : ~ In (t, lf_key l) (map lkey R) /\ NoDup (map lkey R)).
    { pose proof (Permutation_NoDup (Permutation_map lkey S1) Hnd) as N. cbn [map] in N. inversion N; subst. auto. }
    destruct NR as [NR1 NR2].
    destruct (IH P1) as (P2 & HL2 & Hh2 & O2 & S2 & I2 & T2).
    + constructor; try assumption.
      * apply (Permutation_NoDup (Permutation_sym (Permutation_map lkey S1'))). rewrite map_app. unfold leaf_after.
        destruct (after_act a l) as [l'|] eqn:E; [|exact NR2]. cbn [map app]. constructor; [|exact NR2].
        unfold lkey at 1. cbn [fst snd]. rewrite (after_key _ _ _ E). exact NR1.
      * intros b Hb. apply (Permutation_in _ (Permutation_sym S1')). apply in_or_app. right.
        pose proof (Hin b (or_intror Hb)) as G. apply (Permutation_in _ S1) in G. destruct G as [G|G]; [|exact G].
        exfalso. apply N1. apply in_map_iff. exists b. split; [|exact Hb]. unfold akey. injection G as G1 G2.
        unfold t in G1. unfold l in G2. rewrite <- G1, <- G2. reflexivity.
      * apply Forall_forall. intros b Hb. rewrite Forall_forall in Hk2. apply (act_cfg (w_mkt w) (w_mkt w1) s owner b Ec). apply Hk2. exact Hb.
    + exact Hf2.
    + exists P2. split; [exact HL2|]. split; [exact Hh2|]. split; [rewrite O2; exact O1|]. split; [|split; [auto|]].
      * fold s in S2. rewrite S2. rewrite (presidues_perm _ _ _ S1'), (presidues_perm _ _ _ S1).
        rewrite presidues_step; [reflexivity|reflexivity|exact N1|exact NR1].
      * rewrite Es in T2.
        assert (EM : forall g : market -> fill_event -> Z, fsum (g (w_mkt w)) M = act_self (w_mkt w) o owner now (m_seq (w_mkt w)) g a + fsum (g (w_mkt w)) (with_self owner (fills_of o owner now (m_seq (w_mkt w)) r))).
        { intros g. unfold M. rewrite fills_cons. unfold with_self at 1. rewrite filter_app, fsum_app. f_equal.
          destruct a as [i q|i|i]; cbn [act_self filter]; [|reflexivity|reflexivity]. change (fe_maker (fill_of o owner now (m_seq (w_mkt w)) i q)) with (lf_owner (im_leaf i)).
          destruct (lf_owner (im_leaf i) =? owner); [|reflexivity]. unfold fsum. cbn [map sumZ fold_right]. lia. }
        rewrite !EM.
        rewrite (fsum_ext (self_base (w_mkt w1)) (self_base (w_mkt w))) in T2 by (intros f; apply self_cfg; exact Ec).
        rewrite (fsum_ext (self_quote_moved (w_mkt w1)) (self_quote_moved (w_mkt w))) in T2 by (intros f; apply self_cfg; exact Ec).
        rewrite (fsum_ext (self_round (w_mkt w1)) (self_round (w_mkt w))) in T2 by (intros f; apply self_cfg; exact Ec).
        eapply valued_trans; [exact T1|exact T2].
Qed.

(** ** Sums over the matches of one order *)
Lemma self_split g k M : fsum g M = fsum g (with_self k M) + fsum g (with_others k M).
Proof.
  induction M as [|f M IH]; [reflexivity|]. unfold with_self, with_others in *. cbn [filter]. destruct (fe_maker f =? k); cbn [negb]; rewrite !fsum_cons, IH; lia.
Qed.
Lemma charged_others m k M : (forall f, In f M -> fe_taker f = k) -> fsum (charged m) M = fsum (fill_quote m) (with_others k M).
Proof.
  induction M as [|f M IH]; intros Ht; [reflexivity|]. rewrite fsum_cons, IH by (intros x Hx; apply Ht; right; exact Hx).
  unfold with_others. cbn [filter]. unfold charged at 1, fill_self. rewrite (Ht f (or_introl eq_refl)). destruct (fe_maker f =? k); cbn [negb]; [lia|]. rewrite fsum_cons. reflexivity.
Qed.
Lemma fsum_same g g' M : (forall f, In f M -> g f = g' f) -> fsum g M = fsum g' M.
Proof. intros H. unfold fsum. f_equal. apply map_ext_in. exact H. Qed.
Lemma fsum_neg g M : fsum (fun f => - g f) M = - fsum g M.
Proof. induction M as [|f M IH]; [reflexivity|]. rewrite !fsum_cons, IH. lia. Qed.
Lemma fsum_minus g h M : fsum (fun f => g f - h f) M = fsum g M - fsum h M.
Proof. induction M as [|f M IH]; [reflexivity|]. rewrite !fsum_cons, IH. lia. Qed.
Lemma self_rounds m k M : fsum (self_round m) (with_self k M) = self_rounding m k M.
Proof.
  unfold self_rounding, self_round. destruct (0 <? maker_fee m); cbn [andb].
  - induction (with_self k M) as [|f r IH]; [reflexivity|]. rewrite fsum_cons, IH. cbn [filter]. destruct (side_eqb (fill_side f) Bid); cbn [length]; lia.
  - induction (with_self k M) as [|f r IH]; [reflexivity|]. rewrite fsum_cons, IH. lia.
Qed.
(** What matching and settling add up to, per side. *)
Lemma order_sums m k sd M : (forall f, In f M -> fe_taker f = k /\ fe_taker_side f = sd) ->
  let bt := fsum (fun f => fe_qty f * bls m) M in let qt := fsum (fill_quote m) M in
  let tf := taker_pays m (fsum (charged m) M) in
  fsum (self_base m) (with_self k M) + match sd with Bid => bt | Ask => - bt end = deal_base m k M /\
  fsum (self_quote_moved m) (with_self k M) + match sd with Bid => - qt | Ask => qt end - tf = deal_quote m k M - self_cost m k M.
Proof.
  intros HM bt qt tf.
  assert (HS : forall f, In f (with_self k M) -> fill_side f = invert_side sd).
  { intros f Hf. apply filter_In in Hf as [Hf _]. unfold fill_side. rewrite (proj2 (HM f Hf)). reflexivity. }
  assert (HO : forall f, In f (with_others k M) -> fe_taker_side f = sd) by (intros f Hf; apply filter_In in Hf as [Hf _]; apply (HM f Hf)).
  assert (Etf : tf = taker_pays m (fsum (fill_quote m) (with_others k M))).
  { unfold tf. rewrite (charged_others m k M) by (intros f Hf; apply (HM f Hf)). reflexivity. }
  pose proof (self_split (fun f => fe_qty f * bls m) k M) as Eb. fold bt in Eb. pose proof (self_split (fill_quote m) k M) as Eq. fold qt in Eq.
  unfold deal_base, deal_quote, self_cost.
  change (sumZ (map (taken_base m) (with_others k M))) with (fsum (taken_base m) (with_others k M)).
  change (sumZ (map (taken_quote m) (with_others k M))) with (fsum (taken_quote m) (with_others k M)).
  change (sumZ (map (fill_quote m) (with_others k M))) with (fsum (fill_quote m) (with_others k M)).
  change (sumZ (map (self_fee m) (with_self k M))) with (fsum (self_fee m) (with_self k M)). rewrite Etf. clear Etf tf.
  destruct sd; cbn [invert_side] in HS.
  - rewrite (fsum_same (self_base m) (fun f => - (fe_qty f * bls m)) (with_self k M)) by (intros f Hf; unfold self_base; rewrite (HS f Hf); reflexivity).
    rewrite (fsum_same (self_quote_moved m) (fun f => fill_quote m f - self_fee m f) (with_self k M)) by (intros f Hf; unfold self_quote_moved; rewrite (HS f Hf); reflexivity).
    rewrite (fsum_same (taken_base m) (fun f => fe_qty f * bls m) (with_others k M)) by (intros f Hf; unfold taken_base; rewrite (HO f Hf); reflexivity).
    rewrite (fsum_same (taken_quote m) (fun f => - fill_quote m f) (with_others k M)) by (intros f Hf; unfold taken_quote; rewrite (HO f Hf); reflexivity).
    rewrite (fsum_neg (fun f => fe_qty f * bls m)), fsum_neg, fsum_minus. lia.
  - rewrite (fsum_same (self_base m) (fun f => fe_qty f * bls m) (with_self k M)) by (intros f Hf; unfold self_base; rewrite (HS f Hf); reflexivity).
    rewrite (fsum_same (self_quote_moved m) (fun f => - fill_quote m f - self_fee m f) (with_self k M)) by (intros f Hf; unfold self_quote_moved; rewrite (HS f Hf); reflexivity).
    rewrite (fsum_same (taken_base m) (fun f => - (fe_qty f * bls m)) (with_others k M)) by (intros f Hf; unfold taken_base; rewrite (HO f Hf); reflexivity).
    rewrite (fsum_same (taken_quote m) (fun f => fill_quote m f) (with_others k M)) by (intros f Hf; unfold taken_quote; rewrite (HO f Hf); reflexivity).
    rewrite (fsum_neg (fun f => fe_qty f * bls m)), fsum_minus, fsum_neg. change (fsum (fun f => fill_quote m f) (with_others k M)) with (fsum (fill_quote m) (with_others k M)). lia.
Qed.
(** ** Placing *)
Lemma rest_more k m L L' s t l : lf_owner l = k -> Permutation (L' s) ((t, l) :: L s) -> (forall u, u <> s -> Permutation (L' u) (L u)) ->
  rest_b k m L' = rest_b k m L + (if side_eqb s Ask then lf_qty l * bls m else 0) /\
  rest_q k m L' = rest_q k m L + (if side_eqb s Bid then with_fees m (lf_qty l * order_lock t l * qls m) else 0).
Proof.
  intros Ho HP HQ. unfold rest_b, rest_q. destruct s; cbn [side_eqb].
  - rewrite (sum_perm _ _ (Permutation_map _ (HQ Ask ltac:(discriminate)))), (sum_perm _ _ (Permutation_map _ HP)). cbn [map]. rewrite sumZ_cons.
    unfold order_quote at 1. cbn [fst snd side_eqb]. rewrite Ho, Z.eqb_refl. cbn [andb]. lia.
  - rewrite (sum_perm _ _ (Permutation_map _ (HQ Bid ltac:(discriminate)))), (sum_perm _ _ (Permutation_map _ HP)). cbn [map]. rewrite sumZ_cons.
    unfold order_base at 1. cbn [fst snd side_eqb]. rewrite Ho, Z.eqb_refl. cbn [andb]. lia.
Qed.
Lemma taker_step a m s b q tf ra a' m' : execute_taker a m s b q tf ra = Ok (a', m') ->
  m_cfg m' = m_cfg m /\ (forall i, order_at a' i = order_at a i) /\
  p_base_free (a_pos a') = p_base_free (a_pos a) + match s with Bid => b | Ask => 0 end /\
  p_quote_free (a_pos a') = p_quote_free (a_pos a) + match s with Bid => 0 | Ask => q - tf end.
Proof.
  unfold execute_taker. intros G2. cbv zeta in G2. apply bind_ok in G2 as (p1 & X & G2).
  apply bind_ok in G2 as (tv & Y1 & G2). apply bind_ok in G2 as (rb & Y2 & G2). apply chk_u64_ok in Y2 as [-> _].
  apply bind_ok in G2 as (mr & _ & G2). injection G2 as <- <-. split; [reflexivity|]. split; [reflexivity|].
  destruct s.
  - apply bind_ok in X as (c & X1 & X). apply chk_u64_ok in X1 as [-> _]. injection X as <-. cbn. lia.
  - apply bind_ok in X as (c & X1 & X). apply chk_u64_ok in X1 as [-> _]. apply bind_ok in X as (d & X1 & X). apply chk_u64_ok in X1 as [-> _]. injection X as <-. cbn. lia.
Qed.
Lemma new_order_valued w db dq cl ct P o oracle owner now limit rem w' r :
  Inv w db dq cl ct P -> sane_order o ->
  new_order w o oracle (Some owner) owner now limit rem = Ok (w', r) ->
  exists M D, Forall (taken_by owner (o_side o) (order_limit o oracle)) M /\
    tallied w D M (order_logs w o oracle (Some owner) owner now limit rem) w' /\
    valued owner w (orders w) w' (orders w') (deal_base (w_mkt w) owner M + owed_base o (Some owner) r)
      (deal_quote (w_mkt w) owner M - self_cost (w_mkt w) owner M + owed_quote o (Some owner) r) (self_rounding (w_mkt w) owner M).
Proof.
  intros HI Hso H. remember (Some owner) as taker eqn:Etaker. pose proof HI as [HR HL _ _ _ _ _ _].
  assert (Htk0 : taker = Some owner \/ (taker = None /\ acct_get owner (w_accts w) = None)) by (left; exact Etaker).
  assert (Htk : taker = Some owner \/ taker = None) by tauto.
  pose proof (rep_sound _ _ HR HL) as Hws. pose proof (sound_call_of _ _ _ _ Hws Hso Htk) as Hsc.
  pose proof Hws as [Hc _]. pose proof Hso as [Hb0 Hq0 _].
  destruct (rp_side _ _ HR (o_side o)) as (T0 & Hf0 & HP0).
  destruct (rp_side _ _ HR (invert_side (o_side o))) as (T & Hf & HP).
  destruct (new_order_inv _ _ _ _ _ _ _ _ _ _ _ Hf Htk Hc Hb0 Hq0 H)
    as (price & pd & maxq & acts & ms & lf & w2 & bt & qt & tf & ra & rq & mf & b2 & T2 & Hpl & Hfin).
  destruct (placed_numbers _ _ _ _ _ _ _ _ _ _ _ _ _ _ _ _ _ _ _ _ _ _ _ _ Hsc Hf Hpl)
    as (Haf & Eb & Eq & Hb & Hq & Hbl & Hql & Ebt & Eqt & Bbt & Bqt & Etf & Erq & Ecfg & Eseq & Ebk & Hef & Hqu).
  pose proof Hpl as [Hp Hseq Hmq Hcap Hit Htr Hst Hf2 Hlv Hmf Hlp Hfok].
  destruct (order_price_facts _ _ _ _ _ _ Hso Hp) as (Rp & Rpd & Hlim & Hkey & _).
  pose proof (lt_sub _ _ _ _ _ _ _ _ _ _ _ Htr) as Hsub.
  pose proof (lt_amounts _ _ _ _ _ _ Htk _ _ _ _ _ Htr) as (A1 & A2 & A3 & A4 & _).
  pose proof (own_quote_bounds _ _ _ _ _ Haf) as [Hown _].
  cbn [start_ms ms_base ms_quote ms_dec ms_rebates ms_w] in A1, A2, A3, A4. rewrite Z.add_0_l in A3, A4.
  set (s := o_side o) in *. set (os := invert_side s) in *. set (m := w_mkt w) in *.
  set (m0 := m_set_seq m (m_seq m + 1)) in *. cbn [w_set_mkt w_mkt] in A4. fold m0 in A4.
  assert (Hc0 : cfg_sound (m_cfg m0)) by exact Hc.
  assert (Eq0 : qls m0 = qls m) by reflexivity.
  assert (Hin : forall a, In a acts -> In (im_tree (act_item a), im_leaf (act_item a)) (pleaves os P)).
  { intros a Ha. apply (Permutation_in _ HP). apply in_all_leaves.
    pose proof (merged_on_book _ _ _ _ _ (ft_ok _ _ _ Hf) Hsub) as Hon. rewrite Forall_forall in Hon. specialize (Hon a Ha).
    unfold on_book in Hon. apply oitems_leaf in Hon. exact Hon. }
  assert (Hne : taker = None -> forall a, In a acts -> lf_owner (im_leaf (act_item a)) <> owner).
  { intros Et a Ha Eo. apply Hin in Ha. apply leaf_piece in Ha as (lp & Ha). destruct (ld_back _ _ _ HL _ Ha) as (x & Hx & _).
    cbn [pc_owner] in Hx. rewrite Eo in Hx. destruct Htk0 as [E|[_ E]]; congruence. }
  assert (Hpg : forall a, In a acts -> os = Bid -> im_tree (act_item a) = OraclePegged -> lf_peg_limit (im_leaf (act_item a)) <> -1).
  { intros a Ha Es Et. apply Hin in Ha. apply leaf_piece in Ha as (lp & Ha). pose proof (ld_piece _ _ _ HL _ Ha) as [_ K2 _ _ _ K6].
    rewrite Es, Et in K6. cbn [pc_lp] in K2. lia. }
  assert (Hfair : Forall (fair_act o owner now) acts).
  { apply Forall_forall. intros a Ha. rewrite Forall_forall in Haf. specialize (Haf a Ha).
    destruct a as [i q|i|i]; [|exact I|exact I]. destruct Haf as (Hv & _).
    assert (Hi : In i (merged (w_book w os) T now oracle)) by (apply (sublist_in _ _ _ Hsub); apply (in_map act_item acts _ Ha)).
    pose proof (listed_facts _ _ _ _ _ _ Hf Hi) as (Hr & Hvv & _ & _). apply Hvv in Hv as [V1 V2].
    split; [exists oracle; unfold right_price in Hr; unfold price_is; exact Hr|]. split; [exact V2|exact V1]. }
  assert (Hq1 : quote_lots acts * qls m0 <= 9223372036854775807) by (rewrite Eq0; lia).
  pose proof (rebates_counted _ _ _ _ m0 Hc0 _ Haf Hq1 Hne) as Hreb.
  pose proof (rebates_le _ _ _ _ m0 Hc0 _ Haf Hne) as Hreb1.
  pose proof (led_seq _ _ _ Hseq HL) as HL0. fold m0 in HL0.
  assert (Hids : ids_le (m_seq m) P).
  { intros p Hp'. apply (ld_piece _ _ _ HL) in Hp'. apply pk_seq in Hp'. exact (proj2 Hp'). }
  (* matching *)
  destruct (effects_valued _ _ _ _ _ _ _ _ Hef P) as (P1 & HL1 & Hh1 & O1 & S1 & I1 & TR1).
  { constructor; fold s os.
    - exact HL0.
    - exact (rp_heap _ _ HR).
    - apply (Permutation_NoDup (Permutation_map lkey HP)). eapply all_leaves_keys. exact (ft_ok _ _ _ Hf).
    - eapply acts_akey_nodup; [exact (ft_ok _ _ _ Hf)|exact Hsub].
    - exact Hin.
    - eapply acts_known; [exact Hf|exact Hc0|exact Haf|exact Hq1|exact Hsub|exact Hpg]. }
  { exact Hfair. }
  fold s os in O1, S1.
  assert (Ecm : m_cfg (w_mkt (ms_w ms)) = m_cfg m).
  { pose proof (effects_rest _ _ _ _ _ _ _ _ Hef) as (_ & _ & R3 & _). exact R3. }
  (* settling *)
  assert (Eqm : qls (w_mkt (ms_w ms)) = qls m) by (apply qls_eq; exact Ecm).
  assert (Hms : ms_rebates ms = sumZ (map (act_rebate m0 owner) acts)) by (rewrite A4; exact Hreb).
  destruct (settle_led o taker owner maxq ms w2 bt qt tf ra rq P1 Htk Hq ltac:(lia) ltac:(lia) ltac:(rewrite Eqm, A3, Hms, <- Eq0; replace (maxq - ms_quote ms) with (quote_lots acts) by lia; lia) Hst HL1)
    as (_ & _ & _ & HL2 & Hh2 & _).
  cbn [w_set_mkt w_mkt] in TR1. change (m_seq m0) with (m_seq m + 1) in TR1.
  set (M := fills_of o owner now (m_seq m + 1) acts) in *.
  assert (HM : forall f, In f M -> taken_by owner s (order_limit o oracle) f).
  { intros f Hf'. unfold M, fills_of in Hf'. apply in_flat_map in Hf' as (a & Ha & Hf'). rewrite Forall_forall in Haf. pose proof (Haf a Ha) as G.
    destruct a as [i q|i|i]; [|destruct Hf'|destruct Hf']. destruct Hf' as [<-|[]]. destruct G as (_ & Wi & _ & Q & _).
    split; [reflexivity|]. split; [reflexivity|]. split; [cbn [fill_of fe_qty]; lia|]. cbn [fill_of fe_price].
    destruct (order_limit o oracle) as [p|] eqn:El; [|exact I]. eapply within_accepts; [exact Wi|apply Hlim; reflexivity]. }
  destruct (placed_tallied _ _ _ _ _ _ _ _ _ _ _ _ _ _ _ _ _ _ _ _ _ _ _ _ _ _ _ _ _ _ _ HI Hso Htk0 H Hf Hpl) as (D & TD & _).
  exists M, D. split; [apply Forall_forall; exact HM|]. split; [exact TD|]. clear TD.
  assert (HM' : forall f, In f M -> fe_taker f = owner /\ fe_taker_side f = s) by (intros f Hf'; destruct (HM f Hf') as (X1 & X2 & _); auto).
  destruct (order_sums m owner s M HM') as [OS1 OS2].
  assert (Hsl : selfless taker owner acts) by (intros i q Hi; unfold own_trade; rewrite Etaker; apply Z.eqb_sym).
  pose proof (fills_base m o owner now (m_seq m + 1) acts) as FB. fold M in FB. rewrite <- Ebt in FB.
  pose proof (fills_quote m o owner now (m_seq m + 1) acts) as FQ. fold M in FQ. rewrite <- Eqt in FQ.
  pose proof (fills_charged m o taker owner now (m_seq m + 1) acts Hsl) as FC. fold M in FC. rewrite FC, <- Etf in OS2. rewrite FB in OS1. rewrite FQ in OS2.
  rewrite self_rounds in TR1.
  change (fsum (self_base m0) (with_self owner M)) with (fsum (self_base m) (with_self owner M)) in TR1.
  change (fsum (self_quote_moved m0) (with_self owner M)) with (fsum (self_quote_moved m) (with_self owner M)) in TR1.
  change (self_rounding m0 owner M) with (self_rounding m owner M) in TR1.
  assert (HT2 : Permutation (all_leaves T2) (pleaves os P1)).
  { rewrite (presidues_all _ _ _ Hlv), S1. apply presidues_perm. exact HP. }
  assert (TR0 : valued owner w (pool_of P) w2 (pool_of P1) (fsum (self_base m) (with_self owner M) + match s with Bid => bt | Ask => 0 end)
      (fsum (self_quote_moved m) (with_self owner M) + match s with Bid => 0 | Ask => qt - tf end) (self_rounding m owner M)).
  { assert (V1 : valued owner w (pool_of P) (ms_w ms) (pool_of P1) (fsum (self_base m) (with_self owner M)) (fsum (self_quote_moved m) (with_self owner M)) (self_rounding m owner M)).
    { eapply valued_eq; [eapply valued_trans; [apply (valued_same owner w (pool_of P) (w_set_mkt w m0) (pool_of P)); reflexivity|exact TR1]|lia|lia|lia]. }
    assert (Hst' := Hst). apply settle_taker_inv in Hst'; [|rewrite Ecm; exact Hc|exact Hq|rewrite A2, A3; lia].
    destruct Hst' as (K1 & K2 & K3 & K4 & _ & _ & K5 & K6 & K7 & _ & K8). rewrite Etaker in K8.
    destruct ((0 <? maxq - ms_quote ms) || (0 <? o_max_base o - ms_base ms)) eqn:Ed.
    - destruct K8 as (m1 & Em1 & x & x' & m' & G1 & G2 & ->).
      destruct (taker_step _ _ _ _ _ _ _ _ _ G2) as (T1 & T2' & T3 & T4). fold s in T3, T4.
      eapply valued_eq; [eapply valued_trans; [exact V1|]; eapply (valued_shift owner (ms_w ms) P1 _ x x'); [exact HL1|exact Hh1|exact G1| | | |]| | |].
      + cbn [w_set_acct w_set_accts w_set_mkt w_accts]. eapply acct_get_set_same. exact G1.
      + reflexivity.
      + cbn [w_set_acct w_set_accts w_set_mkt w_mkt]. rewrite T1, Em1. reflexivity.
      + intros i oo _ _. apply T2'.
      + lia.
      + lia.
      + lia.
    - subst w2. assert (Z1 : maxq - ms_quote ms = 0) by lia. assert (Z2 : o_max_base o - ms_base ms = 0) by lia.
      assert (Hd0 : ms_dec ms = 0) by lia.
      rewrite Z1, Hd0 in K5. rewrite Z1 in K4. rewrite Z2 in K3. rewrite Z.mul_0_l in *. cbn [Z.sub Z.mul] in K5.
      assert (Et : tf = 0). { rewrite K5. unfold taker_pays, fee_up. rewrite Z.mul_0_l. reflexivity. }
      eapply valued_eq; [exact V1| | |reflexivity]; destruct s; lia. }
  assert (Hstart : forall s1 s2 w9 L9 B Q N, Permutation (orders w s1) (pleaves s1 P) -> Permutation (orders w s2) (pleaves s2 P) -> s2 = invert_side s1 ->
            valued owner w (pool_of P) w9 L9 B Q N -> valued owner w (orders w) w9 L9 B Q N).
  { intros s1 s2 w9 L9 B Q N X1 X2 Es X. eapply valued_perm; [| |exact X]; [|reflexivity]. intros u. symmetry. unfold pool_of.
    destruct u, s1; subst s2; cbn [invert_side] in X2; assumption. }
  apply (Hstart s os); [rewrite (fits_all _ _ _ Hf0); exact HP0|rewrite (fits_all _ _ _ Hf); exact HP|reflexivity|]. clear Hstart.
  destruct Hfin as [Hno|t w4 pb pq mfees Hpos Htg Hpeg Hpost].
  - (* nothing posted *)
    change (invert_side (o_side o)) with os.
    assert (Em : w_mkt (w_set_book w2 os b2) = w_mkt w2) by apply w_set_book_mkt.
    assert (Ea : w_accts (w_set_book w2 os b2) = w_accts w2) by (destruct os; reflexivity).
    assert (Eh : w_heap (w_set_book w2 os b2) = w_heap w2) by (destruct os; reflexivity).
    eapply valued_eq; [eapply valued_trans; [exact TR0|]; apply (valued_same owner w2 (pool_of P1)); [rewrite Em; reflexivity|apply fate_same; [rewrite Ea; reflexivity|exact Eh|rewrite Em; reflexivity]|] | | |].
    2-3: unfold owed_base, owed_quote; rewrite Etaker; cbn [oa_base_taken oa_posted_base oa_quote_taken oa_posted_quote oa_taker_fees oa_maker_fees]; fold s; destruct s; lia.
    2: lia.
    intros u. assert (Hcase : u = s \/ u = os) by (unfold os; destruct u, s; auto). destruct Hcase as [-> | ->].
    + rewrite (fits_all _ s T0) by (unfold os; rewrite w_book_set_inv', Ebk; exact Hf0). rewrite HP0. symmetry. exact O1.
    + rewrite (fits_all _ os T2) by (rewrite w_book_set; exact Hf2). exact HT2.
  - (* posted *)
    assert (Hf0' : fits (o_side o) (w_book (w_set_book w2 os b2) (o_side o)) T0).
    { fold s. unfold os. rewrite w_book_set_inv', Ebk. exact Hf0. }
    assert (Hpt : post_target o = Some t).
    { destruct (lt_target _ _ _ _ _ _ _ _ _ _ _ Htr) as [E|E]; [cbn [start_ms ms_target] in E; congruence|congruence]. }
    set (id := new_node_key s pd (m_seq m + 1)) in *.
    change (new_node_key (o_side o) pd (m_seq (w_mkt w) + 1)) with id in Hpost |- *.
    change (invert_side (o_side o)) with os in Hpost.
    set (qty := post_qty o price ms rq mf) in *.
    assert (Hoko : forall slot, order_ok t (posted_leaf o owner now id slot qty) /\ price_is oracle t (posted_leaf o owner now id slot qty) price).
    { intros slot. apply (Hkey t _ _ Hpt Hseq). reflexivity. }
    assert (Hidq : id_seq s id = m_seq m + 1).
    { pose proof (seq_of_new s pd (m_seq m + 1) (posted_leaf o owner now id 0 qty) Hseq eq_refl) as E. exact E. }
    apply post_order_inv with (T := T0) in Hpost.
    2: exact Hf0'. 2: exact Htk. 2: rewrite w_set_book_mkt, Ecfg; exact Hc. 2: apply (Hoko 0).
    2:{ intros t' l Hl E. apply in_all_leaves in Hl. apply (Permutation_in _ HP0) in Hl. apply leaf_piece in Hl as (lp & Hl).
        apply Hids in Hl. cbn [pc_side pc_id] in Hl. rewrite E in Hl. change (id_seq s id <= m_seq m) in Hl. lia. }
    2: exact Hpos. 2: apply lock_price_pos; [exact Hso|lia].
    rewrite w_set_book_mkt in Hpost. fold s in Hpost.
    destruct Hpost as (Etk & Epb & Epq & Bpb & Bpq & Emf & gone & w1 & wB & a & slot & a' & b3 & T3 & Hlk & Hdr & Ha & Hslot & Hadd & -> & Hf3 & Hperm & Hlen & Hroom & Hincl).
    set (nl := posted_leaf o owner now id slot qty) in *. set (wA := w_set_book w2 os b2) in *.
    assert (Em : w_mkt wA = w_mkt w2) by apply w_set_book_mkt.
    assert (Ea : w_accts wA = w_accts w2) by (unfold wA; destruct os; reflexivity).
    assert (Eh : w_heap wA = w_heap w2) by (unfold wA; destruct os; reflexivity).
    pose proof (cs_qls _ Hc) as C1. change (c_qls (m_cfg m)) with (qls m) in C1.
    assert (Eq2 : qls (w_mkt w2) = qls m) by (apply qls_eq; exact Ecfg).
    pose proof (lock_price_pos o price Hso ltac:(lia)) as Hlp1.
    assert (Hpq : 0 <= pq) by (rewrite Epq, Eq2; nia).
    assert (Hmf0 : 0 <= mfees).
    { rewrite Emf. destruct s; [|lia]. apply maker_locks_bounds; [rewrite Ecfg; exact Hc|exact Hpq]. }
    assert (Hnew : ~ In (t, nl) gone).
    { intros Hg. apply Hincl in Hg. apply (Permutation_in _ HP0) in Hg. apply leaf_piece in Hg as (lp' & Hg).
      apply Hids in Hg. cbn [pc_side pc_id] in Hg. change (id_seq s id <= m_seq m) in Hg. lia. }
    assert (HR3 : exists R, Permutation (all_leaves T3) ((t, nl) :: R) /\ Permutation (all_leaves T0) (R ++ gone)).
    { assert (Hi3 : In (t, nl) (all_leaves T3)).
      { assert (Hin3 : In (t, nl) (all_leaves T3 ++ gone)) by (apply (Permutation_in _ Hperm); left; reflexivity).
        apply in_app_or in Hin3 as [Hin3|Hin3]; [exact Hin3|contradiction]. }
      apply in_split in Hi3 as (X & Y & E3). exists (X ++ Y). split; [rewrite E3; symmetry; apply Permutation_middle|].
      apply (Permutation_cons_inv (a := (t, nl))). rewrite Hperm, E3.
      rewrite <- !app_assoc. cbn [app]. symmetry. apply Permutation_middle. }
    destruct HR3 as (R & HR3 & HR0).
    rewrite <- Em, <- Ea in HL2. 
    assert (Hown' : exists x, acct_get owner (w_accts wA) = Some x).
    { destruct (acct_get owner (w_accts wA)) as [x|] eqn:E; [exists x; reflexivity|]. exfalso.
      destruct (drops_keep _ _ _ _ _ _ _ Hdr _ _ Ha) as (y & Hy).
      unfold locks in Hlk. destruct s; [destruct Hlk as (z & Hz & _); congruence|subst w1; congruence]. }
    destruct (led_locks _ _ _ _ _ P1 Hlk Hmf0 ltac:(intros E; rewrite Emf, E; reflexivity) HL2 Hown')
      as (Em1 & Eh1 & HL3 & _ & _).
    destruct (drops_tracked owner _ _ _ _ _ _ _ Hdr P1 R HL3) as (P2 & HL4 & Hh4 & O4 & S4 & TR4).
    { rewrite Eh1, Eh, Hh2. exact Hh1. }
    { rewrite O1, <- HP0. exact HR0. }
    assert (TR1' : valued owner wA (pool_of P1) w1 (pool_of P1) 0 0 0).
    { unfold locks in Hlk. destruct s; [|subst w1; apply valued_refl]. destruct Hlk as (z & Hz & _ & Ew1).
      eapply valued_eq; [eapply (valued_shift owner wA P1 w1 z); [exact HL2|rewrite Eh, Hh2; exact Hh1|exact Hz| | | |]| | |].
      - rewrite Ew1. cbn [w_set_acct w_set_accts w_accts]. eapply acct_get_set_same. exact Hz.
      - exact Eh1.
      - rewrite Em1. reflexivity.
      - intros i oo _ _. reflexivity.
      - cbn [a_set_pos a_pos p_set_locked_fees p_base_free]. lia.
      - cbn [a_set_pos a_pos p_set_locked_fees p_quote_free]. lia.
      - reflexivity. }
    assert (TR2 : valued owner w2 (pool_of P1) wB (pool_of P2) 0 0 0).
    { apply tracked_valued in TR4.
      assert (V0 : valued owner w2 (pool_of P1) wA (pool_of P1) 0 0 0).
      { apply valued_same; [rewrite Em; reflexivity|apply fate_same; [rewrite Ea; reflexivity|exact Eh|rewrite Em; reflexivity]|reflexivity]. }
      exact (valued_trans _ _ _ _ _ _ _ _ _ _ _ _ _ V0 (valued_trans _ _ _ _ _ _ _ _ _ _ _ _ _ TR1' TR4)). }
    apply next_slot_ok in Hslot as (oo0 & Hoo & Hfr). pose proof (order_at_nonneg _ _ _ Hoo) as Hi0.
    assert (Hadd' : p_base_free (a_pos a') = p_base_free (a_pos a) /\ p_quote_free (a_pos a') = p_quote_free (a_pos a) /\
      forall i oo, order_at a i = Ok oo -> oo_free oo = false -> order_at a' i = order_at a i).
    { unfold add_order in Hadd. cbv zeta in Hadd. apply bind_ok in Hadd as (p' & E & Hadd). apply bind_ok in Hadd as (u0 & _ & Hadd). injection Hadd as <-.
      assert (G : p_base_free p' = p_base_free (a_pos a) /\ p_quote_free p' = p_quote_free (a_pos a)).
      { destruct s; repeat (apply bind_ok in E as (? & _ & E)); injection E as <-; split; reflexivity. }
      destruct G as [G1 G2]. split; [exact G1|]. split; [exact G2|]. intros i oo Hi Hf'. rewrite order_at_set_other; [reflexivity| |].
      - change (lf_slot nl) with slot. intros Ei. subst i. congruence.
      - exact Hi0. }
    destruct Hadd' as (Ad1 & Ad2 & Ad3).
    assert (Elk : s = Bid -> order_lock t nl = lock_price o price).
    { intros Es. destruct (Hoko slot) as [_ Hpi]. fold nl in Hpi. unfold lock_price, own_peg, order_peg_limit. fold s. rewrite Es.
      unfold post_target in Hpt. destruct Hso as [_ _ Hso].
      destruct (o_params o) eqn:Eop; try discriminate Hpt; injection Hpt as <-; cbn [price_is negb Z.eqb andb side_eqb order_lock] in *.
      + symmetry. exact Hpi.
      + unfold nl, posted_leaf, order_peg_limit. rewrite Eop. cbn [lf_peg_limit]. replace (peg_limit =? -1) with false by lia. reflexivity. }
    set (wZ := w_set_acct (w_set_book wB s b3) owner a').
    assert (EmZ : w_mkt wZ = w_mkt wB) by (unfold wZ; destruct s; reflexivity).
    assert (EaZ : w_accts wZ = acct_set owner a' (w_accts wB)) by (unfold wZ; destruct s; reflexivity).
    assert (EhZ : w_heap wZ = w_heap wB) by (unfold wZ; destruct s; reflexivity).
    pose proof (drops_rest _ _ _ _ _ _ _ Hdr) as [Sd Md].
    assert (Hb1 : forall u, w_book w1 u = w_book wA u).
    { intros u. unfold locks in Hlk. destruct s; [destruct Hlk as (z & _ & _ & ->); apply w_book_acct|subst w1; reflexivity]. }
    assert (Eother : w_book wZ os = b2).
    { unfold wZ. rewrite w_book_acct. unfold os. rewrite w_book_set_inv, (same_rest_book _ _ _ Sd), Hb1. apply w_book_set. }
    assert (Eown : w_book wZ s = b3).
    { unfold wZ. rewrite w_book_acct. apply w_book_set. }
    set (L3 := fun u => if side_eqb u s then (t, nl) :: pleaves s P2 else pleaves u P2).
    assert (VZ : valued owner wB (pool_of P2) wZ L3 (match s with Bid => 0 | Ask => pb end) (match s with Bid => pq + mfees | Ask => 0 end) 0).
    { assert (V0 : valued owner wB (pool_of P2) wZ (pool_of P2) 0 0 0).
      { eapply valued_eq; [eapply (valued_shift owner wB P2 wZ a a'); [exact HL4|exact Hh4|exact Ha| |exact EhZ|rewrite EmZ; reflexivity|exact Ad3]|lia|lia|reflexivity].
        rewrite EaZ. eapply acct_get_set_same. exact Ha. }
      destruct V0 as [V1 V2]. constructor; [exact V1|]. intros X HX. destruct (V2 X HX) as (X' & HX' & E1 & r0 & R0 & E2). exists X'. split; [exact HX'|].
      destruct (rest_more owner (w_mkt wB) (pool_of P2) L3 s t nl eq_refl) as [W1 W2].
      - unfold L3. rewrite side_eqb_refl. reflexivity.
      - intros u Hu. unfold L3. destruct (side_eqb u s) eqn:E; [apply side_eqb_ok in E; congruence|reflexivity].
      - assert (EcB : m_cfg (w_mkt wB) = m_cfg (w_mkt w2)) by (rewrite Md, Em1, Em; reflexivity).
        rewrite W1, W2. change (lf_qty nl) with qty. unfold with_fees. rewrite (qls_eq _ _ EcB), (bls_eq _ _ EcB).
        replace (maker_locks (w_mkt wB)) with (maker_locks (w_mkt w2)) by (unfold maker_locks, maker_fee; rewrite EcB; reflexivity).
        destruct s; cbn [side_eqb].
        + rewrite (Elk eq_refl), <- Epq, <- Emf. split; [lia|]. exists r0. split; lia.
        + rewrite <- Epb. split; [lia|]. exists r0. split; lia. }
    assert (Hpb : 0 <= pb).
    { rewrite Epb, (bls_eq _ _ Ecfg). pose proof (cs_bls _ Hc) as C2. change (c_bls (m_cfg m)) with (bls m) in C2. clear - Hpos C2. nia. }
    assert (Ub : as_u64 pb = pb) by (apply as_u64_id; lia).
    assert (Uq : as_u64 pq = pq) by (apply as_u64_id; lia).
    eapply valued_eq; [eapply valued_trans; [exact TR0|]; eapply valued_trans; [exact TR2|]; eapply (valued_perm owner wB (pool_of P2) wZ L3); [reflexivity| |exact VZ]| | |].
    2-3: unfold owed_base, owed_quote; rewrite Etaker; cbn [oa_base_taken oa_posted_base oa_quote_taken oa_posted_quote oa_taker_fees oa_maker_fees]; fold s; rewrite ?Ub, ?Uq; destruct s; lia.
    2: lia.
    intros u. assert (Hcase : u = s \/ u = os) by (unfold os; destruct u, s; auto). destruct Hcase as [-> | ->].
    + rewrite (fits_all wZ s T3 ltac:(rewrite Eown; exact Hf3)), HR3. unfold L3. rewrite side_eqb_refl. apply perm_skip. exact S4.
    + rewrite (fits_all wZ os T2) by (rewrite Eother; exact Hf2). unfold L3.
      destruct (side_eqb os s) eqn:E; [apply side_eqb_ok in E; unfold os in E; destruct s; discriminate E|].
      rewrite (O4 os) by (unfold os; apply invert_neq). symmetry. exact HT2.
Qed.
