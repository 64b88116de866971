(** Placing an order keeps the ledger balanced, up to what its caller is to pay or receive. *)
From Coq Require Import ZArith List Bool Lia ZifyBool Permutation.
From Verif Require Import Base Nodes OrderTree BookSide Heap Market OpenOrders Order Book
  BaseFacts NodesFacts HeapFacts TreeRep TreeFacts TreeOps TreeIter BookSideFacts BookSideOrder BookSpecProofs SpecBook SpecFees
  FeeFacts SpecOrder MatchFacts MatchBook OrderFacts PlaceFacts OrderSpecProofs OrderClaims Steps StepFacts SpecLedger SpecEvents Ledger LedgerOps LedgerMoves
  LedgerPlace.
Import ListNotations.
Open Scope Z_scope.

(** ** The books and heap against the pieces *)
Record Rep (w : world) (P : list piece) : Prop := {
  rp_side : forall s, exists T, fits s (w_book w s) T /\ Permutation (all_leaves T) (pleaves s P);
  rp_heap : hrep (w_heap w) P }.

Lemma leaf_piece s t l P : In (t, l) (pleaves s P) -> exists lp, In (PLeaf s t l lp) P.
Proof.
  intros H. apply in_pleaves in H as (lp & P' & HP). exists lp. apply (Permutation_in _ (Permutation_sym HP)). left. reflexivity.
Qed.

Lemma rep_sound w P : Rep w P -> Led (w_mkt w) (w_accts w) P -> world_sound w.
Proof.
  intros HR HL. split; [apply (mk_cfg _ (ld_mkt _ _ _ HL))|]. intros s. destruct (rp_side _ _ HR s) as (T & Hf & HP).
  eapply fits_sound; [exact Hf|]. intros t l Hl. apply in_all_leaves in Hl. apply (Permutation_in _ HP) in Hl.
  apply leaf_piece in Hl as (lp & Hl). apply (ld_piece _ _ _ HL) in Hl. apply pk_seq in Hl. exact (proj2 Hl).
Qed.

Lemma all_leaves_keys bs T : bs_ok bs T -> NoDup (map lkey (all_leaves T)).
Proof.
  intros H. unfold all_leaves. rewrite map_app, !map_map. apply nodup_app.
  1,2: unfold lkey; cbn [fst snd]; rewrite <- (map_map lf_key); apply nodup_map_pair; eapply oleaves_nodup; exact H.
  intros x H1 H2. apply in_map_iff in H1 as (a & <- & _). apply in_map_iff in H2 as (b & E & _). discriminate E.
Qed.

(** ** Sums over the happenings *)
Lemma sum_db m s acts : sumZ (map (act_db m s) acts) = match s with Bid => - (base_lots acts * bls m) | Ask => base_lots acts * bls m end.
Proof.
  induction acts as [|a l IH]; [destruct s; reflexivity|]. rewrite base_lots_cons. cbn [map sumZ fold_right].
  fold (sumZ (map (act_db m s) l)). rewrite IH. unfold act_db. destruct s; lia.
Qed.
Lemma sum_dq m s owner acts : sumZ (map (act_dq m s owner) acts) =
  sumZ (map (act_rebate m owner) acts) + match s with Bid => quote_lots acts * qls m | Ask => - (quote_lots acts * qls m) end.
Proof.
  induction acts as [|a l IH]; [destruct s; reflexivity|]. rewrite quote_lots_cons. cbn [map sumZ fold_right].
  fold (sumZ (map (act_dq m s owner) l)) (sumZ (map (act_rebate m owner) l)). rewrite IH. unfold act_dq. destruct s; lia.
Qed.

Section Acts.
Variables (o : order) (price : Z) (taker : option Z) (owner : Z) (m : market).
Hypothesis Hc : cfg_sound (m_cfg m).

Lemma act_quote_nonneg a : act_fact o price taker owner a -> 0 <= act_quote a.
Proof using. destruct a as [i q|i|i]; cbn [act_quote act_fact]; intros H; [nia|lia|lia]. Qed.
Lemma act_quote_le acts a : Forall (act_fact o price taker owner) acts -> In a acts -> act_quote a <= quote_lots acts.
Proof using.
  induction 1 as [|b l Hb Hl IH]; intros [].
  - subst b. rewrite quote_lots_cons. pose proof (own_quote_bounds _ _ _ _ _ Hl). lia.
  - rewrite quote_lots_cons. pose proof (act_quote_nonneg _ Hb). specialize (IH H). lia.
Qed.

(** Rebates as counted while matching and as owed to the makers. *)
Lemma rebates_counted acts : Forall (act_fact o price taker owner) acts -> quote_lots acts * qls m <= 9223372036854775807 ->
  (taker = None -> forall a, In a acts -> lf_owner (im_leaf (act_item a)) <> owner) ->
  sumZ (map (rebate_of m taker owner) acts) = sumZ (map (act_rebate m owner) acts).
Proof using Hc.
  intros Hf Hq Ht. f_equal. apply map_ext_in. intros a Ha.
  pose proof (act_quote_le _ _ Hf Ha) as Hle. rewrite Forall_forall in Hf. pose proof (act_quote_nonneg _ (Hf a Ha)) as Hn.
  pose proof (cs_qls _ Hc) as C1. change (c_qls (m_cfg m)) with (qls m) in C1.
  assert (E : own_trade taker owner (act_item a) = act_self owner a).
  { unfold own_trade, act_self. destruct taker; [apply Z.eqb_sym|]. symmetry. apply Z.eqb_neq. apply Ht; [reflexivity|exact Ha]. }
  unfold act_rebate. rewrite <- E. destruct a as [i q|i|i]; cbn [rebate_of act_quote act_item] in *.
  - rewrite as_u64_id by nia. rewrite maker_rebate_floor_in; [reflexivity|exact Hc|nia].
  - rewrite Z.mul_0_l, maker_gets_0. destruct (own_trade _ _ _); reflexivity.
  - rewrite Z.mul_0_l, maker_gets_0. destruct (own_trade _ _ _); reflexivity.
Qed.

Lemma rebates_le acts : Forall (act_fact o price taker owner) acts ->
  (taker = None -> forall a, In a acts -> lf_owner (im_leaf (act_item a)) <> owner) ->
  0 <= sumZ (map (act_rebate m owner) acts) <= (quote_lots acts - sumZ (map (self_quote taker owner) acts)) * qls m.
Proof using Hc.
  pose proof (cs_qls _ Hc) as C1. change (c_qls (m_cfg m)) with (qls m) in C1.
  induction 1 as [|a l Ha Hl IH]; intros Ht; [cbn; lia|]. rewrite quote_lots_cons. cbn [map sumZ fold_right].
  fold (sumZ (map (act_rebate m owner) l)) (sumZ (map (self_quote taker owner) l)).
  destruct (IH (fun E b Hb => Ht E b (or_intror Hb))) as [I1 I2]. pose proof (act_quote_nonneg _ Ha) as Hn.
  assert (E : own_trade taker owner (act_item a) = act_self owner a).
  { unfold own_trade, act_self. destruct taker; [apply Z.eqb_sym|]. symmetry. apply Z.eqb_neq. apply Ht; [reflexivity|left; reflexivity]. }
  assert (G : 0 <= act_rebate m owner a <= (act_quote a - self_quote taker owner a) * qls m).
  { unfold act_rebate. rewrite <- E. destruct a as [i q|i|i]; cbn [self_quote act_quote act_item] in *.
    - destruct (own_trade taker owner i); [lia|]. rewrite Z.sub_0_r. apply maker_gets_bounds; [exact Hc|nia].
    - rewrite Z.mul_0_l, maker_gets_0. destruct (own_trade _ _ _); lia.
    - rewrite Z.mul_0_l, maker_gets_0. destruct (own_trade _ _ _); lia. }
  lia.
Qed.

Lemma fees_le acts : Forall (act_fact o price taker owner) acts ->
  0 <= sumZ (map (act_fee m owner) acts) <= quote_lots acts * qls m.
Proof using Hc.
  pose proof (cs_qls _ Hc) as C1. change (c_qls (m_cfg m)) with (qls m) in C1.
  induction 1 as [|a l Ha Hl IH]; [cbn; lia|]. rewrite quote_lots_cons. cbn [map sumZ fold_right].
  fold (sumZ (map (act_fee m owner) l)). pose proof (act_quote_nonneg _ Ha) as Hn.
  assert (G : 0 <= act_fee m owner a <= act_quote a * qls m).
  { unfold act_fee. destruct (act_self owner a); [nia|]. apply maker_pays_bounds; [exact Hc|nia]. }
  lia.
Qed.
End Acts.

(** What is known of the happenings of a placement. *)
Lemma acts_known s bs T now oracle o price taker owner m acts : fits s bs T -> cfg_sound (m_cfg m) ->
  Forall (act_fact o price taker owner) acts -> quote_lots acts * qls m <= 9223372036854775807 ->
  sublist (map act_item acts) (merged bs T now oracle) ->
  (forall a, In a acts -> s = Bid -> im_tree (act_item a) = OraclePegged -> lf_peg_limit (im_leaf (act_item a)) <> -1) ->
  Forall (act_known s m) acts.
Proof.
  intros Hf Hc Haf Hq Hsub Hpg. apply Forall_forall. intros a Ha. pose proof (act_quote_le _ _ _ _ _ _ Haf Ha) as Hle.
  pose proof (cs_qls _ Hc) as C1. change (c_qls (m_cfg m)) with (qls m) in C1.
  rewrite Forall_forall in Haf. specialize (Haf a Ha).
  assert (Hi : In (act_item a) (merged bs T now oracle)) by (apply (sublist_in _ _ _ Hsub); apply in_map; exact Ha).
  pose proof (listed_facts _ _ _ _ _ _ Hf Hi) as (Hr & Hv & Hp & Hqt).
  constructor; intros E; destruct a as [i q|i|i]; try discriminate E; cbn [act_base act_quote act_item act_fact] in *.
  - destruct Haf as (_ & _ & _ & H4 & H5 & _). split; [exact H4|]. split; [exact H5|]. nia.
  - intros ->. destruct Haf as (H1 & _). apply Hv in H1. destruct H1 as [_ H1]. unfold right_price in Hr.
    specialize (Hpg _ Ha eq_refl). cbn [act_item] in Hpg.
    destruct (im_tree i); [exact Hr|]. destruct (H1 eq_refl) as [H2|H2]; [|exact H2]. exfalso. apply Hpg; [reflexivity|exact H2].
Qed.

(** ** The taker's settlement *)
Lemma settle_led o taker owner maxq ms w' bt qt tf ra rq P :
  taker = Some owner \/ taker = None ->
  0 <= ms_quote ms -> 0 <= ms_dec ms <= maxq - ms_quote ms -> 0 <= ms_rebates ms ->
  ms_rebates ms <= (maxq - ms_quote ms - ms_dec ms) * qls (w_mkt (ms_w ms)) ->
  settle_taker o taker maxq ms = Ok (w', bt, qt, tf, ra, rq) ->
  Led (w_mkt (ms_w ms)) (w_accts (ms_w ms)) P ->
  ra = tf - ms_rebates ms /\ 0 <= ra /\ tf <= qt /\ Led (w_mkt w') (w_accts w') P /\ w_heap w' = w_heap (ms_w ms) /\
  same_bal (w_mkt (ms_w ms)) (w_accts (ms_w ms)) P (w_mkt w') (w_accts w') P
    (match taker, o_side o with Some _, Bid => bt | _, _ => 0 end)
    (match taker, o_side o with Some _, Bid => ra | Some _, Ask => qt - tf + ra | None, _ => 0 end) 0 ra 0 qt.
Proof.
  intros Htk Hq0 Hd Hr0 Hr1 H HL. pose proof (mk_cfg _ (ld_mkt _ _ _ HL)) as Hc.
  pose proof (settle_taker_rest _ _ _ _ _ _ _ _ _ _ H) as [_ Hh].
  apply settle_taker_inv in H; [|exact Hc|exact Hq0|exact Hd].
  cbv zeta in H. set (m := w_mkt (ms_w ms)) in *. set (wo := (maxq - ms_quote ms - ms_dec ms) * qls m) in *.
  destruct H as (T1 & T2 & Eb & Eq & Bb & Bq & Etf & Era & Ra & _ & H).
  pose proof (cs_qls _ Hc) as C1. change (c_qls (m_cfg m)) with (qls m) in C1.
  pose proof (cs_bls _ Hc) as C2. change (c_bls (m_cfg m)) with (bls m) in C2.
  assert (Hwo : 0 <= wo <= qt) by (unfold wo; nia).
  assert (Htf : 0 <= tf <= wo) by (rewrite Etf; apply taker_pays_bounds; [exact Hc|lia]).
  assert (Era' : ra = tf - ms_rebates ms).
  { destruct (0 <? wo) eqn:E; [exact Era|]. assert (wo = 0) by lia. lia. }
  split; [exact Era'|]. split; [exact Ra|]. split; [lia|].
  destruct ((0 <? maxq - ms_quote ms) || (0 <? o_max_base o - ms_base ms)) eqn:Eany.
  - destruct H as (m1 & Em1 & H). fold (m_add_fees m ra) in Em1. subst m1. destruct taker as [t|].
    + assert (t = owner) as -> by (destruct Htk as [E|E]; congruence). destruct H as (a & a' & m' & Ha & Hx & ->).
      destruct (led_taker m _ P owner a (o_side o) bt qt tf ra a' m' HL Ha ltac:(nia) ltac:(nia) Ra Hx) as (HL' & _ & _ & B).
      cbn [w_set_acct w_set_accts w_set_mkt w_mkt w_accts w_heap] in *. split; [exact HL'|]. split; [reflexivity|exact B].
    + subst w'. destruct (led_taker_none m _ P qt ra HL ltac:(nia) Ra) as [HL' B].
      cbn [w_set_mkt w_mkt w_accts w_heap] in *. split; [exact HL'|]. split; [reflexivity|]. destruct (o_side o); exact B.
  - subst w'. assert (maxq - ms_quote ms = 0 /\ o_max_base o - ms_base ms = 0) as [Z1 Z2] by lia.
    assert (bt = 0) by (rewrite Eb, Z2; reflexivity). assert (qt = 0) by (rewrite Eq, Z1; reflexivity).
    split; [exact HL|]. split; [reflexivity|]. eapply same_bal_eq; [apply same_bal_refl|..]; destruct taker, (o_side o); lia.
Qed.

(** ** The invariant *)
Record Inv (w : world) (db dq cl ct : Z) (P : list piece) : Prop := {
  iv_rep : Rep w P;
  iv_led : Led (w_mkt w) (w_accts w) P;
  iv_base : base_gap (w_mkt w) (w_accts w) P = db;
  iv_quote : quote_gap (w_mkt w) (w_accts w) P = dq;
  iv_vol : vol_all (w_mkt w) P <= m_seq (w_mkt w) * 9223372036854775807;
  iv_fee : fee_all (w_mkt w) P <= 2 * m_seq (w_mkt w) * 9223372036854775807;
  iv_lost : vol_lost (w_mkt w) (w_accts w) = cl;
  iv_taken : vol_all (w_mkt w) P - vol_taken (w_mkt w) (w_accts w) = ct }.

Lemma drops_keep tk rem now s w gone w' : drops tk rem now s w gone w' ->
  forall k a, acct_get k (w_accts w') = Some a -> exists b, acct_get k (w_accts w) = Some b.
Proof.
  induction 1 as [w|w t l w1 r w2 H1 _ IH]; intros k a Ha; [exists a; exact Ha|].
  destruct (IH _ _ Ha) as (b & Hb). destruct H1 as [w x x' _ Hx _|w h _]; [|exists b; exact Hb].
  cbn [w_set_acct w_set_accts w_accts] in Hb. destruct (Z.eq_dec k (lf_owner l)) as [->|Hne]; [exists x; exact Hx|].
  rewrite get_set_other in Hb by exact Hne. exists b. exact Hb.
Qed.

Lemma gaps_seq m ac P n : let m' := m_set_seq m n in
  base_gap m' ac P = base_gap m ac P /\ quote_gap m' ac P = quote_gap m ac P /\ vol_all m' P = vol_all m P /\
  fee_all m' P = fee_all m P /\ vol_lost m' ac = vol_lost m ac /\ vol_taken m' ac = vol_taken m ac.
Proof.
  intros m'. unfold base_gap, quote_gap, vol_all, fee_all, vol_lost, vol_taken.
  rewrite (base_claims_cfg m m' eq_refl), (quote_claims_cfg m m' eq_refl), (vol_waits_cfg m m' eq_refl), (fee_waits_cfg m m' eq_refl).
  repeat split.
Qed.

Lemma new_order_led w db dq cl ct P o oracle taker owner now limit rem w' r :
  Inv w db dq cl ct P -> sane_order o -> taker = Some owner \/ (taker = None /\ acct_get owner (w_accts w) = None) ->
  new_order w o oracle taker owner now limit rem = Ok (w', r) ->
  exists P', Inv w' (db + owed_base o taker r) (dq + owed_quote o taker r) cl ct P'.
Proof.
  intros [HR HL Gb Gq Gv Gf Gl Gt] Hso Htk0 H.
  assert (Htk : taker = Some owner \/ taker = None) by tauto.
  pose proof (rep_sound _ _ HR HL) as Hws. pose proof (sound_call_of _ _ _ _ Hws Hso Htk) as Hsc.
  pose proof Hws as [Hc _]. pose proof Hso as [Hb0 Hq0 _].
  destruct (rp_side _ _ HR (o_side o)) as (T0 & Hf0 & HP0).
  destruct (rp_side _ _ HR (invert_side (o_side o))) as (T & Hf & HP).
  destruct (new_order_inv _ _ _ _ _ _ _ _ _ _ _ Hf Htk Hc Hb0 Hq0 H)
    as (price & pd & maxq & acts & ms & lf & w2 & bt & qt & tf & ra & rq & mf & b2 & T2 & Hpl & Hfin).
  destruct (placed_numbers _ _ _ _ _ _ _ _ _ _ _ _ _ _ _ _ _ _ _ _ _ _ _ _ Hsc Hf Hpl)
    as (Haf & Eb & Eq & Hb & Hq & Hbl & Hql & Ebt & Eqt & Bbt & Bqt & Etf & Erq & Ecfg & Eseq & Ebk & Hef & Hqu).
  pose proof Hpl as [Hp Hseq Hmq Hcap Hit Htr Hst Hf2 Hlv Hmf Hlp Hfok].
  destruct (order_price_facts _ _ _ _ _ _ Hso Hp) as (Rp & Rpd & Hlim & Hkey & _).
  pose proof (lt_sub _ _ _ _ _ _ _ _ _ _ _ Htr) as Hsub.
  pose proof (lt_amounts _ _ _ _ _ _ Htk _ _ _ _ _ Htr) as (A1 & A2 & A3 & A4 & _).
  pose proof (own_quote_bounds _ _ _ _ _ Haf) as [Hown _].
  cbn [start_ms ms_base ms_quote ms_dec ms_rebates ms_w] in A1, A2, A3, A4. rewrite Z.add_0_l in A3, A4.
  set (s := o_side o) in *. set (os := invert_side s) in *. set (m := w_mkt w) in *.
  set (m0 := m_set_seq m (m_seq m + 1)) in *. cbn [w_set_mkt w_mkt] in A4. fold m0 in A4.
  assert (Hc0 : cfg_sound (m_cfg m0)) by exact Hc.
  assert (Eq0 : qls m0 = qls m) by reflexivity. assert (Eb0 : bls m0 = bls m) by reflexivity.
  (* the pieces behind the happenings *)
  assert (Hin : forall a, In a acts -> In (im_tree (act_item a), im_leaf (act_item a)) (pleaves os P)).
  { intros a Ha. apply (Permutation_in _ HP). apply in_all_leaves.
    pose proof (merged_on_book _ _ _ _ _ (ft_ok _ _ _ Hf) Hsub) as Hon. rewrite Forall_forall in Hon. specialize (Hon a Ha).
    unfold on_book in Hon. apply oitems_leaf in Hon. exact Hon. }
  assert (Hne : taker = None -> forall a, In a acts -> lf_owner (im_leaf (act_item a)) <> owner).
  { intros Et a Ha Eo. apply Hin in Ha. apply leaf_piece in Ha as (lp & Ha). destruct (ld_back _ _ _ HL _ Ha) as (x & Hx & _).
    cbn [pc_owner] in Hx. rewrite Eo in Hx. destruct Htk0 as [E|[_ E]]; congruence. }
  assert (Hpg : forall a, In a acts -> os = Bid -> im_tree (act_item a) = OraclePegged -> lf_peg_limit (im_leaf (act_item a)) <> -1).
  { intros a Ha Es Et. apply Hin in Ha. apply leaf_piece in Ha as (lp & Ha). pose proof (ld_piece _ _ _ HL _ Ha) as [_ K2 _ _ _ K6].
    rewrite Es, Et in K6. cbn [pc_lp] in K2. lia. }
  assert (Hq1 : quote_lots acts * qls m0 <= 9223372036854775807) by (rewrite Eq0; lia).
  pose proof (rebates_counted _ _ _ _ m0 Hc0 _ Haf Hq1 Hne) as Hreb.
  pose proof (rebates_le _ _ _ _ m0 Hc0 _ Haf Hne) as Hreb1.
  pose proof (fees_le _ _ _ _ m0 Hc0 _ Haf) as Hfee1.
  (* counting the order *)
  pose proof (led_seq _ _ _ Hseq HL) as HL0. fold m0 in HL0.
  destruct (gaps_seq m (w_accts w) P (m_seq m + 1)) as (Q1 & Q2 & Q3 & Q4 & Q5 & Q6). fold m0 in Q1, Q2, Q3, Q4, Q5, Q6.
  assert (Hids : ids_le (m_seq m) P).
  { intros p Hp'. apply (ld_piece _ _ _ HL) in Hp'. apply pk_seq in Hp'. exact (proj2 Hp'). }
  (* matching *)
  destruct (effects_led _ _ _ _ _ _ _ _ Hef P) as (P1 & HL1 & Hh1 & B1 & O1 & S1 & I1); fold s os.
  { exact HL0. }
  { exact (rp_heap _ _ HR). }
  { apply (Permutation_NoDup (Permutation_map lkey HP)). eapply all_leaves_keys. exact (ft_ok _ _ _ Hf). }
  { eapply acts_akey_nodup; [exact (ft_ok _ _ _ Hf)|exact Hsub]. }
  { exact Hin. }
  { eapply acts_known; [exact Hf|exact Hc0|exact Haf|exact Hq1|exact Hsub|exact Hpg]. }
  fold s os in O1, S1, B1. cbn [w_set_mkt w_mkt w_accts] in B1. fold m0 in B1.
  rewrite sum_db, sum_dq, Eq0, Eb0 in B1.
  assert (Ecm : m_cfg (w_mkt (ms_w ms)) = m_cfg m).
  { pose proof (effects_rest _ _ _ _ _ _ _ _ Hef) as (_ & _ & R3 & _). exact R3. }
  (* settling *)
  assert (Eqm : qls (w_mkt (ms_w ms)) = qls m) by (apply qls_eq; exact Ecm).
  assert (Hms : ms_rebates ms = sumZ (map (act_rebate m0 owner) acts)) by (rewrite A4; exact Hreb).
  destruct (settle_led o taker owner maxq ms w2 bt qt tf ra rq P1 Htk Hq ltac:(lia) ltac:(lia) ltac:(rewrite Eqm, A3, Hms, <- Eq0; replace (maxq - ms_quote ms) with (quote_lots acts) by lia; lia) Hst HL1)
    as (Era & Ra & Htq & HL2 & Hh2 & B2). fold s in B2.
  pose proof (same_bal_trans _ _ _ _ _ _ _ _ _ _ _ _ _ _ _ _ _ _ _ _ _ B1 B2) as B12.
  (* the other side of the book *)
  assert (HT2 : Permutation (all_leaves T2) (pleaves os P1)).
  { rewrite (presidues_all _ _ _ Hlv), S1. apply presidues_perm. exact HP. }
  assert (Hnum : forall wZ PZ db' dq', m_seq (w_mkt wZ) = m_seq m + 1 -> same_bal m0 (w_accts w) P (w_mkt wZ) (w_accts wZ) PZ
      db' dq' (quote_lots acts * qls m) (sumZ (map (act_fee m0 owner) acts) + ra) 0 qt ->
      base_gap (w_mkt wZ) (w_accts wZ) PZ = db + db' /\ quote_gap (w_mkt wZ) (w_accts wZ) PZ = dq + dq' /\
      vol_all (w_mkt wZ) PZ <= m_seq (w_mkt wZ) * 9223372036854775807 /\
      fee_all (w_mkt wZ) PZ <= 2 * m_seq (w_mkt wZ) * 9223372036854775807 /\
      vol_lost (w_mkt wZ) (w_accts wZ) = cl /\
      vol_all (w_mkt wZ) PZ - vol_taken (w_mkt wZ) (w_accts wZ) = ct).
  { intros wZ PZ db' dq' Es [D1 D2 D3 D4 D5 D6]. rewrite Es. lia. }
  destruct Hfin as [Hno|t w4 pb pq mfees Hpos Htg Hpeg Hpost].
  - (* nothing posted *)
    exists P1. change (invert_side (o_side o)) with os.
    assert (Em : w_mkt (w_set_book w2 os b2) = w_mkt w2) by apply w_set_book_mkt.
    assert (Ea : w_accts (w_set_book w2 os b2) = w_accts w2) by (destruct os; reflexivity).
    assert (Eh : w_heap (w_set_book w2 os b2) = w_heap w2) by (destruct os; reflexivity).
    destruct (Hnum (w_set_book w2 os b2) P1 (owed_base o taker (mkAmounts None 0 0 bt qt tf 0 ra)) (owed_quote o taker (mkAmounts None 0 0 bt qt tf 0 ra)))
      as (N1 & N2 & N3 & N4 & N5 & N6).
    { rewrite Em. exact Eseq. }
    { rewrite Em, Ea. eapply same_bal_eq; [exact B12|..]; unfold owed_base, owed_quote; cbn [oa_base_taken oa_posted_base oa_quote_taken oa_posted_quote oa_taker_fees oa_maker_fees oa_referrer];
        fold s; destruct taker, s; lia. }
    constructor; try assumption.
    + constructor.
      * intros u. assert (Hcase : u = s \/ u = os) by (unfold os; destruct u, s; auto). destruct Hcase as [-> | ->].
        -- exists T0. unfold os. rewrite w_book_set_inv', Ebk. split; [exact Hf0|]. rewrite HP0. symmetry. exact O1.
        -- exists T2. rewrite w_book_set. split; [exact Hf2|exact HT2].
      * rewrite Eh, Hh2. exact Hh1.
    + rewrite Em, Ea. exact HL2.
  - (* posted *)
    assert (Hf0' : fits (o_side o) (w_book (w_set_book w2 os b2) (o_side o)) T0).
    { fold s. unfold os. rewrite w_book_set_inv', Ebk. exact Hf0. }
    assert (Hpt : post_target o = Some t).
    { destruct (lt_target _ _ _ _ _ _ _ _ _ _ _ Htr) as [E|E]; [cbn [start_ms ms_target] in E; congruence|congruence]. }
    set (id := new_node_key s pd (m_seq m + 1)) in *.
    change (new_node_key (o_side o) pd (m_seq (w_mkt w) + 1)) with id in Hpost |- *.
    change (invert_side (o_side o)) with os in Hpost.
    set (qty := post_qty o price ms rq mf) in *.
    assert (Hoko : forall slot, order_ok t (posted_leaf o owner now id slot qty) /\ price_is oracle t (posted_leaf o owner now id slot qty) price).
    { intros slot. apply (Hkey t _ _ Hpt Hseq). reflexivity. }
    assert (Hidq : id_seq s id = m_seq m + 1).
    { pose proof (seq_of_new s pd (m_seq m + 1) (posted_leaf o owner now id 0 qty) Hseq eq_refl) as E. exact E. }
    apply post_order_inv with (T := T0) in Hpost.
    2: exact Hf0'. 2: exact Htk. 2: rewrite w_set_book_mkt, Ecfg; exact Hc. 2: apply (Hoko 0).
    2:{ intros t' l Hl E. apply in_all_leaves in Hl. apply (Permutation_in _ HP0) in Hl. apply leaf_piece in Hl as (lp & Hl).
        apply Hids in Hl. cbn [pc_side pc_id] in Hl. rewrite E in Hl. change (id_seq s id <= m_seq m) in Hl. lia. }
    2: exact Hpos. 2: apply lock_price_pos; [exact Hso|lia].
    rewrite w_set_book_mkt in Hpost. fold s in Hpost.
    destruct Hpost as (Etk & Epb & Epq & Bpb & Bpq & Emf & gone & w1 & wB & a & slot & a' & b3 & T3 & Hlk & Hdr & Ha & Hslot & Hadd & -> & Hf3 & Hperm & Hlen & Hroom & Hincl).
    set (nl := posted_leaf o owner now id slot qty) in *. set (wA := w_set_book w2 os b2) in *.
    pose proof (lock_price_pos o price Hso ltac:(lia)) as Hlp1. set (lp := lock_price o price) in *.
    assert (Em : w_mkt wA = w_mkt w2) by apply w_set_book_mkt.
    assert (Ea : w_accts wA = w_accts w2) by (unfold wA; destruct os; reflexivity).
    assert (Eh : w_heap wA = w_heap w2) by (unfold wA; destruct os; reflexivity).
    pose proof (cs_qls _ Hc) as C1. change (c_qls (m_cfg m)) with (qls m) in C1.
    pose proof (cs_bls _ Hc) as C2. change (c_bls (m_cfg m)) with (bls m) in C2.
    assert (Eq2 : qls (w_mkt w2) = qls m) by (apply qls_eq; exact Ecfg).
    assert (Eb2 : bls (w_mkt w2) = bls m) by (apply bls_eq; exact Ecfg).
    assert (Hpq : 0 <= pq) by (rewrite Epq, Eq2; nia).
    assert (Hpb : 0 <= pb) by (rewrite Epb, Eb2; nia).
    assert (Hmf0 : 0 <= mfees).
    { rewrite Emf. destruct s; [|lia]. apply maker_locks_bounds; [rewrite Ecfg; exact Hc|exact Hpq]. }
    assert (Hnew : ~ In (t, nl) gone).
    { intros Hg. apply Hincl in Hg. apply (Permutation_in _ HP0) in Hg. apply leaf_piece in Hg as (lp' & Hg).
      apply Hids in Hg. cbn [pc_side pc_id] in Hg. change (id_seq s id <= m_seq m) in Hg. lia. }
    (* what stays of the own side *)
    assert (HR3 : exists R, Permutation (all_leaves T3) ((t, nl) :: R) /\ Permutation (all_leaves T0) (R ++ gone)).
    { assert (Hi3 : In (t, nl) (all_leaves T3)).
      { assert (Hin3 : In (t, nl) (all_leaves T3 ++ gone)) by (apply (Permutation_in _ Hperm); left; reflexivity).
        apply in_app_or in Hin3 as [Hin3|Hin3]; [exact Hin3|contradiction]. }
      apply in_split in Hi3 as (X & Y & E3). exists (X ++ Y). split; [rewrite E3; symmetry; apply Permutation_middle|].
      apply (Permutation_cons_inv (a := (t, nl))). rewrite Hperm, E3.
      rewrite <- !app_assoc. cbn [app]. symmetry. apply Permutation_middle. }
    destruct HR3 as (R & HR3 & HR0).
    rewrite <- Em, <- Ea in HL2. 
    assert (Hown' : exists x, acct_get owner (w_accts wA) = Some x).
    { destruct (acct_get owner (w_accts wA)) as [x|] eqn:E; [exists x; reflexivity|]. exfalso.
      destruct (drops_keep _ _ _ _ _ _ _ Hdr _ _ Ha) as (y & Hy).
      unfold locks in Hlk. destruct s; [destruct Hlk as (z & Hz & _); congruence|subst w1; congruence]. }
    destruct (led_locks _ _ _ _ _ P1 Hlk Hmf0 ltac:(intros E; rewrite Emf, E; reflexivity) HL2 Hown')
      as (Em1 & Eh1 & HL3 & B3 & a1 & Ha1 & Hsl).
    destruct (drops_led _ _ _ _ _ _ _ Hdr P1 R HL3) as (EmB & P2 & HL4 & Hh4 & B4 & O4 & S4 & I4 & K4).
    { rewrite Eh1, Eh, Hh2. exact Hh1. }
    { rewrite O1, <- HP0. exact HR0. }
    destruct (K4 _ _ Ha1) as (aB & HaB & EslB). rewrite Ha in HaB. injection HaB as <-.
    assert (EmB2 : w_mkt wB = w_mkt w2) by congruence.
    assert (Hpk : piece_ok (w_mkt wB) (PLeaf s t nl lp)).
    { rewrite EmB2. constructor; cbn [pc_qty pc_lp pc_side pc_id].
      - exact Hpos.
      - exact Hlp1.
      - change (lf_qty nl) with qty. lia.
      - change (lf_qty nl) with qty. lia.
      - change (lf_key nl) with id. rewrite Hidq, Eseq. pose proof (mk_seq _ (ld_mkt _ _ _ HL)) as Hsq0. unfold u64_ok in Hsq0. lia.
      - destruct (Hoko slot) as [_ Hpi]. fold nl in Hpi. unfold lp, lock_price, own_peg. change (lf_peg_limit nl) with (order_peg_limit o).
        fold s. unfold post_target in Hpt. destruct s; [|exact I]. unfold order_peg_limit. destruct Hso as [_ _ Hso].
        destruct (o_params o); try discriminate Hpt; injection Hpt as <-; cbn [price_is negb Z.eqb andb side_eqb] in *.
        + split; [exact Hpi|reflexivity].
        + replace (peg_limit =? -1) with false by lia. reflexivity. }
    destruct (led_post (w_mkt wB) (w_accts wB) P2 s t nl owner a a' (o_client_id o) lp HL4 Ha Hslot Hadd eq_refl Hpk) as [HL5 B5].
    { change (lf_key nl) with id. rewrite Hidq. replace (m_seq m + 1 - 1) with (m_seq m) by lia. apply I4, I1. exact Hids. }
    { rewrite Em1, Em in EslB. rewrite Em in Hsl. rewrite EmB2, EslB. change (lf_qty nl) with qty. rewrite <- Epq, <- Emf. exact Hsl. }
    exists (PLeaf s t nl lp :: P2).
    assert (Ub : as_u64 pb = pb) by (apply as_u64_id; lia).
    assert (Uq : as_u64 pq = pq) by (apply as_u64_id; lia).
    set (wZ := w_set_acct (w_set_book wB s b3) owner a').
    assert (EmZ : w_mkt wZ = w_mkt wB) by (unfold wZ; destruct s; reflexivity).
    assert (EaZ : w_accts wZ = acct_set owner a' (w_accts wB)) by (unfold wZ; destruct s; reflexivity).
    assert (EhZ : w_heap wZ = w_heap wB) by (unfold wZ; destruct s; reflexivity).
    pose proof (drops_rest _ _ _ _ _ _ _ Hdr) as [Sd Md].
    assert (Hb1 : forall u, w_book w1 u = w_book wA u).
    { intros u. unfold locks in Hlk. destruct s; [destruct Hlk as (z & _ & _ & ->); apply w_book_acct|subst w1; reflexivity]. }
    assert (Eother : w_book wZ os = b2).
    { unfold wZ. rewrite w_book_acct. unfold os. rewrite w_book_set_inv, (same_rest_book _ _ _ Sd), Hb1. apply w_book_set. }
    assert (Eown : w_book wZ s = b3).
    { unfold wZ. rewrite w_book_acct. apply w_book_set. }
    match goal with |- Inv _ (_ + owed_base _ _ ?rr) _ _ _ _ => set (rr0 := rr) end.
    destruct (Hnum wZ (PLeaf s t nl lp :: P2) (owed_base o taker rr0) (owed_quote o taker rr0)) as (N1 & N2 & N3 & N4 & N5 & N6).
    { rewrite EmZ, EmB2. exact Eseq. }
    { rewrite EmZ, EaZ. rewrite <- Em, <- Ea, Etk in B12.
      pose proof (same_bal_trans _ _ _ _ _ _ _ _ _ _ _ _ _ _ _ _ _ _ _ _ _ B12 B3) as B123.
      pose proof (same_bal_trans _ _ _ _ _ _ _ _ _ _ _ _ _ _ _ _ _ _ _ _ _ B123 B4) as B1234.
      eapply same_bal_eq; [exact (same_bal_trans _ _ _ _ _ _ _ _ _ _ _ _ _ _ _ _ _ _ _ _ _ B1234 B5)|..];
        rewrite ?EmB2; change (lf_qty nl) with qty; rewrite <- ?Epq, <- ?Epb; unfold rr0, owed_base, owed_quote;
        cbn [oa_base_taken oa_posted_base oa_quote_taken oa_posted_quote oa_taker_fees oa_maker_fees oa_referrer];
        fold s; rewrite ?Ub, ?Uq; rewrite ?Etk; destruct s; lia. }
    constructor; try assumption.
    + constructor.
      * intros u. assert (Hcase : u = s \/ u = os) by (unfold os; destruct u, s; auto). destruct Hcase as [-> | ->].
        -- exists T3. rewrite Eown. split; [exact Hf3|]. rewrite pleaves_cons, side_eqb_refl, HR3. cbn [app].
           apply perm_skip. symmetry. exact S4.
        -- exists T2. rewrite Eother. split; [exact Hf2|]. rewrite pleaves_cons. replace (side_eqb s os) with false by (symmetry; apply side_eqb_inv'). cbn [app].
           rewrite (O4 os) by (unfold os; apply invert_neq). exact HT2.
      * rewrite EhZ. eapply hrep_perm; [|exact Hh4]. reflexivity.
    + rewrite EmZ, EaZ. exact HL5.
Qed.
