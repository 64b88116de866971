(** Proofs of the claims about placing an order (C12-C18). *)
From Coq Require Import ZArith List Bool Permutation Sorted Lia ZifyBool.
From Verif Require Import Base Nodes OrderTree BookSide Heap Market OpenOrders Order Book BaseFacts
  NodesFacts TreeRep TreeFacts TreeOps TreeIter BookSideFacts BookSideOrder SpecBook BookSpecProofs SpecFees SpecOrder
  MatchFacts MatchBook FeeFacts OrderFacts PlaceFacts OrderSpecProofs.
Import ListNotations.
Open Scope Z_scope.

Lemma listed_facts s bs T now oracle i : fits s bs T -> In i (merged bs T now oracle) ->
  right_price oracle i /\ (is_valid i = true <-> may_trade s now i) /\ 1 <= im_price i /\ 0 < lf_qty (im_leaf i).
Proof.
  intros Hf Hi. pose proof (merged_items_ok _ _ _ _ _ Hf i Hi) as [Hq Hp]. destruct Hf as [Hok Hs _ Hl _].
  pose proof (merged_item _ _ _ _ _ Hok Hl Hi) as (x & Hx & Ex & Hk).
  pose proof (item_of_facts _ _ _ _ _ _ Hk Ex) as (_ & _ & E3 & E4 & E5 & E6 & E7).
  split; [|split; [|split; assumption]].
  - unfold right_price. destruct (im_tree i) eqn:Et; [rewrite E3; apply E5; reflexivity|].
    destruct oracle as [op|]; [exists op; split; [reflexivity|rewrite E3; apply E4; reflexivity]|].
    unfold item_of in Ex. discriminate Ex.
  - unfold may_trade. rewrite E3. rewrite Hs in E7. rewrite <- E7. unfold is_valid. destruct (im_state i); split; intros HH; try reflexivity; try discriminate HH; exact HH.
Qed.

Lemma within_accepts s price p q : is_price_within_limit s q price = true ->
  match s with Bid => price <= p | Ask => p <= price end -> accepts s (Some p) q.
Proof. unfold is_price_within_limit, accepts. destruct s; intros H; lia. Qed.

Section Claims.
Variables (w : world) (o : order) (oracle taker : option Z) (owner now limit : Z) (rem : list Z)
  (w' : world) (r : order_amounts).
Hypothesis Hsc : sound_call w o taker owner.
Hypothesis Hno : new_order w o oracle taker owner now limit rem = Ok (w', r).

Lemma fills_within_limit : exists items acts gone put,
  explained w o oracle taker owner now rem w' r items acts gone put /\
  forall i q, In (AFill i q) acts ->
    right_price oracle i /\ may_trade (invert_side (o_side o)) now i /\
    accepts (o_side o) (order_limit o oracle) (im_price i) /\ 1 <= q <= lf_qty (im_leaf i).
Proof.
  destruct (new_order_full _ _ _ _ _ _ _ _ _ _ Hsc Hno) as
    (T & T0 & price & pd & maxq & acts & ms & lf & w2 & bt & qt & tf & ra & rq & mf & b2 & T2 & T3 & gone & put & Hf & Hf0 & Hpl & Hex & _).
  exists (merged (w_book w (invert_side (o_side o))) T now oracle), acts, gone, put. split; [exact Hex|].
  destruct (placed_numbers _ _ _ _ _ _ _ _ _ _ _ _ _ _ _ _ _ _ _ _ _ _ _ _ Hsc Hf Hpl) as (Haf & _).
  intros i q Hi. pose proof (in_map act_item _ _ Hi) as Hin. apply (sublist_in _ _ _ (ex_acts _ _ _ _ _ _ _ _ _ _ _ _ _ Hex)) in Hin.
  cbn [act_item] in Hin. destruct (listed_facts _ _ _ _ _ _ Hf Hin) as (F1 & F2 & _).
  rewrite Forall_forall in Haf. specialize (Haf _ Hi). destruct Haf as (V & W & _ & Q & _).
  split; [exact F1|]. split; [apply F2; exact V|]. split; [|exact Q].
  destruct (order_price_facts _ _ _ _ _ _ (sc_order _ _ _ _ Hsc) (pc_price _ _ _ _ _ _ _ _ _ _ _ _ _ _ _ _ _ _ _ _ _ _ _ _ Hpl)) as (_ & _ & Hlim & _).
  destruct (order_limit o oracle) as [p|]; [|exact I]. eapply within_accepts; [exact W|apply Hlim; reflexivity].
Qed.

Lemma within_budget :
  match o_side o with
  | Bid => oa_quote_taken r + oa_taker_fees r + oa_posted_quote r + oa_maker_fees r <= o_max_quote o * qls (w_mkt w)
  | Ask => oa_quote_taken r <= o_max_quote o * qls (w_mkt w)
  end /\
  oa_base_taken r + oa_posted_base r <= o_max_base o * bls (w_mkt w).
Proof.
  destruct (new_order_full _ _ _ _ _ _ _ _ _ _ Hsc Hno) as
    (T & T0 & price & pd & maxq & acts & ms & lf & w2 & bt & qt & tf & ra & rq & mf & b2 & T2 & T3 & gone & put & Hf & Hf0 & Hpl & Hex & R1 & R2 & R3 & R4 & _ & _ & _ & _ & Ecfg' & _ & Hput).
  destruct (placed_numbers _ _ _ _ _ _ _ _ _ _ _ _ _ _ _ _ _ _ _ _ _ _ _ _ Hsc Hf Hpl)
    as (Haf & Eb & Eq & Hb & Hq & Hbl & Hql & Ebt & Eqt & Bbt & Bqt & Etf & Erq & Ecfg & Eseq & _).
  pose proof Hsc as [Hc _ Hso Htk]. pose proof Hso as [Hb0 Hq0 _].
  pose proof (maxq_facts w o maxq Hc Hq0 (pc_maxq _ _ _ _ _ _ _ _ _ _ _ _ _ _ _ _ _ _ _ _ _ _ _ _ Hpl)) as [Hmx Hbud].
  pose proof (own_quote_bounds _ _ _ _ _ Haf) as [Hown _].
  pose proof Hc as [C1 C2 C3 C4 C5]. change (c_qls (m_cfg (w_mkt w))) with (qls (w_mkt w)) in C1. change (c_bls (m_cfg (w_mkt w))) with (bls (w_mkt w)) in C2.
  pose proof (ex_put _ _ _ _ _ _ _ _ _ _ _ _ _ Hex) as Hpk.
  set (m := w_mkt w) in *. set (x := quote_lots acts - sumZ (map (self_quote taker owner) acts)) in *.
  rewrite R1, R2, R3.
  assert (Hpb : oa_posted_base r <= ms_base ms * bls m /\ 0 <= oa_posted_base r).
  { destruct put as [[t l]|]; cbn [put_ok] in Hpk.
    - destruct Hpk as (_ & _ & Hpos & -> & _). destruct Hput as [_ Pq _ _ _ _ _ _ _]. unfold post_qty in Pq. fold m. nia.
    - destruct Hpk as (_ & -> & _). nia. }
  split; [|subst bt; nia].
  assert (Hqt : qt <= maxq * qls m) by (subst qt; nia).
  destruct (o_side o) eqn:Es; [|nia].
  (* the taker part *)
  pose proof (taker_pays_bounds m (x * qls m) Hc ltac:(nia)) as Btf. rewrite <- Etf in Btf.
  assert (Hfl : tf <= (tf + qls m - 1) / qls m * qls m).
  { pose proof (Z.div_mod (tf + qls m - 1) (qls m) ltac:(lia)). pose proof (Z.mod_pos_bound (tf + qls m - 1) (qls m) ltac:(lia)). nia. }
  assert (Hrq : 0 <= rq).
  { destruct (is_post_only o) eqn:PO.
    - assert (E : acts = [] \/ exists a, In a acts) by (destruct acts as [|a ?]; [left; reflexivity|right; exists a; left; reflexivity]).
      assert (H0 : quote_lots acts = 0).
      { clear - Haf PO. induction Haf as [|a l Ha _ IH]; [reflexivity|]. rewrite quote_lots_cons, IH.
        destruct a as [i q|i|i]; cbn [act_fact act_quote] in *; try lia; destruct Ha as (_ & _ & Ha & _); congruence. }
      assert (Hx : x = 0) by lia. rewrite Hx in Etf. unfold taker_pays in Etf. rewrite Z.mul_0_l, fee_up_zero in Etf.
      subst tf. rewrite Z.div_small in Erq by lia. lia.
    - specialize (Hbud eq_refl eq_refl (quote_lots acts) ltac:(lia)).
      assert (Hfee : tf <= taker_pays m (quote_lots acts) * qls m).
      { rewrite Etf. unfold taker_pays. pose proof (fee_up_bounds (taker_fee m) (x * qls m)). pose proof (fee_up_bounds (taker_fee m) (quote_lots acts)).
        change (c_taker_fee (m_cfg m)) with (taker_fee m) in C4. unfold FEES_SCALE in C4.
        set (F := fee_up (taker_fee m) (x * qls m)) in *. set (G := fee_up (taker_fee m) (quote_lots acts)) in *.
        assert (Hxq : x * (qls m * taker_fee m) <= quote_lots acts * (qls m * taker_fee m)) by (apply Z.mul_le_mono_nonneg_r; [apply Z.mul_nonneg_nonneg|]; lia).
        assert (Hg : quote_lots acts * taker_fee m * qls m <= G * 1000000 * qls m) by (apply Z.mul_le_mono_nonneg_r; lia). lia. }
      assert (Hdiv : (tf + qls m - 1) / qls m <= taker_pays m (quote_lots acts)).
      { pose proof (Z.div_mod (tf + qls m - 1) (qls m) ltac:(lia)). pose proof (Z.mod_pos_bound (tf + qls m - 1) (qls m) ltac:(lia)).
        set (d := (tf + qls m - 1) / qls m) in *. set (Y := taker_pays m (quote_lots acts)) in *. clearbody d Y. nia. }
      fold m in Hbud. lia. }
  assert (Htaken : qt + tf + rq * qls m <= o_max_quote o * qls m) by (subst qt; nia).
  pose proof (pc_mf _ _ _ _ _ _ _ _ _ _ _ _ _ _ _ _ _ _ _ _ _ _ _ _ Hpl) as Hmf.
  unfold chk_i64 in Hmf. apply maker_fees_ceil_ok in Hmf; [|exact Hrq]. rewrite (locks_eq _ _ _ Ecfg) in Hmf. fold m in Hmf.
  pose proof (maker_locks_bounds m rq Hc Hrq) as Bmf.
  destruct put as [[t l]|]; cbn [put_ok] in Hpk.
  2:{ destruct Hpk as (_ & _ & -> & ->). nia. }
  destruct Hput as [_ Pq Ppos _ _ _ Pqt Pf _]. rewrite Es in Pf.
  destruct (order_price_facts _ _ _ _ _ _ Hso (pc_price _ _ _ _ _ _ _ _ _ _ _ _ _ _ _ _ _ _ _ _ _ _ _ _ Hpl)) as (Rp & _).
  pose proof (lock_price_pos o price Hso ltac:(lia)) as Hlp.
  assert (Hn : lf_qty l * lock_price o price <= rq - mf).
  { unfold post_qty in Pq. assert (0 <= rq - mf) by lia. rewrite quot_nonneg in Pq by lia.
    pose proof (Z.div_mod (rq - mf) (lock_price o price) ltac:(lia)). pose proof (Z.mod_pos_bound (rq - mf) (lock_price o price) ltac:(lia)).
    set (d := (rq - mf) / lock_price o price) in *. clearbody d. nia. }
  fold m in Pqt, Pf.
  assert (Hmk : maker_locks m (oa_posted_quote r) <= mf * qls m).
  { rewrite Hmf. unfold maker_locks. destruct (0 <? maker_fee m) eqn:Em; [|lia].
    pose proof (fee_up_bounds (maker_fee m) (oa_posted_quote r)) as B1. pose proof (fee_up_bounds (maker_fee m) rq) as B2.
    set (F := fee_up (maker_fee m) (oa_posted_quote r)) in *. set (G := fee_up (maker_fee m) rq) in *.
    assert (Hpr : oa_posted_quote r * maker_fee m <= rq * qls m * maker_fee m) by (apply Z.mul_le_mono_nonneg_r; [lia|rewrite Pqt; apply Z.mul_le_mono_nonneg_r; lia]).
    assert (Hg : rq * maker_fee m * qls m <= G * 1000000 * qls m) by (apply Z.mul_le_mono_nonneg_r; lia). lia. }
  rewrite Pf. nia.
Qed.

Ltac open_order T T0 price pd maxq acts ms lf w2 bt qt tf ra rq mf b2 T2 T3 gone put Hf Hf0 Hpl Hex Hrest :=
  destruct (new_order_full _ _ _ _ _ _ _ _ _ _ Hsc Hno) as
    (T & T0 & price & pd & maxq & acts & ms & lf & w2 & bt & qt & tf & ra & rq & mf & b2 & T2 & T3 & gone & put & Hf & Hf0 & Hpl & Hex & Hrest).

Lemma better_first : exists items acts gone put,
  explained w o oracle taker owner now rem w' r items acts gone put /\
  StronglySorted (listed_before (invert_side (o_side o))) items /\
  (forall L l, lists (w_book w (invert_side (o_side o))) Fixed L -> In l L ->
     exists i, In i items /\ im_tree i = Fixed /\ im_leaf i = l) /\
  forall A i q B, acts = A ++ AFill i q :: B ->
    forall j, In j items -> may_trade (invert_side (o_side o)) now j -> beats (invert_side (o_side o)) j i ->
    exists A1 a A2, A = A1 ++ a :: A2 /\
      (finishes a j \/
       o_side o = Ask /\ exists q', a = AFill j q' /\ q' < lf_qty (im_leaf j) /\
         o_max_quote o - quote_lots (A1 ++ [a]) < im_price j).
Proof.
  open_order T T0 price pd maxq acts ms lf w2 bt qt tf ra rq mf b2 T2 T3 gone put Hf Hf0 Hpl Hex Hrest.
  set (other := invert_side (o_side o)) in *. set (items := merged (w_book w other) T now oracle) in *.
  exists items, acts, gone, put. split; [exact Hex|].
  pose proof Hf as [Hok Hs Hr Hl Hqt]. assert (Hsort : StronglySorted (listed_before other) items).
  { rewrite <- Hs at 1. apply merged_listed; assumption. }
  split; [exact Hsort|]. split.
  { intros L l HL Hin. pose proof (lists_fun _ _ _ _ HL (bs_lists _ _ Fixed Hok)) as ->. rewrite in_dir in Hin.
    apply in_oleaves in Hin as (h & Hin).
    destruct (merged_fixed_complete (w_book w other) T now oracle _ Hin) as (i & Ei & Hi). exists i. split; [exact Hi|].
    injection Ei as <-. split; reflexivity. }
  intros A i q B E j Hj Hv Hbt.
  destruct (placed_numbers _ _ _ _ _ _ _ _ _ _ _ _ _ _ _ _ _ _ _ _ _ _ _ _ Hsc Hf Hpl) as (Haf & _).
  pose proof Hpl as [Hp Hseq Hmq Hcap Hit Htr Hst Hf2 Hlv Hmf Hlp Hfok].
  pose proof (maxq_facts w o maxq (sc_cfg _ _ _ _ Hsc) (so_quote _ (sc_order _ _ _ _ Hsc)) Hmq) as [Hmx _].
  pose proof (items_id_nodup _ (merged_nodup (w_book w other) T now oracle Hok)) as Nd. fold items in Nd.
  assert (Hi : In i items).
  { apply (sublist_in _ _ _ (ex_acts _ _ _ _ _ _ _ _ _ _ _ _ _ Hex)). rewrite E, map_app. apply in_or_app. right. left. reflexivity. }
  destruct (in_split _ _ Hi) as (X & Y & EX).
  assert (HX : In j X).
  { rewrite EX in Hj. apply in_app_or in Hj as [Hj|[Hj|Hj]]; [exact Hj| |]; exfalso.
    - subst j. unfold beats, better_order in Hbt. destruct other; lia.
    - rewrite EX in Hsort. clear - Hsort Hj Hbt. assert (HL : listed_before other i j).
      { induction X as [|x X IH]; cbn [app] in Hsort; inversion Hsort as [|? ? S1 S2]; subst; [|auto].
        rewrite Forall_forall in S2. auto. }
      unfold beats, better_order, listed_before in *. destruct other; lia. }
  assert (Vj : is_valid j = true) by (apply (listed_facts _ _ _ _ _ _ Hf Hj); exact Hv).
  pose proof (lt_before _ _ _ _ _ _ _ _ _ _ _ Htr Nd A (AFill i q) B E X Y EX j HX Vj) as HA.
  apply in_map_iff in HA as (a & Ea & Ha). destruct (in_split _ _ Ha) as (A1 & A2 & EA). exists A1, a, A2. split; [exact EA|].
  assert (Haa : act_fact o price taker owner a).
  { rewrite Forall_forall in Haf. apply Haf. rewrite E. apply in_or_app. left. exact Ha. }
  pose proof (merged_items_ok _ _ _ now oracle Hf) as Hio. fold items in Hio.
  pose proof (lt_split _ _ _ _ _ _ _ _ _ _ _ Htr Hio (so_base _ (sc_order _ _ _ _ Hsc)) (proj1 Hmx) A i q B E) as Si.
  cbn [start_ms ms_base ms_quote ms_limit] in Si.
  destruct a as [j' q'|j'|j']; cbn [act_item] in Ea; subst j'.
  - assert (E' : acts = A1 ++ AFill j q' :: (A2 ++ AFill i q :: B)) by (rewrite E, EA, <- app_assoc; reflexivity).
    pose proof (lt_split _ _ _ _ _ _ _ _ _ _ _ Htr Hio (so_base _ (sc_order _ _ _ _ Hsc)) (proj1 Hmx) _ _ _ _ E') as Sj.
    cbn [start_ms ms_base ms_quote ms_limit] in Sj. destruct Sj as (Sj1 & Sj2 & _ & _ & [Sj|[[_ Sj]|Sj]]).
    + left. split; [reflexivity|]. exact Sj.
    + destruct A2; discriminate Sj.
    + cbn [act_fact] in Haa. destruct Haa as (_ & _ & _ & Q' & _).
      destruct (Z.eq_dec q' (lf_qty (im_leaf j))) as [Eq|Nq]; [left; split; [reflexivity|exact Eq]|]. right.
      assert (Hrem : maxq - quote_lots (A1 ++ [AFill j q']) < im_price j).
      { rewrite quote_lots_app, quote_lots_cons. cbn [act_quote]. change (quote_lots []) with 0. lia. }
      assert (HsA : o_side o = Ask).
      { destruct (o_side o) eqn:Es; [|reflexivity]. exfalso.
        destruct (Hio i Hi) as [_ Pi]. destruct Si as (Qi & Bi & _).
        assert (Hq2 : 0 <= quote_lots A2).
        { assert (F2 : Forall (act_fact o price taker owner) A2).
          { rewrite Forall_forall in *. intros x Hx. apply Haf. rewrite E'. apply in_or_app. right. right. apply in_or_app. left. exact Hx. }
          pose proof (own_quote_bounds _ _ _ _ _ F2). lia. }
        assert (Hlt : im_price j <= im_price i) by (unfold beats, better_order, other in Hbt; cbn [invert_side] in Hbt; lia).
        rewrite EA, quote_lots_app, quote_lots_cons in Bi. cbn [act_quote] in Bi.
        rewrite quote_lots_app, quote_lots_cons in Hrem. cbn [act_quote] in Hrem. change (quote_lots []) with 0 in Hrem. nia. }
      split; [exact HsA|]. exists q'. split; [reflexivity|]. split; [lia|].
      rewrite HsA in Hmq. injection Hmq as <-. exact Hrem.
  - cbn [act_fact] in Haa. congruence.
  - left. split; [reflexivity|exact I].
Qed.

(** ** Order types *)
Lemma no_fill_base tk acts price' : is_post_only o = true -> Forall (act_fact o price' tk owner) acts ->
  base_lots acts = 0 /\ quote_lots acts = 0 /\ forall a, In a acts -> is_drop a = true.
Proof.
  intros PO. induction 1 as [|a l Ha _ (IH1 & IH2 & IH3)]; [split; [reflexivity|split; [reflexivity|intros a []]]|].
  rewrite base_lots_cons, quote_lots_cons, IH1, IH2. destruct a as [i q|i|i]; cbn [act_fact act_base act_quote] in *.
  - destruct Ha as (_ & _ & Ha & _). congruence.
  - split; [lia|]. split; [lia|]. intros b [<-|Hb]; auto.
  - destruct Ha as (_ & _ & Ha & _). congruence.
Qed.

Lemma take_only_types : post_target o = None -> exists items acts,
  explained w o oracle taker owner now rem w' r items acts [] None /\
  (forall p, o_params o = OFillOrKill p -> oa_base_taken r = o_max_base o * bls (w_mkt w)).
Proof.
  intros Hpt. open_order T T0 price pd maxq acts ms lf w2 bt qt tf ra rq mf b2 T2 T3 gone put Hf Hf0 Hpl Hex Hrest.
  exists (merged (w_book w (invert_side (o_side o))) T now oracle), acts.
  pose proof (ex_put _ _ _ _ _ _ _ _ _ _ _ _ _ Hex) as Hpk.
  destruct put as [[t l]|]; cbn [put_ok] in Hpk; [destruct Hpk as [Hpk _]; change (post_target o = Some t) in Hpk; congruence|].
  pose proof (ex_gone _ _ _ _ _ _ _ _ _ _ _ _ _ Hex) as (_ & Hg & _). rewrite (Hg eq_refl) in Hex.
  split; [exact Hex|]. intros p Ep.
  destruct (placed_numbers _ _ _ _ _ _ _ _ _ _ _ _ _ _ _ _ _ _ _ _ _ _ _ _ Hsc Hf Hpl) as (_ & Eb & _ & Hb & _).
  pose proof (pc_fok _ _ _ _ _ _ _ _ _ _ _ _ _ _ _ _ _ _ _ _ _ _ _ _ Hpl) as Hfk. unfold is_fill_or_kill in Hfk. rewrite Ep in Hfk.
  specialize (Hfk eq_refl). rewrite (ex_base _ _ _ _ _ _ _ _ _ _ _ _ _ Hex). f_equal. lia.
Qed.

Lemma filter_first i l (Hs : StronglySorted (listed_before (invert_side (o_side o))) l) : In i l -> is_valid i = true ->
  exists j, head (filter is_valid l) = Some j /\ In j l /\ is_valid j = true /\
    match o_side o with Bid => im_price j <= im_price i | Ask => im_price i <= im_price j end.
Proof.
  induction Hs as [|x l Hs IH Hf]; intros Hi Vi; [destruct Hi|]. cbn [filter]. destruct (is_valid x) eqn:Vx.
  - exists x. cbn [head]. split; [reflexivity|]. split; [left; reflexivity|]. split; [exact Vx|].
    destruct Hi as [<-|Hi]; [destruct (o_side o); lia|]. rewrite Forall_forall in Hf. specialize (Hf _ Hi).
    unfold listed_before in Hf. destruct (o_side o); cbn [invert_side] in Hf; lia.
  - destruct Hi as [<-|Hi]; [congruence|]. destruct (IH Hi Vi) as (j & H1 & H2 & H3). exists j. split; [exact H1|]. split; [right; exact H2|exact H3].
Qed.

(** Nothing valid that the opposing side lists meets a posted post-only order. *)
Lemma post_only_type : is_post_only o = true -> exists items acts gone put,
  explained w o oracle taker owner now rem w' r items acts gone put /\
  (forall a, In a acts -> is_drop a = true) /\
  oa_base_taken r = 0 /\ oa_quote_taken r = 0 /\ oa_taker_fees r = 0 /\
  forall t l, put = Some (t, l) -> exists p,
    price_is oracle t l p /\ accepts (o_side o) (order_limit o oracle) p /\
    (forall i, In i items -> may_trade (invert_side (o_side o)) now i -> ~ crosses (o_side o) p (im_price i)).
Proof.
  intros PO. open_order T T0 price pd maxq acts ms lf w2 bt qt tf ra rq mf b2 T2 T3 gone put Hf Hf0 Hpl Hex Hrest.
  set (items := merged (w_book w (invert_side (o_side o))) T now oracle) in *.
  exists items, acts, gone, put. split; [exact Hex|].
  destruct (placed_numbers _ _ _ _ _ _ _ _ _ _ _ _ _ _ _ _ _ _ _ _ _ _ _ _ Hsc Hf Hpl)
    as (Haf & Eb & Eq & Hb & Hq & Hbl & Hql & Ebt & Eqt & Bbt & Bqt & Etf & Erq & Ecfg & Eseq & _).
  destruct (no_fill_base _ _ _ PO Haf) as (Z1 & Z2 & Z3). split; [exact Z3|].
  destruct Hrest as (R1 & R2 & R3 & R4 & _ & _ & _ & _ & _ & _ & Hput).
  pose proof (own_quote_bounds _ _ _ _ _ Haf) as [Hown _]. 
  assert (Etf0 : tf = 0).
  { rewrite Etf. replace (quote_lots acts - sumZ (map (self_quote taker owner) acts)) with 0 by lia. apply fee_up_zero. }
  split; [rewrite R1, Ebt, Z1; apply Z.mul_0_l|]. split; [rewrite R2, Eqt, Z2; apply Z.mul_0_l|]. split; [congruence|].
  intros t l Ep. subst put. exists price. destruct Hput as [P1 P2 P3 P4 _ _ _ _ _]. split; [exact P1|].
  destruct (order_price_facts _ _ _ _ _ _ (sc_order _ _ _ _ Hsc) (pc_price _ _ _ _ _ _ _ _ _ _ _ _ _ _ _ _ _ _ _ _ _ _ _ _ Hpl)) as (Rp & _ & Hlim & _).
  split.
  { unfold accepts. destruct (order_limit o oracle) as [p|]; [|exact I]. apply Hlim. reflexivity. }
  intros i Hi Vi Hcr. apply (listed_facts _ _ _ _ _ _ Hf Hi) in Vi.
  pose proof Hpl as [Hp Hseq Hmq Hcap Hit Htr Hst Hf2 Hlv Hmf Hlp Hfok].
  pose proof Hf as [Hok Hs _ Hl _].
  assert (Hsort : StronglySorted (listed_before (invert_side (o_side o))) items).
  { rewrite <- Hs at 1. apply merged_listed; assumption. }
  destruct (lt_prefix _ _ _ _ _ _ _ _ _ _ _ Htr) as (done & Ed & Hd). fold items in Ed.
  rewrite Ed in Hi. apply in_app_or in Hi as [Hi|Hi].
  { apply Hd in Hi as Ha; [|exact Vi]. apply in_map_iff in Ha as (a & Ea & Ha). specialize (Z3 _ Ha) as Da.
    rewrite Forall_forall in Haf. specialize (Haf _ Ha). destruct a; cbn [is_drop] in Da; try discriminate Da.
    cbn [act_item act_fact] in *. congruence. }
  destruct (lt_exit _ _ _ _ _ _ _ _ _ _ _ Htr) as [E|[E|[E|(j & r' & E & Vj & Wj)]]]; [congruence| | | |].
  - subst lf. destruct Hi.
  - unfold post_qty in P2. lia.
  - assert (Hmq' : maxq = o_max_quote o).
    { destruct (o_side o); rewrite ?PO in Hmq; injection Hmq as <-; reflexivity. }
    assert (Hrq : rq = 0).
    { rewrite Erq, Etf0. pose proof (cs_qls _ (sc_cfg _ _ _ _ Hsc)) as C1. change (c_qls (m_cfg (w_mkt w))) with (qls (w_mkt w)) in C1.
      rewrite Z.div_small by lia. lia. }
    rewrite Hrq in Hmf, P2. unfold post_qty in P2. unfold chk_i64 in Hmf. apply maker_fees_ceil_ok in Hmf; [|lia].
    rewrite maker_locks_zero in Hmf. subst mf. rewrite Z.sub_diag, Z.quot_0_l in P2 by exact Hlp. lia.
  - subst lf. rewrite Ed in Hsort. assert (Hle : match o_side o with Bid => im_price j <= im_price i | Ask => im_price i <= im_price j end).
    { destruct Hi as [<-|Hi]; [destruct (o_side o); lia|].
      assert (HL : listed_before (invert_side (o_side o)) j i).
      { clear - Hsort Hi. induction done as [|x X IH]; cbn [app] in Hsort; inversion Hsort as [|? ? S1 S2]; subst; [|auto].
        rewrite Forall_forall in S2. auto. }
      unfold listed_before in HL. destruct (o_side o); cbn [invert_side] in HL; lia. }
    unfold is_price_within_limit in Wj. unfold crosses in Hcr. destruct (o_side o); lia.
Qed.


(** The posted price. *)
Lemma slid items : iter_all (w_book w (invert_side (o_side o))) now oracle = Ok items ->
  forall p price, price_for_order_type (o_side o) (w_book w (invert_side (o_side o))) now oracle p PTPostOnlySlide = Ok price ->
  price = p \/ exists i, In i items /\ is_valid i = true /\ crosses (o_side o) p (im_price i) /\
    price = match o_side o with Bid => im_price i - 1 | Ask => im_price i + 1 end.
Proof.
  intros Hit p price H. cbn [price_for_order_type] in H. unfold best_price, iter_valid in H. rewrite Hit in H. cbn [bind] in H.
  destruct (filter is_valid items) as [|j l] eqn:Ef; [injection H as <-; left; reflexivity|].
  assert (Hj : In j items /\ is_valid j = true) by (apply filter_In; rewrite Ef; left; reflexivity).
  unfold post_only_slide_limit in H. unfold crosses. destruct (o_side o); apply bind_ok in H as (x & Ex & H);
    apply chk_i64_ok in Ex as [-> _]; injection H as <-.
  - destruct (Z_lt_le_dec p (im_price j)); [left; lia|]. right. exists j. repeat split; try apply Hj; lia.
  - destruct (Z_lt_le_dec (im_price j) p); [left; lia|]. right. exists j. repeat split; try apply Hj; lia.
Qed.

Lemma order_price_type price pd : post_target o <> None ->
  order_price o (w_book w (invert_side (o_side o))) now oracle = Ok (price, pd) ->
  exists p, order_limit o oracle = Some p /\
    (if slides o then price_for_order_type (o_side o) (w_book w (invert_side (o_side o))) now oracle p PTPostOnlySlide = Ok price
     else price = p).
Proof.
  intros Hpt H. unfold order_price in H. apply bind_ok in H as (pl & E & H). apply bind_ok in H as (u & _ & H).
  apply bind_ok in H as (d & _ & H). injection H as -> _.
  unfold order_limit, post_target, slides in *. destruct (o_params o) as [|p|p t|off t lim|p]; try (exfalso; apply Hpt; reflexivity).
  - exists p. split; [reflexivity|]. destruct t; [injection E as <-; reflexivity|injection E as <-; reflexivity|exact E].
  - destruct oracle as [op|]; cbn [bind option_map] in *; [|discriminate E]. exists (op + off). split; [reflexivity|].
    destruct (in_i64 (op + off)); cbn [bind] in E; [|discriminate E].
    destruct t; [injection E as <-; reflexivity|injection E as <-; reflexivity|exact E].
Qed.

Lemma posted_price : exists items acts gone put,
  explained w o oracle taker owner now rem w' r items acts gone put /\
  forall t l, put = Some (t, l) -> exists p lim,
    price_is oracle t l p /\ order_limit o oracle = Some lim /\
    (slides o = false -> p = lim) /\
    (slides o = true -> p = lim \/
       exists i, In i items /\ may_trade (invert_side (o_side o)) now i /\ crosses (o_side o) lim (im_price i) /\
         p = match o_side o with Bid => im_price i - 1 | Ask => im_price i + 1 end) /\
    within_peg (o_side o) p (order_peg_limit o).
Proof.
  open_order T T0 price pd maxq acts ms lf w2 bt qt tf ra rq mf b2 T2 T3 gone put Hf Hf0 Hpl Hex Hrest.
  exists (merged (w_book w (invert_side (o_side o))) T now oracle), acts, gone, put. split; [exact Hex|].
  destruct Hrest as (_ & _ & _ & _ & _ & _ & _ & _ & _ & _ & Hput). intros t l ->.
  destruct Hput as [P1 _ _ P4 _ _ _ _ P9].
  pose proof Hpl as [Hp Hseq Hmq Hcap Hit Htr Hst Hf2 Hlv Hmf Hlp Hfok].
  assert (Hpt : post_target o <> None).
  { destruct (lt_target _ _ _ _ _ _ _ _ _ _ _ Htr) as [E|E]; [cbn [start_ms ms_target] in E; congruence|congruence]. }
  destruct (order_price_type _ _ Hpt Hp) as (lim & El & Es). exists price, lim.
  split; [exact P1|]. split; [exact El|].
  split; [intros S; rewrite S in Es; exact Es|]. split.
  { intros S. rewrite S in Es. destruct (slid _ Hit _ _ Es) as [E|(i & Hi & Vi & Ci & Ei)]; [left; exact E|].
    right. exists i. split; [exact Hi|]. split; [apply (listed_facts _ _ _ _ _ _ Hf Hi); exact Vi|]. split; assumption. }
  unfold within_peg. unfold own_peg in P9. destruct (Z.eq_dec (order_peg_limit o) (-1)) as [|Hne]; [left; assumption|].
  right. rewrite (proj2 (Z.eqb_neq _ _) Hne) in P9. specialize (P9 eq_refl). unfold is_price_better in P9. destruct (o_side o); lia.
Qed.

(** ** Self trades *)
Lemma own_trade_item i : own_trade taker owner i = own_item taker i.
Proof.
  destruct (sc_taker _ _ _ _ Hsc) as [E|E]; rewrite E; reflexivity.
Qed.

Lemma placed_referrer T price pd maxq acts ms lf w2 bt qt tf ra rq mf b2 T2 :
  fits (invert_side (o_side o)) (w_book w (invert_side (o_side o))) T ->
  placed w o oracle taker owner now limit rem T price pd maxq acts ms lf w2 bt qt tf ra rq mf b2 T2 ->
  quote_lots acts - sumZ (map (self_quote taker owner) acts) = others_quote taker acts /\
  ra = (if 0 <? others_quote taker acts * qls (w_mkt w) then tf - rebates (w_mkt w) taker acts else 0).
Proof.
  intros Hf Hpl. destruct (placed_numbers _ _ _ _ _ _ _ _ _ _ _ _ _ _ _ _ _ _ _ _ _ _ _ _ Hsc Hf Hpl)
    as (Haf & Eb & Eq & Hb & Hq & Hbl & Hql & Ebt & Eqt & Bbt & Bqt & Etf & Erq & Ecfg & Eseq & _ & Hef & _).
  pose proof Hpl as [Hp Hseq Hmq Hcap Hit Htr Hst Hf2 Hlv Hmf Hlp Hfok].
  pose proof Hsc as [Hc _ Hso Htk].
  assert (E1 : quote_lots acts - sumZ (map (self_quote taker owner) acts) = others_quote taker acts).
  { clear - Hsc. unfold others_quote. induction acts as [|a l IH]; [reflexivity|]. rewrite quote_lots_cons.
    cbn [map sumZ fold_right]. fold (sumZ (map (self_quote taker owner) l)).
    fold (sumZ (map (fun a => if own_item taker (act_item a) then 0 else act_quote a) l)). rewrite <- IH.
    destruct a as [i q|i|i]; cbn [self_quote act_quote act_item]; [rewrite own_trade_item|..]; destruct (own_item taker i); lia. }
  split; [exact E1|].
  pose proof (lt_amounts _ _ _ _ _ _ Htk _ _ _ _ _ Htr) as (A1 & A2 & A3 & A4 & _).
  cbn [start_ms ms_quote ms_dec ms_rebates] in A2, A3, A4. rewrite Z.add_0_l in A3, A4.
  assert (Hcm : m_cfg (w_mkt (ms_w ms)) = m_cfg (w_mkt w)).
  { pose proof (effects_rest _ _ _ _ _ _ _ _ Hef) as (_ & _ & R3 & _). exact R3. }
  pose proof (own_quote_bounds _ _ _ _ _ Haf) as [Hown _].
  apply settle_taker_inv in Hst; [|rewrite Hcm; exact Hc|exact Hq|rewrite A2, A3; lia].
  destruct Hst as (_ & _ & _ & _ & _ & _ & _ & Era & _). rewrite (qls_eq _ _ Hcm) in Era.
  replace (maxq - ms_quote ms - ms_dec ms) with (others_quote taker acts) in Era by lia. rewrite Era.
  destruct (0 <? others_quote taker acts * qls (w_mkt w)); [|reflexivity]. f_equal. rewrite A4.
  pose proof Hc as [C1 C2 _ _ _]. change (c_qls (m_cfg (w_mkt w))) with (qls (w_mkt w)) in C1. unfold i64_max in C1.
  assert (Hbnd : forall a, In a acts -> 0 <= act_quote a * qls (w_mkt w) <= 9223372036854775807).
  { intros a Ha. assert (Hx : 0 <= act_quote a <= quote_lots acts).
    { clear - Ha Haf. induction Haf as [|b l Hb Hl IH]; [destruct Ha|]. rewrite quote_lots_cons.
      pose proof (own_quote_bounds _ _ _ _ _ Hl) as [H1 _].
      assert (H2 : 0 <= act_quote b) by (destruct b as [i q|i|i]; cbn [act_fact act_quote] in *; nia).
      destruct Ha as [<-|Ha]; [lia|]. specialize (IH Ha). lia. }
    nia. }
  unfold rebates. f_equal. apply map_ext_in. intros a Ha. specialize (Hbnd a Ha).
  rewrite (rebate_of_cfg (w_mkt w)) by reflexivity.
  destruct a as [i q|i|i]; cbn [rebate_of act_item act_quote] in *.
  - rewrite own_trade_item. destruct (own_item taker i); [reflexivity|].
    rewrite as_u64_id by lia. rewrite maker_rebate_floor_in; [|exact Hc|lia]. reflexivity.
  - rewrite Z.mul_0_l, maker_gets_zero. destruct (own_item taker i); reflexivity.
  - rewrite Z.mul_0_l, maker_gets_zero. destruct (own_item taker i); reflexivity.
Qed.

Lemma self_trades : exists items acts gone put,
  explained w o oracle taker owner now rem w' r items acts gone put /\
  (o_self_trade o <> DecrementTake -> forall i q, In (AFill i q) acts -> own_item taker i = false) /\
  (forall i, In (AOwn i) acts -> o_self_trade o = CancelProvide /\ own_item taker i = true) /\
  oa_taker_fees r = taker_pays (w_mkt w) (others_quote taker acts * qls (w_mkt w)) /\
  oa_referrer r = (if 0 <? others_quote taker acts * qls (w_mkt w)
                   then oa_taker_fees r - rebates (w_mkt w) taker acts else 0).
Proof.
  open_order T T0 price pd maxq acts ms lf w2 bt qt tf ra rq mf b2 T2 T3 gone put Hf Hf0 Hpl Hex Hrest.
  exists (merged (w_book w (invert_side (o_side o))) T now oracle), acts, gone, put. split; [exact Hex|].
  destruct (placed_numbers _ _ _ _ _ _ _ _ _ _ _ _ _ _ _ _ _ _ _ _ _ _ _ _ Hsc Hf Hpl)
    as (Haf & Eb & Eq & Hb & Hq & Hbl & Hql & Ebt & Eqt & Bbt & Bqt & Etf & Erq & Ecfg & Eseq & _).
  destruct (placed_referrer _ _ _ _ _ _ _ _ _ _ _ _ _ _ _ _ Hf Hpl) as [Eo Era].
  destruct Hrest as (R1 & R2 & R3 & R4 & _). rewrite Forall_forall in Haf.
  split.
  { intros Hne i q Hi. specialize (Haf _ Hi). destruct Haf as (_ & _ & _ & _ & _ & Hown). rewrite own_trade_item in Hown.
    destruct (own_item taker i); [exfalso; auto|reflexivity]. }
  split.
  { intros i Hi. specialize (Haf _ Hi). destruct Haf as (_ & _ & _ & ST & Ow & t & Et). split; [exact ST|].
    rewrite <- own_trade_item. unfold own_trade. rewrite Et. apply Z.eqb_eq. exact Ow. }
  split; [rewrite R3, Etf, Eo; reflexivity|]. rewrite R3, R4. exact Era.
Qed.

Lemma rebates_bounds price acts : cfg_sound (m_cfg (w_mkt w)) -> Forall (act_fact o price taker owner) acts ->
  0 <= rebates (w_mkt w) taker acts <= taker_pays (w_mkt w) (others_quote taker acts * qls (w_mkt w)).
Proof.
  intros Hc Haf. pose proof Hc as [Hq _ _ _ _]. fold (qls (w_mkt w)) in Hq.
  set (l := map (fun a => (if own_item taker (act_item a) then 0 else act_quote a) * qls (w_mkt w)) acts).
  assert (Hl : forall x, In x l -> 0 <= x).
  { intros x Hx. unfold l in Hx. apply in_map_iff in Hx as (a & <- & Ha). rewrite Forall_forall in Haf. specialize (Haf _ Ha).
    assert (0 <= act_quote a) by (destruct a as [i q|i|i]; cbn [act_quote]; [destruct Haf as (_ & _ & _ & H1 & H2 & _); nia|lia|lia]).
    destruct (own_item taker (act_item a)); nia. }
  assert (E1 : sumZ l = others_quote taker acts * qls (w_mkt w)).
  { unfold l, others_quote. clear. induction acts as [|a r0 IH]; [reflexivity|].
    cbn [map sumZ fold_right] in *. unfold sumZ in IH. rewrite IH. ring. }
  assert (E2 : rebates (w_mkt w) taker acts = sumZ (map (maker_gets (w_mkt w)) l)).
  { unfold l, rebates. rewrite map_map. f_equal. apply map_ext. intros a. destruct (own_item taker (act_item a)); [|reflexivity].
    rewrite Z.mul_0_l, maker_gets_zero. reflexivity. }
  rewrite E2, <- E1. split.
  - apply sumZ_nonneg. intros x Hx. apply in_map_iff in Hx as (y & <- & Hy). apply maker_gets_bounds; [exact Hc|exact (Hl _ Hy)].
  - apply rebates_le_taker; assumption.
Qed.

Lemma order_fees : exists items acts gone put,
  explained w o oracle taker owner now rem w' r items acts gone put /\
  oa_taker_fees r = taker_pays (w_mkt w) (others_quote taker acts * qls (w_mkt w)) /\
  0 <= rebates (w_mkt w) taker acts <= oa_taker_fees r /\
  oa_maker_fees r = match o_side o with Bid => maker_locks (w_mkt w) (oa_posted_quote r) | Ask => 0 end.
Proof.
  open_order T T0 price pd maxq acts ms lf w2 bt qt tf ra rq mf b2 T2 T3 gone put Hf Hf0 Hpl Hex Hrest.
  exists (merged (w_book w (invert_side (o_side o))) T now oracle), acts, gone, put. split; [exact Hex|].
  destruct (placed_numbers _ _ _ _ _ _ _ _ _ _ _ _ _ _ _ _ _ _ _ _ _ _ _ _ Hsc Hf Hpl)
    as (Haf & Eb & Eq & Hb & Hq & Hbl & Hql & Ebt & Eqt & Bbt & Bqt & Etf & Erq & Ecfg & Eseq & _).
  destruct (placed_referrer _ _ _ _ _ _ _ _ _ _ _ _ _ _ _ _ Hf Hpl) as [Eo _].
  destruct Hrest as (R1 & R2 & R3 & R4 & _ & _ & _ & _ & _ & _ & Hput).
  assert (E : oa_taker_fees r = taker_pays (w_mkt w) (others_quote taker acts * qls (w_mkt w))) by (rewrite R3, Etf, Eo; reflexivity).
  split; [exact E|]. rewrite E. split; [exact (rebates_bounds _ _ (sc_cfg _ _ _ _ Hsc) Haf)|].
  destruct put as [[t l]|].
  - exact (pf_fees _ _ _ _ _ _ _ _ _ _ _ Hput).
  - destruct (ex_put _ _ _ _ _ _ _ _ _ _ _ _ _ Hex) as (_ & _ & P3 & P4). rewrite P3, P4, maker_locks_zero. destruct (o_side o); reflexivity.
Qed.

(** The order placed on the book carries the time limit and the time of the call. *)
Lemma put_expiry t id : oa_order_id r = Some id -> post_target o = Some t -> exists L l,
  lists (w_book w' (o_side o)) t L /\ In l L /\ lf_key l = id /\ lf_owner l = owner /\ lf_ts l = now /\ lf_tif l = o_tif o.
Proof.
  intros Hid Ht. open_order T T0 price pd maxq acts ms lf w2 bt qt tf ra rq mf b2 T2 T3 gone put Hf Hf0 Hpl Hex Hrest.
  pose proof (ex_put _ _ _ _ _ _ _ _ _ _ _ _ _ Hex) as Hp. destruct put as [[t0 l]|]; cbn [put_ok] in Hp.
  2: { destruct Hp as [E _]. congruence. }
  destruct Hp as (E1 & E2 & _ & _ & E3). change (post_target o = Some t0) in E1. assert (t0 = t) by congruence. subst t0.
  destruct Hrest as (_ & _ & _ & _ & _ & _ & Hf3 & _).
  exists (dir (bs_side (w_book w' (o_side o))) (oleaves (T3 t))), l.
  pose proof (bs_lists _ _ t (ft_ok _ _ _ Hf3)) as HL3. split; [exact HL3|].
  pose proof (bs_lists _ _ t (ft_ok _ _ _ Hf0)) as HL0.
  split; [apply (ex_own _ _ _ _ _ _ _ _ _ _ _ _ _ Hex t _ _ HL0 HL3); right; reflexivity|].
  split; [congruence|]. rewrite E3. cbn [lf_owner lf_ts lf_tif]. auto.
Qed.

(** ** Limits *)
Lemma push_back_count h e h0 : push_back h e = Ok h0 -> h_count h0 = h_count h + 1.
Proof.
  intros H. unfold push_back in H. apply bind_ok in H as (u & _ & H). cbv zeta in H. apply bind_ok in H as (u1 & _ & H).
  apply bind_ok in H as ([[[a b] c] d] & _ & H). apply bind_ok in H as (s & _ & H). injection H as <-. reflexivity.
Qed.
Lemma drop_count tk s l w1 w2 : drop_effect tk rem now s l w1 w2 ->
  h_count (w_heap w1) <= h_count (w_heap w2) <= h_count (w_heap w1) + 1.
Proof.
  intros []; cbn [w_set_acct w_set_accts w_set_heap w_heap]; [lia|].
  match goal with H : push_back _ _ = Ok _ |- _ => rename H into E end. apply push_back_count in E. lia.
Qed.
Lemma drops_count tk s w1 l w2 : drops tk rem now s w1 l w2 ->
  h_count (w_heap w1) <= h_count (w_heap w2) <= h_count (w_heap w1) + Z.of_nat (length l).
Proof.
  induction 1 as [w1|w1 t l w2 r0 w3 H1 _ IH]; [cbn; lia|]. apply drop_count in H1. cbn [length]. lia.
Qed.
Lemma effects_count w1 acts w2 : effects o taker owner rem now w1 acts w2 ->
  h_count (w_heap w1) <= h_count (w_heap w2) <=
    h_count (w_heap w1) + Z.of_nat (length (filter is_fill acts)) + Z.of_nat (length (filter is_drop acts)).
Proof.
  induction 1 as [w1|w1 a w2 l w3 H1 _ IH]; [cbn; lia|].
  destruct H1 as [w1 i q a a' m' _ _ _|w1 i q h E|w1 i w2 H1|w1 i a a' _ _ _]; cbn [filter is_fill is_drop length] in *.
  - cbn [w_set_acct w_set_accts w_set_mkt w_heap] in *. lia.
  - apply push_back_count in E. cbn [w_set_heap w_heap] in *. lia.
  - apply drop_count in H1. lia.
  - cbn [w_set_acct w_set_accts w_set_mkt w_heap] in *. lia.
Qed.

Lemma limits_respected : 0 <= limit -> exists items acts gone put,
  explained w o oracle taker owner now rem w' r items acts gone put /\
  Z.of_nat (length (filter is_fill acts)) <= limit /\ (length (filter is_drop acts) <= 5)%nat /\
  h_count (w_heap w) <= h_count (w_heap w') <= h_count (w_heap w) + limit + 7.
Proof.
  intros Hlim. open_order T T0 price pd maxq acts ms lf w2 bt qt tf ra rq mf b2 T2 T3 gone put Hf Hf0 Hpl Hex Hrest.
  exists (merged (w_book w (invert_side (o_side o))) T now oracle), acts, gone, put. split; [exact Hex|].
  pose proof Hpl as [Hp Hseq Hmq Hcap Hit Htr Hst Hf2 Hlv Hmf Hlp Hfok].
  pose proof (lt_amounts _ _ _ _ _ _ (sc_taker _ _ _ _ Hsc) _ _ _ _ _ Htr) as (_ & _ & _ & _ & _ & _ & A7 & A8).
  pose proof (lt_limit_nonneg _ _ _ _ _ _ _ _ _ _ _ Htr Hlim) as L1.
  pose proof (lt_dropped _ _ _ _ _ _ _ _ _ _ _ Htr ltac:(cbn; lia)) as L2.
  cbn [start_ms ms_dropped ms_limit] in A7, A8.
  split; [lia|]. split; [lia|].
  destruct (ex_world _ _ _ _ _ _ _ _ _ _ _ _ _ Hex) as (w1 & wa & wb & wc & -> & He & (Q1 & _) & Hd & (Q2 & _)).
  apply effects_count in He. apply drops_count in Hd. destruct (ex_gone _ _ _ _ _ _ _ _ _ _ _ _ _ Hex) as (Hg & _).
  cbn [w_set_mkt w_heap] in He. rewrite Q1 in Hd. rewrite Q2. lia.
Qed.


(** ** Posting and the opposing side *)
Lemma residue_in acts t l a : NoDup (map akey acts) -> In a acts -> about a t l = true ->
  residue acts t l = after_act a l.
Proof.
  induction acts as [|b acts IH]; intros N Ha Hab; [destruct Ha|]. cbn [residue]. cbn [map] in N. inversion N as [|? ? N1 N2]; subst.
  destruct Ha as [->|Ha]; [rewrite Hab; reflexivity|]. destruct (about b t l) eqn:Hb; [|auto].
  exfalso. apply N1. apply about_akey in Hb, Hab. rewrite Hb, <- Hab. apply in_map. exact Ha.
Qed.

Lemma ample_price maxq price items p : 1 <= price ->
  0 <= maxq <= o_max_quote o -> is_post_only o = false ->
  match o_side o with
   | Bid => if is_post_only o then Ok (o_max_quote o) else subtract_taker_fees (w_mkt w) (o_max_quote o)
   | Ask => Ok (o_max_quote o)
   end = Ok maxq ->
  match o_side o with Bid => price <= p | Ask => p <= price end ->
  ample_budget (w_mkt w) o p items ->
  forall i, In i items -> is_price_within_limit (o_side o) (im_price i) price = true -> o_max_base o * im_price i <= maxq.
Proof.
  intros Hp1 Hmx PO Hmq Hp Ha i Hi W. pose proof (so_base _ (sc_order _ _ _ _ Hsc)) as Hb0.
  pose proof (so_quote _ (sc_order _ _ _ _ Hsc)) as Hq0.
  unfold ample_budget, is_price_within_limit in *. destruct (o_side o).
  - rewrite PO in Hmq. pose proof (cs_taker _ (sc_cfg _ _ _ _ Hsc)) as C4. change (c_taker_fee (m_cfg (w_mkt w))) with (taker_fee (w_mkt w)) in C4.
    apply subtract_taker_fees_ok in Hmq; [|exact (proj1 C4)|exact Hq0]. subst maxq.
    assert (H1 : o_max_base o * p <= o_max_quote o * 1000000 / (1000000 + taker_fee (w_mkt w))).
    { apply Z.div_le_lower_bound; [lia|]. lia. }
    assert (H2 : o_max_base o * im_price i <= o_max_base o * p) by (apply Z.mul_le_mono_nonneg_l; lia). lia.
  - injection Hmq as <-. apply Ha. exact Hi.
Qed.

Lemma fills_afford maxq price (Q : item -> Prop) acts :
  (forall i, Q i -> o_max_base o * im_price i <= maxq) ->
  Forall (act_fact o price taker owner) acts -> (forall a, In a acts -> is_fill a = true -> Q (act_item a)) ->
  o_max_base o * quote_lots acts <= maxq * base_lots acts.
Proof.
  intros HQ Haf. induction Haf as [|a l Ha Hl IH]; intros Hq; [cbn; lia|].
  rewrite quote_lots_cons, base_lots_cons. specialize (IH (fun b Hb => Hq b (or_intror Hb))).
  destruct a as [i q|i|i]; cbn [act_quote act_base act_fact] in *; try lia.
  specialize (HQ i (Hq _ (or_introl eq_refl) eq_refl)). destruct Ha as (_ & _ & _ & Qb & _).
  assert (o_max_base o * im_price i * q <= maxq * q) by (apply Z.mul_le_mono_nonneg_r; lia). lia.
Qed.


Section Core.
Variables (T : trees) (price pd maxq : Z) (acts : list act) (ms : mstate) (lf : list item) (w2 : world)
  (bt qt tf ra rq mf : Z) (b2 : bookside) (T2 : trees) (t : otree_id) (l : leaf).
Hypothesis Hf : fits (invert_side (o_side o)) (w_book w (invert_side (o_side o))) T.
Hypothesis Hpl : placed w o oracle taker owner now limit rem T price pd maxq acts ms lf w2 bt qt tf ra rq mf b2 T2.
Hypothesis Hput : put_facts o oracle price pd w ms rq mf r t l.
Let items := merged (w_book w (invert_side (o_side o))) T now oracle.

Lemma items_sorted : StronglySorted (listed_before (invert_side (o_side o))) items.
Proof.
  pose proof Hf as [Hok Hs _ Hl _]. rewrite <- Hs at 1. apply merged_listed; assumption.
Qed.

Lemma past_limit done j r' i : items = done ++ j :: r' -> is_price_within_limit (o_side o) (im_price j) price = false ->
  In i (j :: r') -> ~ crosses (o_side o) price (im_price i).
Proof.
  intros Ed Wj Hi Hcr. pose proof items_sorted as Hsort. rewrite Ed in Hsort.
  assert (Hle : match o_side o with Bid => im_price j <= im_price i | Ask => im_price i <= im_price j end).
  { destruct Hi as [<-|Hi]; [destruct (o_side o); lia|].
    assert (HL : listed_before (invert_side (o_side o)) j i).
    { clear - Hsort Hi. induction done as [|x X IH]; cbn [app] in Hsort; inversion Hsort as [|? ? S1 S2]; subst; [|auto].
      rewrite Forall_forall in S2. auto. }
    unfold listed_before in HL. destruct (o_side o); cbn [invert_side] in HL; lia. }
  unfold is_price_within_limit in Wj. unfold crosses in Hcr. destruct (o_side o); lia.
Qed.

Lemma core_finishes : (is_post_only o = false -> forall p, order_limit o oracle = Some p -> ample_budget (w_mkt w) o p items) ->
  forall i, In i items -> is_valid i = true -> crosses (o_side o) price (im_price i) ->
  exists a, In a acts /\ finishes a i.
Proof.
  intros Hamp i Hi Vi Hcr.
  destruct (placed_numbers _ _ _ _ _ _ _ _ _ _ _ _ _ _ _ _ _ _ _ _ _ _ _ _ Hsc Hf Hpl)
    as (Haf & Eb & Eq & Hb & Hq & Hbl & Hql & Ebt & Eqt & Bbt & Bqt & Etf & Erq & Ecfg & Eseq & _).
  pose proof Hpl as [Hp Hseq Hmq Hcap Hit Htr Hst Hf2 Hlv Hmf Hlp Hfok]. destruct Hput as [P1 P2 P3 P4 _ _ _ _ _].
  pose proof (maxq_facts w o maxq (sc_cfg _ _ _ _ Hsc) (so_quote _ (sc_order _ _ _ _ Hsc)) Hmq) as [Hmx _].
  destruct (order_price_facts _ _ _ _ _ _ (sc_order _ _ _ _ Hsc) Hp) as (Rp & _ & Hlim & _).
  assert (Hbpos : 0 < ms_base ms) by (unfold post_qty in P2; lia).
  pose proof (merged_items_ok _ _ _ now oracle Hf) as Hio. fold items in Hio.
  destruct (lt_prefix _ _ _ _ _ _ _ _ _ _ _ Htr) as (done & Ed & Hd). fold items in Ed.
  assert (Hpt : post_target o <> None).
  { destruct (lt_target _ _ _ _ _ _ _ _ _ _ _ Htr) as [E|E]; [cbn [start_ms ms_target] in E; congruence|congruence]. }
  destruct (order_price_type _ _ Hpt Hp) as (lim & El & _).
  assert (Hex : lf = [] \/ ms_quote ms = 0 \/ exists j r', lf = j :: r' /\ is_price_within_limit (o_side o) (im_price j) price = false).
  { destruct (lt_exit _ _ _ _ _ _ _ _ _ _ _ Htr) as [E|[E|[E|(j & r' & E & Vj & Wj)]]]; [congruence|left; exact E|lia|right; left; exact E|].
    right. right. exists j, r'. auto. }
  assert (Hsub : sublist (map act_item acts) items) by (eapply lt_sub; exact Htr).
  rewrite Forall_forall in Haf.
  destruct (is_post_only o) eqn:PO.
  - (* post only *)
    exfalso. assert (Haf' : Forall (act_fact o price taker owner) acts) by (apply Forall_forall; exact Haf).
    destruct (no_fill_base _ _ _ PO Haf') as (Z1 & Z2 & Z3).
    pose proof Hi as Hi'. rewrite Ed in Hi'. apply in_app_or in Hi' as [Hi'|Hi'].
    { apply Hd in Hi' as Ha; [|exact Vi]. apply in_map_iff in Ha as (a & Ea & Ha). specialize (Z3 _ Ha) as Da.
      specialize (Haf _ Ha). destruct a; cbn [is_drop] in Da; try discriminate Da. cbn [act_item act_fact] in *. congruence. }
    destruct Hex as [E|[E|(j & r' & E & Wj)]].
    + rewrite E in Hi'. destruct Hi'.
    + assert (Hmq' : maxq = o_max_quote o).
      { destruct (o_side o); injection Hmq as <-; reflexivity. }
      assert (Etf0 : tf = 0).
      { rewrite Etf. pose proof (own_quote_bounds _ _ _ _ _ Haf') as [Hown _].
        replace (quote_lots acts - sumZ (map (self_quote taker owner) acts)) with 0 by lia. apply fee_up_zero. }
      assert (Hrq : rq = 0).
      { rewrite Erq, Etf0. pose proof (cs_qls _ (sc_cfg _ _ _ _ Hsc)) as C1. change (c_qls (m_cfg (w_mkt w))) with (qls (w_mkt w)) in C1.
        rewrite Z.div_small by lia. lia. }
      rewrite Hrq in Hmf, P2. unfold post_qty in P2. unfold chk_i64 in Hmf. apply maker_fees_ceil_ok in Hmf; [|lia].
      rewrite maker_locks_zero in Hmf. subst mf. rewrite Z.sub_diag, Z.quot_0_l in P2 by exact Hlp. lia.
    + rewrite E in Ed, Hi'. exact (past_limit _ _ _ _ Ed Wj Hi' Hcr).
  - specialize (Hamp eq_refl lim El).
    assert (Hmq' := Hmq).
    assert (Hcost : forall k, In k items -> is_price_within_limit (o_side o) (im_price k) price = true -> o_max_base o * im_price k <= maxq).
    { apply (ample_price maxq price items lim); [lia|exact Hmx|exact PO|rewrite PO; exact Hmq|apply Hlim; exact El|exact Hamp]. }
    assert (Hall : forall A B, acts = A ++ B -> o_max_base o * quote_lots A <= maxq * base_lots A).
    { intros A B E. apply (fills_afford maxq price (fun k => In k items /\ is_price_within_limit (o_side o) (im_price k) price = true)).
      - intros k [K1 K2]. apply Hcost; assumption.
      - apply Forall_forall. intros a Ha. apply Haf. rewrite E. apply in_or_app. left. exact Ha.
      - intros a Ha Fa. assert (Ha' : In a acts) by (rewrite E; apply in_or_app; left; exact Ha). split.
        + apply (sublist_in _ _ _ Hsub). apply in_map. exact Ha'.
        + specialize (Haf _ Ha'). destruct a; try discriminate Fa. cbn [act_fact act_item] in *. tauto. }
    assert (Wi : is_price_within_limit (o_side o) (im_price i) price = true).
    { unfold crosses, is_price_within_limit in *. destruct (o_side o); lia. }
    pose proof (Hcost i Hi Wi) as Ci. destruct (Hio i Hi) as [_ Pi].
    pose proof Hi as Hi'. rewrite Ed in Hi'. apply in_app_or in Hi' as [Hi'|Hi'].
    + apply Hd in Hi' as Ha; [|exact Vi]. apply in_map_iff in Ha as (a & Ea & Ha). exists a. split; [exact Ha|].
      split; [exact Ea|]. pose proof (Haf _ Ha) as Fa. destruct a as [i' q|i'|i']; cbn [act_item] in Ea; subst i'; [|exact I|exact I].
      destruct (in_split _ _ Ha) as (A & B & E).
      pose proof (lt_split _ _ _ _ _ _ _ _ _ _ _ Htr Hio (so_base _ (sc_order _ _ _ _ Hsc)) (proj1 Hmx) _ _ _ _ E) as (S1 & S2 & S3 & _ & S4).
      cbn [start_ms ms_base ms_quote] in S2, S3, S4.
      assert (HB : 0 <= base_lots B).
      { assert (FB : Forall (act_fact o price taker owner) B).
        { apply Forall_forall. intros b Hb'. apply Haf. rewrite E. apply in_or_app. right. right. exact Hb'. }
        pose proof (own_quote_bounds _ _ _ _ _ FB). lia. }
      rewrite E, base_lots_app, base_lots_cons in Eb, Hbl. cbn [act_base] in Eb, Hbl.
      destruct S4 as [S4|[[S4 _]|S4]]; [exact S4|exfalso; lia|]. exfalso.
      pose proof (Hall A _ E) as HA.
      assert (K1 : (q + 1) * (o_max_base o * im_price i) <= (q + 1) * maxq) by (apply Z.mul_le_mono_nonneg_l; lia).
      assert (K2 : maxq * (base_lots A + q + 1) <= maxq * o_max_base o) by (apply Z.mul_le_mono_nonneg_l; lia).
      assert (K3 : o_max_base o * (quote_lots A + (q + 1) * im_price i) <= o_max_base o * maxq) by lia.
      assert (K4 : 0 < o_max_base o) by lia.
      apply Z.mul_le_mono_pos_l in K3; [|exact K4]. lia.
    + exfalso. destruct Hex as [E|[E|(j & r' & E & Wj)]].
      * rewrite E in Hi'. destruct Hi'.
      * pose proof (Hall acts [] (eq_sym (app_nil_r _))) as HA.
        assert (Hm0 : 0 < maxq) by nia.
        assert (K : maxq * o_max_base o <= maxq * base_lots acts) by (replace (quote_lots acts) with maxq in HA by lia; lia).
        apply Z.mul_le_mono_pos_l in K; [|exact Hm0]. lia.
      * rewrite E in Ed, Hi'. exact (past_limit _ _ _ _ Ed Wj Hi' Hcr).
Qed.

Lemma peg_complete (x : otree_id * leaf) : pegs_in_range (w_book w (invert_side (o_side o))) oracle -> In (snd x) (oleaves (T (fst x))) ->
  (fst x = OraclePegged -> oracle <> None) ->
  exists i, In i items /\ im_tree i = fst x /\ im_leaf i = snd x.
Proof.
  intros Hr Hx Ho. destruct x as [u x]. cbn [fst snd] in *. pose proof Hf as [Hok Hs _ Hl _].
  destruct u.
  { apply in_oleaves in Hx as (h & Hx). destruct (merged_fixed_complete (w_book w (invert_side (o_side o))) T now oracle _ Hx) as (i & Ei & Hi).
    exists i. split; [exact Hi|]. injection Ei as <-. split; reflexivity. }
  unfold items. clear items. destruct oracle as [op|]; [|exfalso; apply Ho; reflexivity]. cbn [pegs_in_range] in Hr.
  assert (Hns : none_skipped (bs_side (w_book w (invert_side (o_side o)))) (Some op) (oitems (T OraclePegged))).
  { intros y Hy. apply in_range_not_skipped; [apply oitems_leaf in Hy; apply Hl in Hy; apply Hy|].
    eapply Hr; [apply bs_lists; exact Hok|]. apply in_dir. apply oitems_leaf. exact Hy. }
  apply in_oleaves in Hx as (h & Hx).
  destruct (pegged_item (bs_side (w_book w (invert_side (o_side o)))) now op _ (Hns _ Hx)) as (i & Ei). exists i. split.
  - apply (Permutation_in _ (Permutation_sym (merged_complete _ _ now _ Hns))). unfold all_items. apply in_or_app. right.
    apply omap_in. exists (h, x). split; assumption.
  - apply item_of_facts in Ei; [|apply oitems_leaf in Hx; apply Hl in Hx; apply Hx]. cbn [snd] in Ei. tauto.
Qed.

Lemma core_after : pegs_in_range (w_book w (invert_side (o_side o))) oracle ->
  (forall i, In i items -> is_valid i = true -> crosses (o_side o) price (im_price i) -> exists a, In a acts /\ finishes a i) ->
  exists items', iter_all b2 now oracle = Ok items' /\
    forall i, In i items' -> may_trade (invert_side (o_side o)) now i -> ~ crosses (o_side o) price (im_price i).
Proof.
  intros Hr Hfin. pose proof Hpl as [Hp Hseq Hmq Hcap Hit Htr Hst Hf2 Hlv Hmf Hlp Hfok].
  pose proof Hf2 as [Hok2 Hs2 _ Hl2 _]. exists (merged b2 T2 now oracle). split; [apply iter_all_spec; assumption|].
  intros i' Hi' Vi' Hcr. pose proof (listed_facts _ _ _ _ _ _ Hf2 Hi') as (RP' & _ & _).
  pose proof (merged_in _ _ _ _ _ Hi') as [Hin Hit']. apply oitems_leaf in Hin. cbn [snd] in Hin. rewrite Hlv in Hin.
  apply residues_in in Hin as (x & Hx & Hres).
  destruct (peg_complete (im_tree i', x) Hr Hx) as (i & Hi & Et & Elf).
  { cbn [fst]. intros E. rewrite E in Hit'. destruct oracle; [discriminate|discriminate Hit']. }
  cbn [fst snd] in Et, Elf.
  pose proof (listed_facts _ _ _ _ _ _ Hf Hi) as (RP & RV & _).
  assert (Hsame : lf_key (im_leaf i') = lf_key x /\ lf_tif (im_leaf i') = lf_tif x /\ lf_ts (im_leaf i') = lf_ts x /\ lf_peg_limit (im_leaf i') = lf_peg_limit x).
  { destruct (residue_cases _ _ _ _ Hres) as [->|(k & q & _ & _ & _ & ->)]; repeat split. }
  destruct Hsame as (S1 & S2 & S3 & S4).
  assert (Ep : im_price i = im_price i').
  { unfold right_price, exact_price in *. rewrite Et in RP. rewrite Elf in RP. rewrite S1 in RP'. destruct (im_tree i'); [congruence|].
    destruct RP as (op & E1 & E2). destruct RP' as (op' & E1' & E2'). congruence. }
  assert (Vi : is_valid i = true).
  { apply RV. unfold may_trade, live in *. rewrite Et, Elf, Ep. rewrite S2, S3, S4 in Vi'. exact Vi'. }
  rewrite <- Ep in Hcr. destruct (Hfin i Hi Vi Hcr) as (a & Ha & Fa & Fq).
  assert (N : NoDup (map akey acts)).
  { apply (acts_akey_nodup (w_book w (invert_side (o_side o))) T now oracle); [apply Hf|]. eapply lt_sub. exact Htr. }
  assert (Hab : about a (im_tree i') x = true).
  { apply about_akey. unfold akey. rewrite Fa, Et, Elf. reflexivity. }
  rewrite (residue_in _ _ _ _ N Ha Hab) in Hres. destruct a as [k q|k|k]; cbn [after_act] in Hres; try discriminate Hres.
  rewrite Elf in Fq. rewrite Fq, Z.eqb_refl in Hres. discriminate Hres.
Qed.
End Core.

Lemma posting_never_crosses :
  (is_post_only o = false -> forall p items, order_limit o oracle = Some p ->
     iter_all (w_book w (invert_side (o_side o))) now oracle = Ok items -> ample_budget (w_mkt w) o p items) ->
  exists items acts gone put,
  explained w o oracle taker owner now rem w' r items acts gone put /\
  forall t l, put = Some (t, l) -> exists p, price_is oracle t l p /\
    (forall i, In i items -> may_trade (invert_side (o_side o)) now i -> crosses (o_side o) p (im_price i) ->
       exists a, In a acts /\ finishes a i) /\
    (pegs_in_range (w_book w (invert_side (o_side o))) oracle ->
     exists items', iter_all (w_book w' (invert_side (o_side o))) now oracle = Ok items' /\
     forall i, In i items' -> may_trade (invert_side (o_side o)) now i -> ~ crosses (o_side o) p (im_price i)).
Proof.
  intros Hamp.
  open_order T T0 price pd maxq acts ms lf w2 bt qt tf ra rq mf b2 T2 T3 gone put Hf Hf0 Hpl Hex Hrest.
  exists (merged (w_book w (invert_side (o_side o))) T now oracle), acts, gone, put. split; [exact Hex|].
  destruct Hrest as (_ & _ & _ & _ & _ & Eb2 & _ & _ & _ & _ & Hput). intros t l ->.
  exists price. split; [apply Hput|].
  assert (Hfin := core_finishes _ _ _ _ _ _ _ _ _ _ _ _ _ _ _ _ _ _ Hf Hpl Hput
    (fun PO p Ep => Hamp PO p _ Ep (pc_items _ _ _ _ _ _ _ _ _ _ _ _ _ _ _ _ _ _ _ _ _ _ _ _ Hpl))).
  split.
  - intros i Hi Vi. apply Hfin; [exact Hi|]. apply (listed_facts _ _ _ _ _ _ Hf Hi). exact Vi.
  - intros Hr. rewrite Eb2. eapply core_after; eassumption.
Qed.
End Claims.

Lemma better_first_bids w o oracle taker owner now limit rem w' r :
  sound_call w o taker owner -> new_order w o oracle taker owner now limit rem = Ok (w', r) ->
  o_side o = Bid ->
  exists items acts gone put,
  explained w o oracle taker owner now rem w' r items acts gone put /\
  StronglySorted (listed_before Ask) items /\
  (forall L l, lists (w_book w Ask) Fixed L -> In l L ->
     exists i, In i items /\ im_tree i = Fixed /\ im_leaf i = l) /\
  forall A i q B, acts = A ++ AFill i q :: B ->
    forall j, In j items -> may_trade Ask now j -> beats Ask j i ->
    exists a, In a A /\ finishes a j.
Proof.
  intros Hs Hn Hb. destruct (better_first _ _ _ _ _ _ _ _ _ _ Hs Hn) as (items & acts & gone & put & H1 & H2 & H3 & H4).
  rewrite Hb in *. cbn [invert_side] in *. exists items, acts, gone, put. split; [exact H1|]. split; [exact H2|]. split; [exact H3|].
  intros A i q B E j Hj Hm Hbt. destruct (H4 A i q B E j Hj Hm Hbt) as (A1 & a & A2 & -> & [F|[F _]]); [|discriminate F].
  exists a. split; [apply in_or_app; right; left; reflexivity|exact F].
Qed.
