(** Placing an order from two worlds that come to the same: the two runs. *)
From Coq Require Import ZArith List Bool Lia ZifyBool Permutation.
From Verif Require Import Base Nodes OrderTree BookSide Heap Market OpenOrders Order Book Instructions
  BaseFacts NodesFacts HeapFacts TreeRep TreeFacts TreeOps TreeIter BookSideFacts BookSideOrder BookSpecProofs SpecBook SpecFees SpecHeap
  HeapSpecProofs FeeFacts SpecOrder MatchFacts MatchBook OrderFacts PlaceFacts OrderSpecProofs OrderClaims Steps StepFacts
  SpecLedger SpecEvents Ledger LedgerOps LedgerMoves LedgerPlace LedgerOrder LedgerInv SpecSystem SystemFacts ConsumeFacts
  TradeFacts DeferFacts DeferOrder.
Import ListNotations.
Open Scope Z_scope.

Section Same.
Variables (o : order) (price now : Z) (tk : option Z) (ow : Z) (rem1 rem2 : list Z).
Hypothesis Htk : tk_ok tk ow.

Lemma runs_same items : forall s1 acts1 s1' lf1, ltrace o price tk ow rem1 now items s1 acts1 s1' lf1 ->
  forall s2 acts2 s2' lf2, ltrace o price tk ow rem2 now items s2 acts2 s2' lf2 ->
  sim s1 s2 -> acts1 = acts2 /\ sim s1' s2'.
Proof using Htk.
  intros s1 acts1 s1' lf1 H1.
  induction H1 as [s|i r s Hd|i r s Hb Hv Hp|i r s Hb Hv Hp Hs|i r s acts s' lf Hb Hv Hd H IH|i r s w acts s' lf Hb Hv Hd Hpo H IH
    |i r s t a a' acts s' lf Hb Hv Hp Hpo Hl Hq Ht Ho Hst Ha Hc H IH|i r s q dec reb w np acts s' lf Hb Hv Hp Hpo Hl Hpz Hq Eq Hqq Ho Hno Hpf H IH];
  intros s2 acts2 s2' lf2 H2 S;
  (assert (Hsi := S); destruct Hsi as [S1 S2 S3 S4 S5 S6 S7 S8]);
  inversion H2 as [sx|ix rx sx Gd|ix rx sx Gb Gv Gp|ix rx sx Gb Gv Gp Gs|ix rx sx actsx sx' lfx Gb Gv Gd G|ix rx sx wx actsx sx' lfx Gb Gv Gd Gpo G
    |ix rx sx tx ax ax' actsx sx' lfx Gb Gv Gp Gpo Gl Gq Gt Go Gst Ga Gc G|ix rx sx qx decx rebx wx npx actsx sx' lfx Gb Gv Gp Gpo Gl Gpz Gq Eqx Gqq Go Gno Gpf G];
  subst; unfold busy in *;
  try (exfalso; (congruence || (destruct Hb; destruct Gd; congruence) || (destruct Gb; destruct Hd; congruence)
      || lia || (destruct Hs as [Hs|[Hs|Hs]]; (congruence || (rewrite ?S6 in *; lia) || (rewrite S2 in Hs; congruence)))
      || (destruct Gs as [Gs|[Gs|Gs]]; (congruence || (rewrite <- ?S6 in *; lia) || (rewrite <- S2 in Gs; congruence))))).
  - split; [reflexivity|exact S].
  - split; [reflexivity|exact S].
  - split; [reflexivity|exact S].
  - split; [reflexivity|]. constructor; cbn [ms_stop ms_base ms_quote ms_dec ms_rebates ms_dropped ms_limit ms_target ms_w]; try assumption; reflexivity.
  - eapply IH; [exact G|exact S].
  - apply out_cfg in Hpo; [|exact Htk]. apply out_cfg in Gpo; [|exact Htk].
    destruct (IH _ _ _ _ G) as [E1 E2]; [|subst actsx; split; [reflexivity|exact E2]].
    constructor; cbn [after_drop ms_base ms_quote ms_dec ms_rebates ms_dropped ms_limit ms_target ms_w]; congruence.
  - destruct (IH _ _ _ _ G) as [E1 E2]; [|subst actsx; split; [reflexivity|exact E2]].
    constructor; cbn [after_own ms_base ms_quote ms_dec ms_rebates ms_dropped ms_limit ms_target ms_w w_set_acct w_set_accts w_mkt]; congruence.
  - exfalso. destruct Go as [Go _]; [|congruence]. unfold own_trade. apply Z.eqb_refl.
  - exfalso. destruct Ho as [Ho _]; [|congruence]. unfold own_trade. apply Z.eqb_refl.
  - assert (Eq : to_fill s i (ms_quote s ÷ im_price i) = to_fill s2 i (ms_quote s2 ÷ im_price i)).
    { unfold to_fill. rewrite S1, S2. reflexivity. }
    rewrite Eq in *. set (q := to_fill s2 i (ms_quote s2 ÷ im_price i)) in *.
    apply fill_cfg in Hpf, Gpf.
    assert (E : dec = decx /\ reb = rebx).
    { destruct (own_trade tk ow i).
      - destruct (Ho eq_refl) as (_ & -> & ->), (Go eq_refl) as (_ & -> & ->). split; congruence.
      - destruct (Hno eq_refl) as (-> & x & Ex & ->), (Gno eq_refl) as (-> & y & Ey & ->).
        rewrite (rebate_cfg _ _ _ S8), (qls_eq _ _ S8), Ey in Ex. injection Ex as <-. split; congruence. }
    destruct E as [<- <-].
    destruct (IH _ _ _ _ G) as [E1 E2]; [|subst actsx; split; [reflexivity|exact E2]].
    constructor; cbn [after_fill ms_base ms_quote ms_dec ms_rebates ms_dropped ms_limit ms_target ms_w]; congruence.
Qed.
End Same.

(** ** Changes of the market that do not meet the events *)
Lemma takings_seq w : m_seq (takings w) = m_seq (w_mkt w).
Proof.
  unfold takings. generalize (w_mkt w). induction (filter (known w) (due w)) as [|e es IH]; intros m; [reflexivity|]. cbn [fold_left].
  rewrite IH. destruct e; reflexivity.
Qed.
Lemma even_seq tk w1 w2 : even tk w1 w2 -> m_seq (w_mkt w1) = m_seq (w_mkt w2).
Proof. intros H. rewrite <- !takings_seq, (ev_takings _ _ _ H). reflexivity. Qed.

Lemma steady_seq : steady (fun m => m_set_seq m (m_seq m + 1)).
Proof. split; [|reflexivity]. intros m e. destruct e; reflexivity. Qed.
Lemma steady_totals b q : steady (fun m => m_set_quote_total (m_set_base_total m (m_base_total m + b)) (m_quote_total m + q)).
Proof. split; [|reflexivity]. intros m e. destruct e; reflexivity. Qed.
Lemma steady_fees ra rb qt : steady (fun m => m_set_taker_volume_wo_oo (m_set_rebates_accrued (m_set_fees_accrued m (m_fees_accrued m + ra))
  (m_rebates_accrued m + rb)) (m_taker_volume_wo_oo m + qt)).
Proof.
  split; [|reflexivity]. intros m e. destruct e as [f|x]; [|reflexivity]. cbn [ev_mkt]. unfold filled_mkt.
  unfold fill_fee, fill_quote, maker_pays, maker_fee, qls. cbn [m_set_taker_volume_wo_oo m_set_rebates_accrued m_set_fees_accrued m_set_maker_volume
    m_fees_accrued m_rebates_accrued m_taker_volume_wo_oo m_maker_volume m_cfg].
  destruct m. unfold m_set_taker_volume_wo_oo, m_set_rebates_accrued, m_set_fees_accrued, m_set_maker_volume. cbn. f_equal; lia.
Qed.

(** ** Settling *)
Lemma settle_even o tk ow maxq acts price s1 s2 w1 w2 bt1 qt1 tf1 ra1 rq1 bt2 qt2 tf2 ra2 rq2 :
  cfg_sound (m_cfg (w_mkt (ms_w s1))) -> tk_ok tk ow -> sim s1 s2 ->
  Forall (act_fact o price tk ow) acts ->
  0 <= ms_quote s1 -> ms_quote s1 = maxq - quote_lots acts -> ms_dec s1 = sumZ (map (self_quote tk ow) acts) ->
  even tk (ms_w s1) (ms_w s2) ->
  settle_taker o tk maxq s1 = Ok (w1, bt1, qt1, tf1, ra1, rq1) ->
  settle_taker o tk maxq s2 = Ok (w2, bt2, qt2, tf2, ra2, rq2) ->
  (bt1 = bt2 /\ qt1 = qt2 /\ tf1 = tf2 /\ ra1 = ra2 /\ rq1 = rq2) /\ even tk w1 w2.
Proof.
  intros Hc Htk HS F1 Hq Eq Ed HE H1 H2.
  pose proof (settle_same o o maxq tk ow tk acts price s1 s2 w1 w2 bt1 qt1 tf1 ra1 rq1 bt2 qt2 tf2 ra2 rq2 eq_refl eq_refl Hc HS F1 Hq Eq Ed H1 H2) as HN.
  split; [exact HN|]. destruct HN as (<- & <- & <- & <- & <-).
  destruct (own_quote_bounds _ _ _ _ _ F1) as [G1 _]. destruct HS as [S1 S2 S3 S4 S5 S6 S7 S8].
  apply settle_taker_inv in H1; [|exact Hc|exact Hq|lia].
  apply settle_taker_inv in H2; [|rewrite <- S8; exact Hc|lia|lia]. cbv zeta in H1, H2.
  destruct H1 as (_ & _ & _ & _ & _ & _ & _ & _ & _ & _ & H1). destruct H2 as (_ & _ & _ & _ & _ & _ & _ & _ & _ & _ & H2).
  rewrite <- S1, <- S2 in H2. destruct ((0 <? maxq - ms_quote s1) || (0 <? o_max_base o - ms_base s1)).
  2:{ subst w1 w2. exact HE. }
  destruct H1 as (m1 & -> & H1), H2 as (m2 & -> & H2). destruct tk as [k|].
  - destruct H1 as (a & a' & m' & Ha & Hx & ->), H2 as (b & b' & n' & Hb & Hy & ->).
    destruct (ev_own _ _ _ HE k eq_refl) as [Eo _]. rewrite Ha, Hb in Eo. injection Eo as <-.
    unfold execute_taker in Hx, Hy. cbv zeta in Hx, Hy.
    apply bind_ok in Hx as (p1 & Ep & Hx). apply bind_ok in Hy as (p2 & Ep2 & Hy). rewrite Ep in Ep2. injection Ep2 as <-.
    apply bind_ok in Hx as (tv & Et & Hx). apply bind_ok in Hy as (tv2 & Et2 & Hy). rewrite Et in Et2. injection Et2 as <-.
    apply bind_ok in Hx as (rb & Er & Hx). apply bind_ok in Hy as (rb2 & Er2 & Hy). rewrite Er in Er2. injection Er2 as <-.
    apply bind_ok in Hx as (mr & Em & Hx). apply bind_ok in Hy as (mr2 & Em2 & Hy). apply chk_u64_ok in Em as [-> _]. apply chk_u64_ok in Em2 as [-> _].
    injection Hx as <- <-. injection Hy as <- <-.
    pose proof (even_set_mkt _ _ _ _ (steady_fees ra1 ra1 0) HE) as HE1. cbv beta in HE1.
    assert (G : forall m, m_set_taker_volume_wo_oo (m_set_rebates_accrued (m_set_fees_accrued m (m_fees_accrued m + ra1)) (m_rebates_accrued m + ra1)) (m_taker_volume_wo_oo m + 0) =
      m_set_rebates_accrued (m_set_fees_accrued m (m_fees_accrued m + ra1)) (m_rebates_accrued (m_set_fees_accrued m (m_fees_accrued m + ra1)) + ra1)).
    { intros m. destruct m. unfold m_set_taker_volume_wo_oo, m_set_rebates_accrued, m_set_fees_accrued, m_set_maker_volume. cbn. f_equal. lia. }
    rewrite !G in HE1. eapply even_set_own; [reflexivity| |exact HE1]. exact Ha.
  - subst w1 w2. pose proof (even_set_mkt _ _ _ _ (steady_fees ra1 0 qt1) HE) as HE1. cbv beta in HE1.
    assert (G : forall m, m_set_taker_volume_wo_oo (m_set_rebates_accrued (m_set_fees_accrued m (m_fees_accrued m + ra1)) (m_rebates_accrued m + 0)) (m_taker_volume_wo_oo m + qt1) =
      m_set_taker_volume_wo_oo (m_set_fees_accrued m (m_fees_accrued m + ra1)) (m_taker_volume_wo_oo (m_set_fees_accrued m (m_fees_accrued m + ra1)) + qt1)).
    { intros m. destruct m. unfold m_set_taker_volume_wo_oo, m_set_rebates_accrued, m_set_fees_accrued, m_set_maker_volume. cbn. f_equal. lia. }
    rewrite !G in HE1. exact HE1.
Qed.

(** ** Posting *)
Definition opt_out (s : side) (now : Z) (x : option leaf) : list event :=
  match x with Some l => [EOut (out_of s l now 0)] | None => [] end.

Lemma post_run w o tk ow rem oracle now id pl price qty target w' pb pq mf T P :
  let s := o_side o in
  fits s (w_book w s) T -> tk_ok tk ow -> cfg_sound (m_cfg (w_mkt w)) -> 0 < qty -> 1 <= price ->
  Led (w_mkt w) (w_accts w) P -> hrep (w_heap w) P -> Permutation (all_leaves T) (pleaves s P) ->
  post_order w o tk ow rem oracle now id pl price qty target = Ok (w', pb, pq, mf) ->
  tk = Some ow /\ pb = qty * bls (w_mkt w) /\ pq = qty * price * qls (w_mkt w) /\
  mf = match s with Bid => maker_locks (w_mkt w) pq | Ask => 0 end /\
  exists w1 b1 ex es1 w3 worst es2 b2 w4 a slot b3 hh old a',
    locks s w ow mf w1 /\ bs_remove_one_expired (w_book w s) target now = Ok (b1, ex) /\
    event_steps tk (w_set_book w1 s b1) es1 w3 /\ map strip es1 = opt_out s now ex /\
    (if is_full (bs_nodes b1) then exists x p, bs_remove_worst b1 now oracle = Ok (b2, Some (x, p)) /\ worst = Some x
     else b2 = b1 /\ worst = None) /\
    event_steps tk (w_set_book w3 s b2) es2 w4 /\ map strip es2 = opt_out s now worst /\
    acct_get ow (w_accts w4) = Some a /\ next_order_slot a = Ok slot /\
    bs_insert_leaf b2 target (posted_leaf o ow now id slot qty) = Ok (b3, hh, old) /\
    add_order a s target (posted_leaf o ow now id slot qty) (o_client_id o) price = Ok a' /\
    w' = w_set_acct (w_set_book w4 s b3) ow a'.
Proof.
  intros s Hfit Htk Hc Hqty Hpr HL Hh HP H. unfold post_order in H. fold s in H. cbv zeta in H. set (m := w_mkt w) in *.
  apply bind_ok in H as (cap & _ & H).
  apply bind_ok in H as (x & E & H). apply chk_i64_ok in E as [-> R1].
  apply bind_ok in H as (u1 & _ & H).
  apply bind_ok in H as (x1 & E & H). apply chk_i64_ok in E as [-> R2].
  apply bind_ok in H as (x2 & E & H). apply chk_i64_ok in E as [-> R3].
  apply bind_ok in H as (t & E & H). apply unwrap_ok in E.
  assert (Et : tk = Some ow) by (destruct Htk as [Ht|Ht]; [exact Ht|rewrite Ht in E; discriminate E]).
  rewrite Et in E. injection E as <-.
  apply bind_ok in H as ([w1 mf1] & E & H).
  pose proof (cs_qls _ Hc) as C1. change (c_qls (m_cfg m)) with (qls m) in C1.
  assert (G1 : mf1 = match s with Bid => maker_locks m (qty * price * qls m) | Ask => 0 end /\ locks s w ow mf1 w1).
  { destruct s.
    - apply bind_ok in E as (f & E1 & E). apply maker_fees_ceil_ok in E1; [|nia]. fold m in E1.
      apply bind_ok in E as (f' & E2 & E). apply chk_u64_ok in E2 as [-> _].
      apply bind_ok in E as (a & E3 & E). apply acct_load_ok in E3.
      apply bind_ok in E as (lk & E4 & E). apply chk_u64_ok in E4 as [-> R4]. injection E as <- <-.
      split; [exact E1|]. exists a. split; [exact E3|]. split; [lia|reflexivity].
    - injection E as <- <-. split; reflexivity. }
  clear E. destruct G1 as [G1 G2].
  assert (Hb1 : w_book w1 s = w_book w s).
  { unfold locks in G2. destruct s; [destruct G2 as (a & _ & _ & ->); reflexivity|subst; reflexivity]. }
  assert (Hmf : 0 <= mf1).
  { rewrite G1. destruct s; [|lia]. apply maker_locks_bounds; [exact Hc|nia]. }
  assert (HA : Led (w_mkt w1) (w_accts w1) P /\ w_heap w1 = w_heap w).
  { destruct s eqn:Es.
    - destruct (led_locks Bid w ow mf1 w1 P G2 Hmf ltac:(discriminate) HL) as (_ & B & C & _); [|split; [exact C|exact B]].
      destruct G2 as (a & Ha & _). exists a. exact Ha.
    - cbn [locks] in G2. subst w1. split; [exact HL|reflexivity]. }
  destruct HA as [HL1 Eh1].
  pose proof Hfit as [Hok Hs Hr Hl Hq]. fold s in Hok, Hs, Hr, Hfit.
  apply bind_ok in H as ([b1 expired] & E & H). rewrite Hb1 in E. pose proof E as Eexp.
  destruct (bs_remove_one_expired_spec _ _ target now Hok) as (b1' & old & T1 & E1 & Hok1 & Hs1 & Hm1).
  rewrite E1 in E. injection E as -> ->.
  pose proof (br_expire s _ _ _ _ _ Hr E1) as Hr1. clear E1.
  apply bind_ok in H as (w3 & E & H).
  assert (G3 : exists es1 P1, event_steps tk (w_set_book w1 s b1) es1 w3 /\ map strip es1 = opt_out s now expired /\
     w_book w3 s = b1 /\ Led (w_mkt w3) (w_accts w3) P1 /\ hrep (w_heap w3) P1 /\ Permutation (all_leaves T1) (pleaves s P1) /\
     (forall u l, In l (oleaves (T1 u)) -> In l (oleaves (T u)))).
  { destruct expired as [x|].
    - destruct Hm1 as (u & (Hx & Hxf & HAB) & _).
      assert (Pm : Permutation (all_leaves T) ((u, x) :: all_leaves T1)) by (apply (taken_perm u x T T1); split; auto).
      assert (Hin : In (u, x) (pleaves s P)) by (apply (Permutation_in _ HP), (Permutation_in _ (Permutation_sym Pm)); left; reflexivity).
      assert (HLa : Led (w_mkt (w_set_book w1 s b1)) (w_accts (w_set_book w1 s b1)) P) by (destruct s; exact HL1).
      assert (Hha : hrep (w_heap (w_set_book w1 s b1)) P) by (destruct s; cbn [w_set_book w_heap]; rewrite Eh1; exact Hh).
      pose proof (out_step _ _ _ _ _ now tk ow rem HLa Hha Hin w3 Htk E) as Hst.
      apply process_out_effect in E; [|exact Htk].
      destruct (drop_led _ _ _ _ u _ _ _ P E HLa Hha Hin) as (_ & P1 & HL2 & Hh2 & _ & _ & Sp & _).
      eexists [_], P1. split; [econstructor; [exact Hst|constructor]|]. split; [cbn [map]; rewrite strip_out; reflexivity|].
      split; [rewrite (step_book _ _ _ _ Hst); apply w_book_set|]. split; [exact HL2|]. split; [exact Hh2|].
      split; [apply (Permutation_cons_inv (a := (u, x))); rewrite <- Pm, HP; exact Sp|].
      intros v l Hi. apply in_all_leaves. apply in_all_leaves in Hi. apply (Permutation_in _ (Permutation_sym Pm)). right. exact Hi.
    - injection E as <-. destruct Hm1 as [Hm1 _]. exists [], P. split; [constructor|]. split; [reflexivity|].
      split; [apply w_book_set|]. split; [destruct s; exact HL1|]. split; [destruct s; cbn [w_set_book w_heap]; rewrite Eh1; exact Hh|].
      split; [rewrite (all_leaves_ext _ _ Hm1); exact HP|]. intros v l Hi. rewrite Hm1 in Hi. exact Hi. }
  clear E Hm1. destruct G3 as (es1 & P1 & X1 & X2 & Hb3 & HL3 & Hh3 & HP3 & S1).
  pose proof (fits_sub _ _ _ _ _ Hfit Hok1 Hs1 Hr1 S1) as Hfit1.
  rewrite Hb3 in H. apply bind_ok in H as (w4 & E & H).
  assert (G4 : exists worst es2 b2, (if is_full (bs_nodes b1) then exists x p, bs_remove_worst b1 now oracle = Ok (b2, Some (x, p)) /\ worst = Some x
     else b2 = b1 /\ worst = None) /\ event_steps tk (w_set_book w3 s b2) es2 w4 /\ map strip es2 = opt_out s now worst /\ w_book w4 s = b2).
  { destruct (is_full (bs_nodes b1)) eqn:Fu.
    2:{ injection E as <-. exists None, [], b1. split; [auto|]. split; [|split; [reflexivity|exact Hb3]].
        replace (w_set_book w3 s b1) with w3; [constructor|]. rewrite <- Hb3. destruct w3, s; reflexivity. }
    destruct (bs_remove_worst_spec _ _ now oracle Hok1 (ft_leaves _ _ _ Hfit1)) as (b2 & ow2 & T2 & E1 & Hok2 & Hs2 & Hm2).
    rewrite E1 in E. cbn [bind] in E.
    apply bind_ok in E as ([x p] & E3 & E). apply unwrap_ok in E3. subst ow2.
    apply bind_ok in E as (u2 & E3 & E).
    destruct Hm2 as (u & Ht & _).
    assert (Pm : Permutation (all_leaves T1) ((u, x) :: all_leaves T2)) by (exact (taken_perm u x T1 T2 Ht)).
    assert (Hin : In (u, x) (pleaves s P1)) by (apply (Permutation_in _ HP3), (Permutation_in _ (Permutation_sym Pm)); left; reflexivity).
    assert (HLa : Led (w_mkt (w_set_book w3 s b2)) (w_accts (w_set_book w3 s b2)) P1) by (destruct s; exact HL3).
    assert (Hha : hrep (w_heap (w_set_book w3 s b2)) P1) by (destruct s; exact Hh3).
    pose proof (out_step _ _ _ _ _ now tk ow rem HLa Hha Hin w4 Htk E) as Hst.
    eexists (Some x), [_], b2. split; [exists x, p; split; [exact E1|reflexivity]|].
    split; [econstructor; [exact Hst|constructor]|]. split; [cbn [map]; rewrite strip_out; reflexivity|].
    rewrite (step_book _ _ _ _ Hst). apply w_book_set. }
  clear E. destruct G4 as (worst & es2 & b2 & Y1 & Y2 & Y3 & Hb4). rewrite Hb4 in H.
  apply bind_ok in H as (a & E & H). apply acct_load_ok in E. rename E into Ea.
  apply bind_ok in H as (slot & E & H). rename E into Es.
  fold (posted_leaf o ow now id slot qty) in H. set (nl := posted_leaf o ow now id slot qty) in *.
  apply bind_ok in H as ([[b3 hh] old3] & E & H).
  apply bind_ok in H as (a' & E' & H). injection H as <- <- <- <-.
  split; [exact Et|]. split; [reflexivity|]. split; [reflexivity|]. split; [exact G1|].
  exists w1, b1, expired, es1, w3, worst, es2, b2, w4, a, slot, b3, hh, old3, a'.
  split; [exact G2|]. split; [exact Eexp|]. split; [exact X1|]. split; [exact X2|]. split; [exact Y1|]. split; [exact Y2|]. split; [exact Y3|].
  split; [exact Ea|]. split; [exact Es|]. split; [exact E|]. split; [exact E'|reflexivity].
Qed.
