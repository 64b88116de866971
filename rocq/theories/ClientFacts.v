(** The client's quote follows the matching loop. *)
From Coq Require Import ZArith List Bool Lia ZifyBool.
From Verif Require Import Base Nodes OrderTree BookSide Heap Market OpenOrders Order Book BaseFacts
  NodesFacts TreeRep TreeFacts TreeOps TreeIter BookSideFacts BookSideOrder SpecBook BookSpecProofs SpecFees SpecOrder
  MatchFacts MatchBook FeeFacts OrderFacts PlaceFacts OrderSpecProofs OrderClaims Oracle Client.
Import ListNotations.
Open Scope Z_scope.

Definition same_numbers (q q' : qstate) : Prop :=
  qs_base q' = qs_base q /\ qs_quote q' = qs_quote q /\ qs_rebates q' = qs_rebates q /\
  qs_limit q' = qs_limit q /\ qs_fills q' = qs_fills q.

Definition tally (q : qstate) : Prop :=
  0 <= qs_fills q <= 15 /\ 0 <= qs_drops q <= 5 /\ Z.of_nat (length (qs_accounts q)) = qs_fills q + qs_drops q.

(** Once the base or the quote is used up only accounts of invalid orders are added. *)
Lemma quote_loop_done m items : forall q, qs_base q = 0 \/ qs_quote q = 0 -> tally q ->
  exists q' more, quote_loop m items q = Ok q' /\ same_numbers q q' /\ qs_accounts q' = qs_accounts q ++ more /\ tally q'.
Proof.
  induction items as [|i r IH]; intros q Hq Ht; cbn [quote_loop].
  - exists q, []. rewrite app_nil_r. repeat split; try apply Ht.
  - destruct (is_valid i); cbn [negb].
    + exists q, []. rewrite app_nil_r. replace ((qs_base q =? 0) || (qs_quote q =? 0)) with true by lia.
      cbn [orb]. repeat split; try apply Ht.
    + unfold DROP_EXPIRED_ORDER_LIMIT. destruct (Z.ltb_spec (qs_drops q) 5) as [Hd|Hd].
      * edestruct (IH (mkQs (qs_base q) (qs_quote q) (qs_rebates q) (qs_limit q) (qs_fills q) (qs_drops q + 1)
                        (qs_accounts q ++ [lf_owner (im_leaf i)])) Hq) as (q' & more & E & Hs & Ea & Ht').
        { destruct Ht as (T1 & T2 & T3). unfold tally. cbn [qs_fills qs_drops qs_accounts].
          rewrite app_length. cbn [length]. lia. }
        exists q', (lf_owner (im_leaf i) :: more). split; [exact E|]. split; [exact Hs|]. split; [|exact Ht'].
        rewrite Ea. cbn [qs_accounts]. rewrite <- app_assoc. reflexivity.
      * exact (IH q Hq Ht).
Qed.

Section Follow.
Variables (o : order) (price owner : Z) (rem : list Z) (now : Z) (m : market).
Hypothesis Hcfg : cfg_sound (m_cfg m).
Hypothesis Hpost : is_post_only o = false.
Variable K : Z.
Hypothesis HK : K <= 9223372036854775807.

Definition follows (q : qstate) (s : mstate) : Prop :=
  qs_base q = ms_base s /\ qs_quote q = ms_quote s /\ qs_rebates q = ms_rebates s /\ qs_limit q = ms_limit s.

Definition in_bounds (s : mstate) : Prop :=
  0 <= ms_base s <= 9223372036854775807 /\ 0 <= ms_quote s /\ 0 <= ms_rebates s /\
  ms_rebates s + ms_quote s * qls m <= K /\ 0 <= ms_limit s <= 255.

Lemma cfg_terms m' : m_cfg m' = m_cfg m -> qls m' = qls m /\ forall a, maker_rebate_floor m' a = maker_rebate_floor m a.
Proof.
  intros E. unfold qls. rewrite E. split; [reflexivity|]. intros a. unfold maker_rebate_floor, unsigned_maker_fees_floor, maker_fee.
  rewrite E. reflexivity.
Qed.

(** How events are queued, given that every account the client collected is at hand. *)
Definition queued (s s' : mstate) : Prop :=
  h_count (w_heap (ms_w s')) - h_count (w_heap (ms_w s)) <= (ms_limit s - ms_limit s') - (ms_processed s' - ms_processed s) /\
  ms_processed s <= ms_processed s' /\ (ms_processed s' < 15 -> w_heap (ms_w s') = w_heap (ms_w s)).

Lemma in_mem_key k l : In k l -> mem_key k l = true.
Proof. intros H. apply existsb_exists. exists k. split; [exact H|apply Z.eqb_refl]. Qed.

Lemma out_queued w i w' : process_out_event w None owner rem i = Ok w' ->
  w_mkt w' = w_mkt w /\ (In (oe_owner i) rem -> w_heap w' = w_heap w).
Proof.
  unfold process_out_event. destruct (mem_key (oe_owner i) rem) eqn:M; intros H.
  - apply bind_ok in H as (a & _ & H). apply bind_ok in H as (a' & _ & H). injection H as <-. split; [reflexivity|]. reflexivity.
  - apply bind_ok in H as (h & _ & H). injection H as <-. split; [reflexivity|].
    intros Hin. rewrite (in_mem_key _ _ Hin) in M. discriminate M.
Qed.

Lemma fill_queued w np f w' np' : process_fill_event w None rem np f = Ok (w', np') -> 0 <= np <= 15 ->
  m_cfg (w_mkt w') = m_cfg (w_mkt w) /\
  (np < 15 -> In (fe_maker f) rem -> w_heap w' = w_heap w /\ np' = np + 1) /\
  (np = 15 -> h_count (w_heap w') = h_count (w_heap w) + 1 /\ np' = np).
Proof.
  unfold process_fill_event, FILL_EVENT_REMAINING_LIMIT. intros H Hnp.
  destruct (mem_key (fe_maker f) rem) eqn:M; rewrite ?andb_true_r, ?andb_false_r in H.
  - destruct (Z.ltb_spec np 15) as [L|L].
    + apply bind_ok in H as (a & _ & H). apply bind_ok in H as ([a' m'] & E & H). injection H as <- <-.
      apply execute_maker_mkt in E as (E & _ & _). split; [exact E|]. split; [intros; split; reflexivity|lia].
    + apply bind_ok in H as (h & E & H). injection H as <- <-. split; [reflexivity|]. split; [lia|].
      intros _. split; [|reflexivity]. exact (push_back_count _ _ _ E).
  - apply bind_ok in H as (h & E & H). injection H as <- <-. split; [reflexivity|].
    split; [|intros _; split; [exact (push_back_count _ _ _ E)|reflexivity]].
    intros _ Hin. rewrite (in_mem_key _ _ Hin) in M. discriminate M.
Qed.

Lemma quote_follows items s acts s' lf : ltrace o price None owner rem now items s acts s' lf ->
  items_ok items -> (forall i, In i items -> is_price_within_limit (o_side o) (im_price i) price = true) ->
  m_cfg (w_mkt (ms_w s)) = m_cfg m -> in_bounds s ->
  forall q, follows q s -> tally q ->
  exists q' more, quote_loop m items q = Ok q' /\ follows q' s' /\ in_bounds s' /\ tally q' /\
    qs_accounts q' = qs_accounts q ++ more /\
    (incl (qs_accounts q') rem -> qs_fills q = ms_processed s -> qs_drops q = ms_dropped s ->
     queued s s' /\ qs_fills q' = ms_processed s').
Proof.
  induction 1 as [s|i r s Hd|i r s Hb V W|i r s Hb V W St|i r s acts s' lf Hb V D HT IH
    |i r s w acts s' lf Hb V D Hw HT IH|i r s t a a' acts s' lf Hb V W P L Q Ht Ho Hs Ha Hc HT IH
    |i r s q0 dec reb w np acts s' lf Hb V W P L P0 Q Eq Hq Hown Hoth Hpf HT IH];
    intros Hio Hin Hm HB q F Ty; pose proof F as (F1 & F2 & F3 & F4); pose proof Ty as (T1 & T2 & T3).
  - exists q, []. rewrite app_nil_r. split; [reflexivity|]. split; [exact F|]. split; [exact HB|]. split; [exact Ty|].
    split; [reflexivity|]. intros _ E1 _. split; [|exact E1]. unfold queued. split; [lia|]. split; [lia|reflexivity].
  - destruct (quote_loop_done m (i :: r) q) as (q' & more & E & (S1 & S2 & S3 & S4 & S5) & Ea & Ty').
    { rewrite F1, F2. exact Hd. }
    { exact Ty. }
    exists q', more. split; [exact E|]. split; [unfold follows; rewrite S1, S2, S3, S4; exact F|]. split; [exact HB|].
    split; [exact Ty'|]. split; [exact Ea|]. intros _ E1 _. rewrite S5, E1. split; [|reflexivity]. unfold queued. split; [lia|]. split; [lia|reflexivity].
  - rewrite (Hin i (or_introl eq_refl)) in W. discriminate W.
  - exists q, []. rewrite app_nil_r. destruct Hb as [B1 B2]. cbn [quote_loop]. rewrite V. cbn [negb].
    replace (qs_base q =? 0) with false by lia. replace (qs_quote q =? 0) with false by lia. cbn [orb].
    destruct (Hio i (or_introl eq_refl)) as [_ Hp].
    assert (E : (if qs_limit q =? 0 then Ok q else
       bind (div_i64 (qs_quote q) (im_price i)) (fun mbq => if mbq =? 0 then Ok q else
          bind (chk_i64 (Z.min (Z.min (qs_base q) (lf_qty (im_leaf i))) mbq * im_price i)) (fun mq =>
          bind (chk_i64 (mq * qls m)) (fun qn => bind (maker_rebate_floor m (as_u64 qn)) (fun r0 =>
          bind (chk_u64 (qs_rebates q + r0)) (fun rebates =>
          bind (chk_i64 (qs_base q - Z.min (Z.min (qs_base q) (lf_qty (im_leaf i))) mbq)) (fun rb =>
          bind (chk_i64 (qs_quote q - mq)) (fun rq => bind (chk (in_range 0 u8_max) (qs_limit q - 1)) (fun lim =>
          quote_loop m r
            (if qs_fills q <? FILL_EVENT_REMAINING_LIMIT then
               mkQs rb rq rebates lim (qs_fills q + 1) (qs_drops q) (qs_accounts q ++ [lf_owner (im_leaf i)])
             else mkQs rb rq rebates lim (qs_fills q) (qs_drops q) (qs_accounts q)))))))))))
       = Ok q).
    { destruct St as [St|[St|St]]; [congruence|replace (qs_limit q =? 0) with true by lia; reflexivity|].
      destruct (qs_limit q =? 0); [reflexivity|]. unfold div_i64. replace (im_price i =? 0) with false by lia.
      rewrite F2, St, chk_i64_in by lia. reflexivity. }
    split; [exact E|]. split; [exact F|]. split; [exact HB|]. split; [exact Ty|]. split; [reflexivity|].
    intros _ E1 _. split; [|exact E1]. unfold queued. cbn [ms_w ms_stop ms_limit ms_processed]. split; [lia|]. split; [lia|reflexivity].
  - cbn [quote_loop]. rewrite V. cbn [negb]. unfold DROP_EXPIRED_ORDER_LIMIT.
    destruct (Z.ltb_spec (qs_drops q) 5) as [Hd|Hd].
    + edestruct (IH (items_ok_tl _ _ Hio) (fun j Hj => Hin j (or_intror Hj)) Hm HB
        (mkQs (qs_base q) (qs_quote q) (qs_rebates q) (qs_limit q) (qs_fills q) (qs_drops q + 1)
                        (qs_accounts q ++ [lf_owner (im_leaf i)])) F) as (q' & more & E & F' & B' & Ty' & Ea & Hh).
      { unfold tally. cbn [qs_fills qs_drops qs_accounts]. rewrite app_length. cbn [length]. lia. }
      exists q', (lf_owner (im_leaf i) :: more). split; [exact E|]. split; [exact F'|]. split; [exact B'|]. split; [exact Ty'|].
      split; [rewrite Ea; cbn [qs_accounts]; rewrite <- app_assoc; reflexivity|]. intros _ _ E2. lia.
    + exact (IH (items_ok_tl _ _ Hio) (fun j Hj => Hin j (or_intror Hj)) Hm HB q F Ty).
  - cbn [quote_loop]. rewrite V. cbn [negb]. unfold DROP_EXPIRED_ORDER_LIMIT.
    destruct (out_queued _ _ _ Hw) as [Hw1 Hw2].
    destruct (Z.ltb_spec (qs_drops q) 5) as [Hd|Hd].
    + edestruct (IH (items_ok_tl _ _ Hio) (fun j Hj => Hin j (or_intror Hj)) ltac:(cbn [after_drop ms_w]; rewrite Hw1; exact Hm) HB
        (mkQs (qs_base q) (qs_quote q) (qs_rebates q) (qs_limit q) (qs_fills q) (qs_drops q + 1)
                        (qs_accounts q ++ [lf_owner (im_leaf i)])) F) as (q' & more & E & F' & B' & Ty' & Ea & Hh).
      { unfold tally. cbn [qs_fills qs_drops qs_accounts]. rewrite app_length. cbn [length]. lia. }
      exists q', (lf_owner (im_leaf i) :: more). split; [exact E|]. split; [exact F'|]. split; [exact B'|]. split; [exact Ty'|].
      split; [rewrite Ea; cbn [qs_accounts]; rewrite <- app_assoc; reflexivity|]. intros Hi E1 E2.
      destruct Hh as [Hh1 Hh2]; [exact Hi|exact E1|cbn [qs_drops after_drop ms_dropped]; lia|].
      split; [|exact Hh2]. unfold queued in *. cbn [after_drop ms_w ms_limit ms_processed] in Hh1.
      rewrite Hw2 in Hh1; [exact Hh1|]. apply Hi. rewrite Ea. cbn [qs_accounts drop_event oe_owner].
      apply in_or_app. left. apply in_or_app. right. left. reflexivity.
    + destruct (IH (items_ok_tl _ _ Hio) (fun j Hj => Hin j (or_intror Hj)) ltac:(cbn [after_drop ms_w]; rewrite Hw1; exact Hm) HB q F Ty)
        as (q' & more & E & F' & B' & Ty' & Ea & Hh).
      exists q', more. split; [exact E|]. split; [exact F'|]. split; [exact B'|]. split; [exact Ty'|]. split; [exact Ea|]. intros; lia.
  - discriminate Ht.
  - destruct Hb as [B1 B2]. pose proof HB as (Bb & Bq & Br & Brq & Bl).
    destruct (Hio i (or_introl eq_refl)) as [Hqty Hpr].
    destruct (fill_q s i (proj1 Bb) Bq (conj B1 B2) Hqty Hpr Q) as (Q1 & Q2 & Q3 & _). rewrite <- Eq in Q1, Q2, Q3.
    destruct (Hoth eq_refl) as (_ & x & Ex & Er). destruct (cfg_terms _ Hm) as [Eqls Emr]. rewrite Emr, Eqls in Ex.
    assert (Hl1 : 1 <= qls m) by (exact (proj1 (cs_qls _ Hcfg))).
    assert (N1 : 0 <= q0 * im_price i * qls m <= ms_quote s * qls m) by nia.
    rewrite as_u64_id in Ex by lia. pose proof (maker_rebate_floor_ok _ _ _ (proj1 N1) Ex) as Ex'.
    pose proof (maker_gets_bounds m _ Hcfg (proj1 N1)) as Bx. rewrite <- Ex' in Bx.
    cbn [quote_loop]. rewrite V. cbn [negb].
    replace (qs_base q =? 0) with false by lia. replace (qs_quote q =? 0) with false by lia. replace (qs_limit q =? 0) with false by lia. cbn [orb].
    destruct (quot_pos _ _ Bq Hpr Q) as [Q4 Q5].
    assert (N2 : ms_quote s <= ms_quote s * qls m) by nia.
    assert (N3 : Z.quot (ms_quote s) (im_price i) <= ms_quote s) by nia.
    unfold div_i64. replace (im_price i =? 0) with false by lia. rewrite F2, chk_i64_in by lia. cbn [bind].
    replace (Z.quot (ms_quote s) (im_price i) =? 0) with false by lia.
    rewrite F1. fold (to_fill s i (Z.quot (ms_quote s) (im_price i))). rewrite <- Eq.
    rewrite chk_i64_in by lia. cbn [bind]. rewrite chk_i64_in by lia. cbn [bind]. rewrite as_u64_id by lia. rewrite Ex. cbn [bind].
    rewrite F3, chk_u64_in by lia. cbn [bind]. rewrite chk_i64_in by lia. cbn [bind]. rewrite chk_i64_in by lia. cbn [bind].
    unfold chk. replace (in_range 0 u8_max (qs_limit q - 1)) with true by (unfold in_range, u8_max; lia). cbn [bind].
    unfold FILL_EVENT_REMAINING_LIMIT.
    set (q1 := if qs_fills q <? 15 then _ else _).
    assert (F' : follows q1 (after_fill i q0 dec reb w np s)).
    { unfold q1, follows. destruct (qs_fills q <? 15); cbn [qs_base qs_quote qs_rebates qs_limit after_fill ms_base ms_quote ms_rebates ms_limit];
        (split; [reflexivity|]; split; [reflexivity|]; split; [rewrite Er; reflexivity|lia]). }
    assert (Ty1 : tally q1).
    { unfold q1, tally. destruct (Z.ltb_spec (qs_fills q) 15); cbn [qs_fills qs_drops qs_accounts]; [|lia].
      rewrite app_length. cbn [length]. lia. }
    assert (HB' : in_bounds (after_fill i q0 dec reb w np s)).
    { unfold in_bounds. cbn [after_fill ms_base ms_quote ms_rebates ms_limit].
      rewrite Er. split; [lia|]. split; [lia|]. split; [lia|]. split; [nia|lia]. }
    assert (Hm' : m_cfg (w_mkt (ms_w (after_fill i q0 dec reb w np s))) = m_cfg m).
    { cbn [after_fill ms_w]. rewrite <- Hm. clear - Hpf. unfold process_fill_event in Hpf.
      destruct (_ && _).
      - apply bind_ok in Hpf as (a & _ & H). apply bind_ok in H as ([a' m'] & E & H). injection H as <- <-.
        apply execute_maker_mkt in E as (E & _ & _). exact E.
      - apply bind_ok in Hpf as (h & E & H). injection H as <- <-. reflexivity. }
    destruct (IH (items_ok_tl _ _ Hio) (fun j Hj => Hin j (or_intror Hj)) Hm' HB' q1 F' Ty1)
      as (q' & more & E & Ff & Bf & Tf & Ea & Hh).
    assert (Eacc : exists m1, qs_accounts q1 = qs_accounts q ++ m1 /\ (qs_fills q < 15 -> m1 = [lf_owner (im_leaf i)])).
    { unfold q1. destruct (Z.ltb_spec (qs_fills q) 15); cbn [qs_accounts].
      - eexists. split; [reflexivity|reflexivity].
      - exists []. rewrite app_nil_r. split; [reflexivity|lia]. }
    destruct Eacc as (m1 & Eacc & Em1).
    exists q', (m1 ++ more). split; [exact E|]. split; [exact Ff|]. split; [exact Bf|]. split; [exact Tf|].
    split; [rewrite Ea, Eacc, app_assoc; reflexivity|]. intros Hi E1 E2.
    destruct (fill_queued _ _ _ _ _ Hpf ltac:(lia)) as (_ & G1 & G2). cbn [fe_maker fill_of] in G1.
    destruct (Z.ltb_spec (qs_fills q) 15) as [L15|L15].
    + destruct G1 as [G1 G3]; [lia| |].
      { apply Hi. rewrite Ea, Eacc, (Em1 L15). apply in_or_app. left. apply in_or_app. right. left. reflexivity. }
      destruct Hh as [(H1 & Hmono & H2) H3]; [exact Hi| | |].
      { cbn [q1 qs_fills after_fill ms_processed]. lia. }
      { exact E2. }
      split; [|exact H3]. unfold queued. cbn [after_fill ms_w ms_limit ms_processed] in H1, H2, Hmono. rewrite G1 in H1, H2. split; [lia|]. split; [lia|exact H2].
    + destruct G2 as [G1' G3]; [lia|].
      destruct Hh as [(H1 & Hmono & H2) H3]; [exact Hi| | |].
      { cbn [q1 qs_fills after_fill ms_processed]. lia. }
      { exact E2. }
      split; [|exact H3]. unfold queued. cbn [after_fill ms_w ms_limit ms_processed] in H1, H2, Hmono. split; [lia|]. split; [lia|]. intros Hlt. lia.
Qed.
End Follow.
