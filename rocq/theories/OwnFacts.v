(** Placing an order, as the account it is placed through sees it. *)
From Coq Require Import ZArith List Bool Lia ZifyBool Permutation.
From Verif Require Import Base Nodes OrderTree BookSide Heap Market OpenOrders Order Book Instructions
  BaseFacts NodesFacts HeapFacts TreeRep TreeFacts TreeOps TreeIter BookSideFacts BookSideOrder BookSpecProofs SpecBook SpecFees SpecHeap
  HeapSpecProofs FeeFacts SpecOrder MatchFacts MatchBook OrderFacts PlaceFacts OrderSpecProofs OrderClaims Steps StepFacts
  SpecLedger SpecEvents Ledger LedgerOps LedgerMoves LedgerPlace LedgerOrder LedgerInv SpecSystem SystemFacts ConsumeFacts
  TradeFacts SpecExit ExitFacts DeferFacts DeferOrder SpecWorth WorthFacts WorthSteps WorthRuns SpecOwn.
Import ListNotations.
Open Scope Z_scope.

(** ** Worth in numbers only *)
Record valued (k : Z) (w : world) (L : pool) (w' : world) (L' : pool) (B Q N : Z) : Prop := {
  vl_cfg : m_cfg (w_mkt w') = m_cfg (w_mkt w);
  vl_worth : forall a, fate w k = Some a -> exists a', fate w' k = Some a' /\
    p_base_free (a_pos a') + rest_b k (w_mkt w) L' = p_base_free (a_pos a) + rest_b k (w_mkt w) L + B /\
    exists r, 0 <= r <= N /\
      p_quote_free (a_pos a') + rest_q k (w_mkt w) L' = p_quote_free (a_pos a) + rest_q k (w_mkt w) L + Q - r }.

Lemma valued_trans k w L w1 L1 w2 L2 B1 Q1 N1 B2 Q2 N2 : valued k w L w1 L1 B1 Q1 N1 -> valued k w1 L1 w2 L2 B2 Q2 N2 ->
  valued k w L w2 L2 (B1 + B2) (Q1 + Q2) (N1 + N2).
Proof.
  intros [C1 W1] [C2 W2]. constructor; [congruence|].
  intros a Ha. destruct (W1 a Ha) as (a1 & Ha1 & E1 & r1 & R1 & E2). destruct (W2 a1 Ha1) as (a2 & Ha2 & E3 & r2 & R2 & E4).
  exists a2. split; [exact Ha2|].
  destruct (rest_cfg k _ _ L1 C1) as [G1 G2]. destruct (rest_cfg k _ _ L2 C1) as [G3 G4]. rewrite G1, G3 in E3. rewrite G2, G4 in E4.
  split; [lia|]. exists (r1 + r2). split; lia.
Qed.
Lemma valued_eq k w L w' L' B Q N B' Q' N' : valued k w L w' L' B Q N -> B = B' -> Q = Q' -> N = N' -> valued k w L w' L' B' Q' N'.
Proof. intros H <- <- <-. exact H. Qed.
Lemma tracked_valued k w L w' L' : tracked k w L w' L' [] -> valued k w L w' L' 0 0 0.
Proof.
  intros [C _ W]. constructor; [exact C|]. intros a Ha. destruct (W a Ha) as (a' & Ha' & E1 & r & R & E2). exists a'. split; [exact Ha'|].
  cbn [map] in E1, E2. change (sumZ []) with 0 in E1, E2. split; [lia|]. exists r. split; [|lia].
  unfold rounding in R. cbn [filter length] in R. destruct (0 <? maker_fee (w_mkt w)); lia.
Qed.
Lemma valued_perm k w L w' L' L0 L0' B Q N : (forall s, Permutation (L s) (L0 s)) -> (forall s, Permutation (L' s) (L0' s)) ->
  valued k w L w' L' B Q N -> valued k w L0 w' L0' B Q N.
Proof.
  intros P P' [C W]. constructor; [exact C|].
  intros a Ha. destruct (W a Ha) as (a' & Ha' & G). exists a'. split; [exact Ha'|].
  destruct (rest_own k (w_mkt w) L0 L (fun s => perm_filter _ _ _ (P s))) as [E1 E2].
  destruct (rest_own k (w_mkt w) L0' L' (fun s => perm_filter _ _ _ (P' s))) as [E3 E4]. rewrite <- E1, <- E2, <- E3, <- E4. exact G.
Qed.

(** ** Changes of the account while events wait *)
Lemma ev_free m e a1 a2 : order_at a1 (ev_slot e) = order_at a2 (ev_slot e) \/ is_out e = false ->
  p_base_free (a_pos (ev_acct m a2 e)) - p_base_free (a_pos (ev_acct m a1 e)) = p_base_free (a_pos a2) - p_base_free (a_pos a1) /\
  p_quote_free (a_pos (ev_acct m a2 e)) - p_quote_free (a_pos (ev_acct m a1 e)) = p_quote_free (a_pos a2) - p_quote_free (a_pos a1).
Proof.
  intros H. destruct e as [f|o]; cbn [ev_acct].
  - assert (Ep : forall a, a_pos (filled m a f) = filled_pos m (a_pos a) f) by (intros a; unfold filled; destruct (fe_maker_out f); reflexivity).
    rewrite !Ep. unfold filled_pos. cbv zeta. destruct (fill_side f); cbn [p_base_free p_quote_free]; lia.
  - cbn [ev_slot is_out] in H. destruct H as [H|H]; [|discriminate H]. unfold cancelled. rewrite H. destruct (order_at a2 (oe_slot o)) as [oo|]; [|lia].
    cbn [freed set_order_at a_set_orders a_set_pos a_pos]. unfold cancelled_pos. cbv zeta. destruct (oo_side oo); cbn [p_base_free p_quote_free]; lia.
Qed.
Lemma fold_free m : forall es a1 a2, NoDup (flat_map last_key es) -> (forall e e', In e es -> In e' es -> ev_owner e = ev_owner e') ->
  (forall e, In e es -> is_out e = true -> order_at a1 (ev_slot e) = order_at a2 (ev_slot e)) ->
  p_base_free (a_pos (fold_left (ev_acct m) es a2)) - p_base_free (a_pos (fold_left (ev_acct m) es a1)) = p_base_free (a_pos a2) - p_base_free (a_pos a1) /\
  p_quote_free (a_pos (fold_left (ev_acct m) es a2)) - p_quote_free (a_pos (fold_left (ev_acct m) es a1)) = p_quote_free (a_pos a2) - p_quote_free (a_pos a1).
Proof.
  induction es as [|e es IH]; intros a1 a2 Hn Ho Hs; cbn [fold_left]; [lia|].
  destruct (IH (ev_acct m a1 e) (ev_acct m a2 e)) as [I1 I2].
  - cbn [flat_map] in Hn. eapply nodup_app_r. exact Hn.
  - intros x y Hx Hy. apply Ho; right; assumption.
  - intros x Hx Ix. assert (Fx : ev_final x = true) by (destruct x; [discriminate Ix|reflexivity]).
    assert (Hne : ev_final e = true -> ev_final x = true -> Z.to_nat (ev_slot e) <> Z.to_nat (ev_slot x)).
    { intros F1 F2. apply (keys_apart es e Hn x Hx); [|exact F1|exact F2]. apply Ho; [right; exact Hx|left; reflexivity]. }
    rewrite !(ev_other_slot m _ e x Hne Fx). apply Hs; [right; exact Hx|exact Ix].
  - destruct (ev_free m e a1 a2) as [J1 J2]; [|lia].
    destruct (is_out e) eqn:E; [left; apply Hs; [left; reflexivity|exact E]|right; reflexivity].
Qed.
Lemma mine_keys k es : NoDup (flat_map last_key es) -> NoDup (flat_map last_key (mine k es)).
Proof.
  intros Hn. unfold mine. induction es as [|e es IH]; [constructor|]. cbn [flat_map] in Hn. cbn [filter].
  pose proof (nodup_app_r _ _ Hn) as Hr. specialize (IH Hr). destruct (ev_owner e =? k); [|exact IH].
  cbn [flat_map]. unfold last_key at 1. unfold last_key at 1 in Hn. destruct (ev_final e); [|exact IH]. cbn [app] in *. constructor; [|exact IH].
  inversion Hn as [|? ? N _]. intros G. apply N. apply in_flat_map in G as (y & Hy & G). apply filter_In in Hy as [Hy _]. apply in_flat_map. exists y. auto.
Qed.
Lemma strip_keys es : flat_map last_key (map strip es) = flat_map last_key es.
Proof. induction es as [|e es IH]; [reflexivity|]. cbn [map flat_map]. rewrite strip_key, IH. reflexivity. Qed.

Lemma fate_shift w P w' k a a' X : Led (w_mkt w) (w_accts w) P -> hrep (w_heap w) P ->
  acct_get k (w_accts w) = Some a -> acct_get k (w_accts w') = Some a' -> w_heap w' = w_heap w -> m_cfg (w_mkt w') = m_cfg (w_mkt w) ->
  (forall i oo, order_at a i = Ok oo -> oo_free oo = false -> order_at a' i = order_at a i) -> fate w k = Some X ->
  exists X', fate w' k = Some X' /\ p_base_free (a_pos X') = p_base_free (a_pos X) + (p_base_free (a_pos a') - p_base_free (a_pos a)) /\
    p_quote_free (a_pos X') = p_quote_free (a_pos X) + (p_quote_free (a_pos a') - p_quote_free (a_pos a)).
Proof.
  intros HL Hh Ha Ha' Eh Ec Hs HX. destruct (hrep_waiting _ _ Hh) as [_ HW].
  unfold fate in *. rewrite Ha in HX. rewrite Ha'. cbn [option_map] in *. injection HX as <-. eexists. split; [reflexivity|].
  rewrite (fold_acct_cfg (w_mkt w') (w_mkt w)) by exact Ec.
  assert (Ed : due w' = due w) by (unfold due, waiting, queue_of; rewrite Eh; reflexivity). rewrite Ed.
  destruct (fold_free (w_mkt w) (mine k (due w)) a a') as [F1 F2]; [| | |lia].
  - apply mine_keys. unfold due. rewrite strip_keys. apply (Permutation_NoDup (Permutation_flat_map last_key (Permutation_sym HW))). exact (led_last_keys _ _ _ HL).
  - intros e e' H1 H2. apply mine_in in H1 as [_ ->]. apply mine_in in H2 as [_ ->]. reflexivity.
  - intros e He Io. apply mine_in in He as [He Eo]. unfold due in He. apply in_map_iff in He as (x & <- & Hx).
    destruct x as [f|o]; [discriminate Io|]. cbn [strip ev_slot oe_slot]. cbn [strip ev_owner oe_owner] in Eo.
    apply (Permutation_in _ HW) in Hx. unfold pevents in Hx. apply in_flat_map in Hx as (p & Hp & Hx).
    destruct p as [s t l lp|o' lp id|f id]; [destruct Hx| |destruct Hx as [Hx|[]]; discriminate Hx]. destruct Hx as [Hx|[]]. injection Hx as ->.
    destruct (ld_back _ _ _ HL _ Hp) as (b & Hb & Hk). cbn [pc_owner] in Hb. rewrite Eo, Ha in Hb. injection Hb as <-.
    destruct (Hk eq_refl) as (oo & H1 & H2). cbn [pc_slot] in H1. symmetry. exact (Hs _ _ H1 (proj1 H2)).
Qed.

(** ** An own order is filled *)
Definition self_base (m : market) (f : fill_event) : Z := match fill_side f with Bid => fe_qty f * bls m | Ask => - (fe_qty f * bls m) end.
Definition self_quote_moved (m : market) (f : fill_event) : Z :=
  match fill_side f with Bid => - fill_quote m f | Ask => fill_quote m f end - self_fee m f.
Definition self_round (m : market) (f : fill_event) : Z := if (0 <? maker_fee m) && side_eqb (fill_side f) Bid then 1 else 0.

Section SelfFill.
Variables (w : world) (P P' : list piece) (s : side) (t : otree_id) (l : leaf) (R : list (otree_id * leaf)) (f : fill_event)
  (w' : world) (tk : option Z) (k : Z).
Hypothesis Hc : cfg_sound (m_cfg (w_mkt w)).
Hypothesis HL : Led (w_mkt w) (w_accts w) P.
Hypothesis He : event_step tk w (EFill f) w'.
Hypothesis H1 : Permutation (pleaves s P) ((t, l) :: R).
Hypothesis H2 : Permutation (pleaves s P') ((if lf_qty l =? fe_qty f then [] else [(t, lf_set_qty l (lf_qty l - fe_qty f))]) ++ R).
Hypothesis H3 : Permutation (pleaves (invert_side s) P) (pleaves (invert_side s) P').
Hypothesis Fs : fill_side f = s.
Hypothesis Fm : fe_maker f = lf_owner l.
Hypothesis Fp : fe_peg_limit f = lf_peg_limit l.
Hypothesis Fq : 1 <= fe_qty f <= lf_qty l.
Hypothesis Fn : fe_taker f = k.
Hypothesis Fa : fair t l f.

Lemma self_fill_valued : valued k w (pool_of P) w' (pool_of P')
  (if lf_owner l =? k then self_base (w_mkt w) f else 0) (if lf_owner l =? k then self_quote_moved (w_mkt w) f else 0) (if lf_owner l =? k then self_round (w_mkt w) f else 0).
Proof using Hc HL He H1 H2 H3 Fs Fm Fp Fq Fn Fa.
  pose proof (fill_lock w P P' s t l R f HL H1 H2 Fs Fp Fa) as FL.
  set (m := w_mkt w) in *.
  assert (Hin : In (t, l) (pleaves s P)) by (apply (Permutation_in _ (Permutation_sym H1)); left; reflexivity).
  destruct (leaf_facts _ _ _ _ _ _ HL Hin) as (lp & a & oo & _ & _ & _ & _ & _ & El & _ & Hlp & _).
  destruct (Z.eqb_spec (lf_owner l) k) as [Ek|Ek].
  2:{ apply tracked_valued, tracked_same.
      - exact (pool_positive _ _ _ HL).
      - exact (step_cfg _ _ _ _ He).
      - rewrite (step_fate _ _ _ _ He). cbn [ev_owner]. rewrite Fm. destruct (Z.eqb_spec (lf_owner l) k); [contradiction|reflexivity].
      - intros u. unfold pool_of. destruct (side_eqb s u) eqn:E.
        + apply side_eqb_ok in E as <-. rewrite (perm_filter (own k) _ _ H1), (perm_filter (own k) _ _ H2). unfold own. 
          destruct (lf_qty l =? fe_qty f); cbn [app filter snd lf_set_qty lf_owner]; destruct (Z.eqb_spec (lf_owner l) k); try contradiction; reflexivity.
        + assert (u = invert_side s) as -> by (destruct u, s; (reflexivity || discriminate E)). apply perm_filter. symmetry. exact H3. }
  assert (Ns : fill_self f = true) by (unfold fill_self; rewrite Fm, Ek; destruct (Z.eqb_spec k (fe_taker f)); [reflexivity|congruence]).
  constructor.
  - exact (step_cfg _ _ _ _ He).
  - intros x Hx. rewrite (step_fate _ _ _ _ He). cbn [ev_owner strip]. rewrite Fm, Ek, Z.eqb_refl, Hx. cbn [option_map]. eexists. split; [reflexivity|].
    cbn [ev_acct]. assert (Ep : a_pos (filled m x f) = filled_pos m (a_pos x) f) by (unfold filled; destruct (fe_maker_out f); reflexivity).
    fold m. rewrite Ep.
    assert (Eb : rest_b k m (pool_of P') = rest_b k m (pool_of P) - (if side_eqb s Ask then fe_qty f * bls m else 0)).
    { unfold rest_b, pool_of. destruct s; cbn [invert_side side_eqb] in *; [rewrite (sum_perm _ _ (Permutation_map _ H3)); lia|].
      rewrite (sum_perm _ _ (Permutation_map _ H1)), (sum_perm _ _ (Permutation_map _ H2)), map_app, sumZ_app. cbn [map]. rewrite sumZ_cons.
      unfold order_base at 1 3. cbn [side_eqb snd]. rewrite Ek, Z.eqb_refl. cbn [andb].
      destruct (Z.eqb_spec (lf_qty l) (fe_qty f)) as [E|E]; cbn [map]; rewrite ?sumZ_cons; change (sumZ []) with 0; [rewrite E; lia|].
      cbn [snd lf_set_qty lf_owner lf_qty]. rewrite Ek, Z.eqb_refl. cbn [andb]. lia. }
    assert (Eq : rest_q k m (pool_of P') = rest_q k m (pool_of P) - (if side_eqb s Bid then
       with_fees m (lf_qty l * order_lock t l * qls m) - with_fees m ((lf_qty l - fe_qty f) * order_lock t l * qls m) else 0)).
    { unfold rest_q, pool_of. destruct s; cbn [invert_side side_eqb] in *; [|rewrite (sum_perm _ _ (Permutation_map _ H3)); lia].
      rewrite (sum_perm _ _ (Permutation_map _ H1)), (sum_perm _ _ (Permutation_map _ H2)), map_app, sumZ_app. cbn [map]. rewrite sumZ_cons.
      unfold order_quote at 1 3. cbn [side_eqb fst snd]. rewrite Ek, Z.eqb_refl. cbn [andb].
      destruct (Z.eqb_spec (lf_qty l) (fe_qty f)) as [E|E]; cbn [map]; rewrite ?sumZ_cons; change (sumZ []) with 0.
      - rewrite E, Z.sub_diag, !Z.mul_0_l. replace (with_fees m 0) with 0; [lia|]. unfold with_fees, maker_locks, fee_up. destruct (0 <? maker_fee m); reflexivity.
      - cbn [fst snd lf_set_qty lf_owner lf_qty]. rewrite Ek, Z.eqb_refl. cbn [andb]. 
        replace (order_lock t (lf_set_qty l (lf_qty l - fe_qty f))) with (order_lock t l) by (destruct t; reflexivity). lia. }
    rewrite Eb, Eq. unfold filled_pos, self_base, self_quote_moved, self_round, self_fee. rewrite Fs. cbv zeta.
    unfold fill_rebate, fill_fee. rewrite Ns. destruct s; cbn [side_eqb p_base_free p_quote_free andb].
    + split; [lia|]. destruct (FL eq_refl) as [Elp Hpg]. rewrite andb_true_r.
      set (lkd := fill_locked m f). assert (Elk : lkd = fe_qty f * order_lock t l * qls m) by (unfold lkd, fill_locked; rewrite Elp; reflexivity).
      set (Q := lf_qty l * order_lock t l * qls m).
      replace ((lf_qty l - fe_qty f) * order_lock t l * qls m) with (Q - lkd) by (unfold Q; rewrite Elk; ring).
      assert (Hlk : 0 <= lkd <= Q).
      { specialize (El eq_refl). rewrite Elk. unfold Q. pose proof (cs_qls _ Hc) as Cq. change (1 <= qls m <= i64_max) in Cq.
        rewrite <- El. clear - Hlp Fq Cq. assert (0 <= lp * qls m) by nia. rewrite <- !Z.mul_assoc. nia. }
      assert (Efl : fill_pegged f = false -> lkd = fill_quote m f).
      { intros E. destruct Hpg as [G|G]; [congruence|]. unfold lkd, fill_locked. rewrite G. reflexivity. }
      assert (Gm : exists d, 0 <= d <= (if 0 <? maker_fee m then 1 else 0) /\ maker_locks m Q - maker_locks m (Q - lkd) = maker_pays m lkd + d).
      { unfold maker_locks, maker_pays. destruct (Z.ltb_spec 0 (maker_fee m)) as [Hf|Hf]; [|exists 0; lia].
        pose proof (fee_split (maker_fee m) Q lkd ltac:(lia) Hlk) as G.
        exists (fee_up (maker_fee m) Q - fee_up (maker_fee m) (Q - lkd) - fee_down (maker_fee m) lkd). lia. }
      destruct Gm as (d & Hd & Ed). exists d. split; [exact Hd|]. unfold with_fees.
      destruct (fill_pegged f) eqn:Epg; cbn [negb]; [lia|]. rewrite (Efl eq_refl) in *. lia.
    + split; [lia|]. exists 0. rewrite andb_false_r. split; [lia|]. lia.
Qed.
End SelfFill.

(** ** Runs of happenings *)
Definition act_self (m : market) (o : order) (owner now seq : Z) (g : market -> fill_event -> Z) (a : act) : Z :=
  match a with AFill i q => if lf_owner (im_leaf i) =? owner then g m (fill_of o owner now seq i q) else 0 | _ => 0 end.
Lemma effect_valued o tk owner rem now w a w1 P : effect o tk owner rem now w a w1 ->
  let s := invert_side (o_side o) in let t := im_tree (act_item a) in let l := im_leaf (act_item a) in
  Led (w_mkt w) (w_accts w) P -> hrep (w_heap w) P -> In (t, l) (pleaves s P) -> act_known s (w_mkt w) a -> fair_act o owner now a ->
  exists P' R, Led (w_mkt w1) (w_accts w1) P' /\ hrep (w_heap w1) P' /\
    Permutation (pleaves (o_side o) P') (pleaves (o_side o) P) /\
    Permutation (pleaves s P) ((t, l) :: R) /\ Permutation (pleaves s P') (leaf_after a t l ++ R) /\
    (forall n, ids_le n P -> ids_le n P') /\
    valued owner w (pool_of P) w1 (pool_of P') (act_self (w_mkt w) o owner now (m_seq (w_mkt w)) self_base a)
      (act_self (w_mkt w) o owner now (m_seq (w_mkt w)) self_quote_moved a) (act_self (w_mkt w) o owner now (m_seq (w_mkt w)) self_round a).
Proof.
  intros H s t l HL Hh Hin Hk Hfa.
  destruct (effect_step _ _ _ _ _ _ _ _ _ HL Hh Hin Hk H) as (e & He & Es).
  destruct (effect_led o tk owner rem now w a w1 P H HL Hh Hin Hk) as (P1 & R & HL1 & Hh1 & _ & O1 & S1 & S1' & I1). fold s t l in S1, S1'.
  exists P1, R. repeat (split; [assumption|]).
  assert (O1' : Permutation (pleaves (invert_side s) P) (pleaves (invert_side s) P1)).
  { unfold s. replace (invert_side (invert_side (o_side o))) with (o_side o) by (destruct (o_side o); reflexivity). symmetry. exact O1. }
  assert (Hdrop : strip e = EOut (out_of s l now 0) -> leaf_after a t l = [] -> valued owner w (pool_of P) w1 (pool_of P1) 0 0 0).
  { intros E0 El. rewrite El in S1'. cbn [app] in S1'. apply tracked_valued. eapply drop_tracked; [exact HL| |exact O1'|exact He|exact E0].
    rewrite S1. apply perm_skip. symmetry. exact S1'. }
  destruct a as [i q|i|i]; cbn [act_item event_of act_self] in *; [|apply Hdrop; [exact Es|reflexivity]|apply Hdrop; [exact Es|reflexivity]].
  assert (e = EFill (fill_of o owner now (m_seq (w_mkt w)) i q)) as -> by (destruct e; [exact Es|discriminate Es]).
  destruct Hk as [K1 K2]. destruct (K1 eq_refl) as (K3 & _). cbn [act_base act_item] in K3.
  eapply (self_fill_valued w P P1 s t l R (fill_of o owner now (m_seq (w_mkt w)) i q)).
  - exact (mk_cfg _ (ld_mkt _ _ _ HL)).
  - exact HL.
  - exact He.
  - exact S1.
  - rewrite S1'. unfold leaf_after. cbn [after_act fill_of fe_qty]. destruct (lf_qty l =? q); reflexivity.
  - exact O1'.
  - reflexivity.
  - reflexivity.
  - reflexivity.
  - cbn [fill_of fe_qty]. exact K3.
  - reflexivity.
  - destruct Hfa as (F1 & F2 & F3). split; [exact F1|]. split; [exact F2|exact F3].
Qed.
