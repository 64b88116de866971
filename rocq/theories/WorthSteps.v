(** The steps of placing an order, as the account of somebody else sees them. *)
From Coq Require Import ZArith List Bool Lia ZifyBool Permutation.
From Verif Require Import Base Nodes OrderTree BookSide Heap Market OpenOrders Order Book Instructions
  BaseFacts HeapFacts SpecBook SpecFees SpecHeap HeapSpecProofs SpecOrder MatchFacts OrderFacts PlaceFacts
  SpecLedger SpecEvents Ledger LedgerOps LedgerMoves LedgerPlace LedgerOrder LedgerInv SpecSystem SystemFacts ConsumeFacts
  CancelFacts SpecExit ExitFacts DeferFacts DeferOrder SpecWorth WorthFacts.
Import ListNotations.
Open Scope Z_scope.

Definition pool_of (P : list piece) : pool := fun s => pleaves s P.

(** ** What the ledger says of the orders *)
Lemma leaf_facts m ac P s t l : Led m ac P -> In (t, l) (pleaves s P) ->
  exists lp a oo, In (PLeaf s t l lp) P /\ acct_get (lf_owner l) ac = Some a /\ order_at a (lf_slot l) = Ok oo /\ oo_side oo = s /\
    oo_locked_price oo = lp /\ (s = Bid -> lp = order_lock t l) /\ 0 < lf_qty l /\ 1 <= lp /\
    (s = Bid -> t = Fixed -> lf_peg_limit l = -1).
Proof.
  intros HL Hin. apply leaf_piece in Hin as (lp & Hp). destruct (ld_back _ _ _ HL _ Hp) as (a & Ha & Hb). destruct (Hb eq_refl) as (oo & Ho & H1 & H2 & H3 & H4 & H5).
  cbn [pc_owner pc_slot pc_side] in *. pose proof (ld_piece _ _ _ HL _ Hp) as [K1 K2 _ _ _ K6]. cbn [pc_qty pc_lp] in *.
  exists lp, a, oo. repeat (split; [assumption|]). split; [|split; [exact K1|split; [exact K2|]]].
  - intros Es. exact (piece_lock _ _ _ _ HL Hp Es).
  - intros -> ->. apply K6.
Qed.
Lemma pool_positive m ac P : Led m ac P -> positive (pool_of P).
Proof. intros HL s t l H. destruct (leaf_facts _ _ _ _ _ _ HL H) as (lp & a & oo & _ & _ & _ & _ & _ & _ & G & _). exact G. Qed.
Lemma slots_count k i P : sumZ (map (fun x => one_if (x =? i)) (slots k (pool_of P))) <= psum (in_slot k i) P.
Proof.
  unfold slots. rewrite count_filter, map_app, sumZ_app. unfold pool_of.
  induction P as [|p P IH]; [rewrite psum_nil; cbn; lia|]. rewrite psum_cons, !pleaves_cons, !map_app, !sumZ_app.
  assert (N : 0 <= in_slot k i p) by (unfold in_slot; destruct (_ && _); lia).
  destruct p as [s t l lp|o lp id|f id]; try (cbn [map app sumZ]; change (sumZ []) with 0; lia).
  change (in_slot k i (PLeaf s t l lp)) with (one_if ((lf_owner l =? k) && (lf_slot l =? i))).
  destruct s; cbn [side_eqb map]; rewrite ?sumZ_cons; change (sumZ []) with 0; cbn [snd]; change (own k (t, l)) with (lf_owner l =? k); lia.
Qed.
Lemma pool_distinct m ac P k : Led m ac P -> distinct k (pool_of P).
Proof.
  intros HL. apply count_nodup. intros i. destruct (slots k (pool_of P)) as [|x r] eqn:E; [cbn; lia|]. rewrite <- E.
  assert (Hin : In x (slots k (pool_of P))) by (rewrite E; left; reflexivity). unfold slots in Hin. apply in_map_iff in Hin as ([t l] & _ & Hin).
  apply filter_In in Hin as [Hin Ho]. unfold own in Ho. cbn [snd] in Ho. apply Z.eqb_eq in Ho.
  assert (G : exists s, In (t, l) (pleaves s P)) by (apply in_app_or in Hin as [Hin|Hin]; [exists Bid|exists Ask]; exact Hin). destruct G as (s & G).
  destruct (leaf_facts _ _ _ _ _ _ HL G) as (lp & a & oo & _ & Ha & _). rewrite Ho in Ha.
  pose proof (slots_count k i P). rewrite (ac_slots _ _ _ _ (ld_acct _ _ _ HL _ _ Ha) i) in H. unfold used in H.
  destruct (order_at a i) as [o1|]; [destruct (oo_free o1)|]; lia.
Qed.

(** ** Slots of orders are the same once the events are delivered *)
Lemma fold_slot m e : forall es a, (forall x, In x es -> ev_final x = true -> Z.to_nat (ev_slot x) <> Z.to_nat (ev_slot e)) -> ev_final e = true ->
  order_at (fold_left (ev_acct m) es a) (ev_slot e) = order_at a (ev_slot e).
Proof.
  induction es as [|x es IH]; intros a H F; [reflexivity|]. cbn [fold_left]. rewrite IH; [|intros y Hy; apply H; right; exact Hy|exact F].
  apply ev_other_slot; [|exact F]. intros Fx _. apply H; [left; reflexivity|exact Fx].
Qed.
Lemma fate_slot w k a x e : acct_get k (w_accts w) = Some a -> fate w k = Some x -> NoDup (flat_map last_key (e :: waiting w)) ->
  ev_owner e = k -> ev_final e = true -> order_at x (ev_slot e) = order_at a (ev_slot e).
Proof.
  intros Ha Hx Hn Ho Hf. unfold fate in Hx. rewrite Ha in Hx. cbn [option_map] in Hx. injection Hx as <-. apply fold_slot; [|exact Hf].
  intros y Hy Fy. unfold due in Hy. rewrite mine_strip in Hy. apply in_map_iff in Hy as (z & <- & Hz). apply mine_in in Hz as [Hz Oz].
  assert (G : ev_slot (strip z) = ev_slot z) by (destruct z; reflexivity). rewrite G. apply not_eq_sym.
  apply (keys_apart _ _ Hn z Hz); [congruence|exact Hf|destruct z; exact Fy].
Qed.
Lemma fate_acct w k x : fate w k = Some x -> exists a, acct_get k (w_accts w) = Some a.
Proof. unfold fate. destruct (acct_get k (w_accts w)) as [a|]; [eauto|discriminate]. Qed.

(** ** An order is dropped *)
Lemma drop_fate w P s t l now e w' tk : Led (w_mkt w) (w_accts w) P -> In (t, l) (pleaves s P) ->
  event_step tk w e w' -> strip e = EOut (out_of s l now 0) ->
  forall k x, fate w k = Some x -> exists x', fate w' k = Some x' /\
    p_base_free (a_pos x') = p_base_free (a_pos x) + order_base k (w_mkt w) s l /\
    p_quote_free (a_pos x') = p_quote_free (a_pos x) + order_quote k (w_mkt w) s t l.
Proof.
  intros HL Hin He Hs k x Hx. destruct (leaf_facts _ _ _ _ _ _ HL Hin) as (lp & a & oo & _ & Ha & Ho & Es & El & Elock & _).
  assert (Eo : ev_owner e = lf_owner l) by (rewrite <- strip_owner, Hs; reflexivity).
  assert (Esl : ev_slot e = lf_slot l) by (assert (G : ev_slot (strip e) = ev_slot e) by (destruct e; reflexivity); rewrite <- G, Hs; reflexivity).
  assert (Ef : ev_final e = true) by (assert (G : ev_final (strip e) = ev_final e) by (destruct e; reflexivity); rewrite <- G, Hs; reflexivity).
  rewrite (step_fate _ _ _ _ He), Eo. unfold order_base, order_quote. destruct (Z.eqb_spec (lf_owner l) k) as [Ek|Ek].
  2:{ exists x. cbn [andb]. split; [exact Hx|]. lia. }
  rewrite Hx. cbn [option_map]. rewrite Hs. eexists. split; [reflexivity|]. cbn [ev_acct out_of oe_slot oe_qty].
  assert (Hxo : order_at x (lf_slot l) = Ok oo).
  { rewrite <- Esl. rewrite Ek in Ha. rewrite (fate_slot w k a x e Ha Hx (es_keys _ _ _ _ He) ltac:(congruence) Ef), Esl. exact Ho. }
  destruct (cancelled_slots (w_mkt w) x (lf_slot l) (lf_qty l) oo Hxo) as [_ ->]. rewrite Es, El. unfold cancelled_pos, with_fees. cbv zeta.
  destruct s; cbn [andb side_eqb p_base_free p_quote_free]; [|lia]. rewrite (Elock eq_refl). lia.
Qed.
Lemma rest_cons k m L L' s t l : Permutation (L s) ((t, l) :: L' s) -> Permutation (L (invert_side s)) (L' (invert_side s)) ->
  rest_b k m L = rest_b k m L' + order_base k m s l /\ rest_q k m L = rest_q k m L' + order_quote k m s t l.
Proof.
  intros H1 H2. unfold rest_b, rest_q. destruct s; cbn [invert_side] in H2.
  - rewrite (sum_perm _ _ (Permutation_map _ H2)), (sum_perm _ _ (Permutation_map _ H1)). cbn [map]. rewrite sumZ_cons. cbn [fst snd].
    unfold order_base at 3. cbn [side_eqb]. rewrite andb_false_r. lia.
  - rewrite (sum_perm _ _ (Permutation_map _ H2)), (sum_perm _ _ (Permutation_map _ H1)). cbn [map]. rewrite sumZ_cons. cbn [fst snd].
    unfold order_quote at 3. cbn [side_eqb]. rewrite andb_false_r. lia.
Qed.
Lemma drop_tracked w P P' s t l now e w' tk k : Led (w_mkt w) (w_accts w) P ->
  Permutation (pleaves s P) ((t, l) :: pleaves s P') -> Permutation (pleaves (invert_side s) P) (pleaves (invert_side s) P') ->
  event_step tk w e w' -> strip e = EOut (out_of s l now 0) -> tracked k w (pool_of P) w' (pool_of P') [].
Proof.
  intros HL H1 H2 He Hs. assert (Hin : In (t, l) (pleaves s P)) by (apply (Permutation_in _ (Permutation_sym H1)); left; reflexivity).
  constructor.
  - exact (step_cfg _ _ _ _ He).
  - apply only_fills_none; [exact (pool_positive _ _ _ HL)|]. intros u x Hx _. unfold pool_of in *. destruct (side_eqb s u) eqn:E.
    + apply side_eqb_ok in E as <-. apply (Permutation_in _ (Permutation_sym H1)). right. exact Hx.
    + assert (u = invert_side s) as -> by (destruct u, s; (reflexivity || discriminate E)). apply (Permutation_in _ (Permutation_sym H2)). exact Hx.
  - intros x Hx. destruct (drop_fate _ _ _ _ _ _ _ _ _ HL Hin He Hs k x Hx) as (x' & Hx' & B & Q). exists x'. split; [exact Hx'|].
    destruct (rest_cons k (w_mkt w) (pool_of P) (pool_of P') s t l H1 H2) as [E1 E2]. cbn [map]. change (sumZ []) with 0.
    split; [lia|]. exists 0. unfold rounding. cbn [filter length]. destruct (0 <? maker_fee (w_mkt w)); lia.
Qed.

(** ** An order is filled *)
Lemma fee_split r q x : 0 <= r -> 0 <= x <= q ->
  fee_down r x <= fee_up r q - fee_up r (q - x) <= fee_down r x + 1.
Proof.
  intros Hr Hx. unfold fee_up, fee_down. rewrite Z.mul_sub_distr_r. set (A := q * r). set (B := x * r). clearbody A B.
  pose proof (Z.div_mod (- A) 1000000 ltac:(lia)). pose proof (Z.mod_pos_bound (- A) 1000000 ltac:(lia)).
  pose proof (Z.div_mod (- (A - B)) 1000000 ltac:(lia)). pose proof (Z.mod_pos_bound (- (A - B)) 1000000 ltac:(lia)).
  pose proof (Z.div_mod B 1000000 ltac:(lia)). pose proof (Z.mod_pos_bound B 1000000 ltac:(lia)). lia.
Qed.

Section Fill.
Variables (w : world) (P P' : list piece) (s : side) (t : otree_id) (l : leaf) (R : list (otree_id * leaf)) (f : fill_event)
  (w' : world) (tk : option Z) (k : Z).
Hypothesis Hc : cfg_sound (m_cfg (w_mkt w)).
Hypothesis HL : Led (w_mkt w) (w_accts w) P.
Hypothesis He : event_step tk w (EFill f) w'.
Hypothesis H1 : Permutation (pleaves s P) ((t, l) :: R).
Hypothesis H2 : Permutation (pleaves s P') ((if lf_qty l =? fe_qty f then [] else [(t, lf_set_qty l (lf_qty l - fe_qty f))]) ++ R).
Hypothesis H3 : Permutation (pleaves (invert_side s) P) (pleaves (invert_side s) P').
Hypothesis Fs : fill_side f = s.
Hypothesis Fm : fe_maker f = lf_owner l.
Hypothesis Fl : fe_maker_slot f = lf_slot l.
Hypothesis Fp : fe_peg_limit f = lf_peg_limit l.
Hypothesis Fq : 1 <= fe_qty f <= lf_qty l.
Hypothesis Fn : fe_taker f <> k.
Hypothesis Fa : fair t l f.

Lemma fill_lock : s = Bid -> fill_lp f = order_lock t l /\ (fill_pegged f = true \/ fill_lp f = fe_price f).
Proof using HL H1 H2 Fs Fp Fa.
  intros Es. assert (Hin : In (t, l) (pleaves s P)) by (apply (Permutation_in _ (Permutation_sym H1)); left; reflexivity).
  destruct (leaf_facts _ _ _ _ _ _ HL Hin) as (lp & a & oo & _ & _ & _ & _ & _ & El & _ & Hlp & Hfx).
  unfold fill_lp, fill_pegged. rewrite Fs, Es, Fp. cbn [side_eqb]. rewrite andb_true_r. unfold order_lock in *. destruct t.
  - rewrite (Hfx Es eq_refl). cbn [negb Z.eqb]. replace (-1 =? -1) with true by reflexivity. cbn [negb]. destruct Fa as ((op & Fa1) & _). cbn [price_is] in Fa1. auto.
  - specialize (El Es). replace (lf_peg_limit l =? -1) with false by lia. cbn [negb]. auto.
Qed.
Lemma fill_tracked : tracked k w (pool_of P) w' (pool_of P') (if lf_owner l =? k then [f] else []).
Proof using Hc HL He H1 H2 H3 Fs Fm Fl Fp Fq Fn Fa.
  pose proof fill_lock as FL.
  set (m := w_mkt w) in *.
  assert (Hin : In (t, l) (pleaves s P)) by (apply (Permutation_in _ (Permutation_sym H1)); left; reflexivity).
  destruct (leaf_facts _ _ _ _ _ _ HL Hin) as (lp & a & oo & _ & _ & _ & _ & _ & El & _ & Hlp & _).
  destruct (Z.eqb_spec (lf_owner l) k) as [Ek|Ek].
  2:{ apply tracked_same.
      - exact (pool_positive _ _ _ HL).
      - exact (step_cfg _ _ _ _ He).
      - rewrite (step_fate _ _ _ _ He). cbn [ev_owner]. rewrite Fm. destruct (Z.eqb_spec (lf_owner l) k); [contradiction|reflexivity].
      - intros u. unfold pool_of. destruct (side_eqb s u) eqn:E.
        + apply side_eqb_ok in E as <-. rewrite (perm_filter (own k) _ _ H1), (perm_filter (own k) _ _ H2). unfold own. 
          destruct (lf_qty l =? fe_qty f); cbn [app filter snd lf_set_qty lf_owner]; destruct (Z.eqb_spec (lf_owner l) k); try contradiction; reflexivity.
        + assert (u = invert_side s) as -> by (destruct u, s; (reflexivity || discriminate E)). apply perm_filter. symmetry. exact H3. }
  assert (Ns : fill_self f = false) by (unfold fill_self; rewrite Fm, Ek; destruct (Z.eqb_spec k (fe_taker f)); [congruence|reflexivity]).
  constructor.
  - exact (step_cfg _ _ _ _ He).
  - eapply only_fills_one with (R := R); [exact (pool_positive _ _ _ HL)|exact (pool_distinct _ _ _ _ HL)|exact Ek|exact H1|exact H3| |exact Fs|congruence|exact Fl|exact Fq|exact Fa].
    intros x Hx. apply (Permutation_in _ H2) in Hx. apply in_app_or in Hx as [Hx|Hx]; [|left; exact Hx].
    destruct (lf_qty l =? fe_qty f); [destruct Hx|]. destruct Hx as [<-|[]]. right. reflexivity.
  - intros x Hx. rewrite (step_fate _ _ _ _ He). cbn [ev_owner strip]. rewrite Fm, Ek, Z.eqb_refl, Hx. cbn [option_map]. eexists. split; [reflexivity|].
    cbn [ev_acct]. assert (Ep : a_pos (filled m x f) = filled_pos m (a_pos x) f) by (unfold filled; destruct (fe_maker_out f); reflexivity).
    fold m. rewrite Ep.
    set (lest := sumZ (map (fun x => order_quote k m Bid (fst x) (snd x)) (if lf_qty l =? fe_qty f then [] else [(t, lf_set_qty l (lf_qty l - fe_qty f))]))).
    assert (Eb : rest_b k m (pool_of P') = rest_b k m (pool_of P) - (if side_eqb s Ask then fe_qty f * bls m else 0)).
    { unfold rest_b, pool_of. destruct s; cbn [invert_side side_eqb] in *; [rewrite (sum_perm _ _ (Permutation_map _ H3)); lia|].
      rewrite (sum_perm _ _ (Permutation_map _ H1)), (sum_perm _ _ (Permutation_map _ H2)), map_app, sumZ_app. cbn [map]. rewrite sumZ_cons.
      unfold order_base at 1 3. cbn [side_eqb snd]. rewrite Ek, Z.eqb_refl. cbn [andb].
      destruct (Z.eqb_spec (lf_qty l) (fe_qty f)) as [E|E]; cbn [map]; rewrite ?sumZ_cons; change (sumZ []) with 0; [rewrite E; lia|].
      cbn [snd lf_set_qty lf_owner lf_qty]. rewrite Ek, Z.eqb_refl. cbn [andb]. lia. }
    assert (Eq : rest_q k m (pool_of P') = rest_q k m (pool_of P) - (if side_eqb s Bid then
       with_fees m (lf_qty l * order_lock t l * qls m) - with_fees m ((lf_qty l - fe_qty f) * order_lock t l * qls m) else 0)).
    { unfold rest_q, pool_of. destruct s; cbn [invert_side side_eqb] in *; [|rewrite (sum_perm _ _ (Permutation_map _ H3)); lia].
      rewrite (sum_perm _ _ (Permutation_map _ H1)), (sum_perm _ _ (Permutation_map _ H2)), map_app, sumZ_app. cbn [map]. rewrite sumZ_cons.
      unfold order_quote at 1 3. cbn [side_eqb fst snd]. rewrite Ek, Z.eqb_refl. cbn [andb].
      destruct (Z.eqb_spec (lf_qty l) (fe_qty f)) as [E|E]; cbn [map]; rewrite ?sumZ_cons; change (sumZ []) with 0.
      - rewrite E, Z.sub_diag, !Z.mul_0_l. replace (with_fees m 0) with 0; [lia|]. unfold with_fees, maker_locks, fee_up. destruct (0 <? maker_fee m); reflexivity.
      - cbn [fst snd lf_set_qty lf_owner lf_qty]. rewrite Ek, Z.eqb_refl. cbn [andb]. 
        replace (order_lock t (lf_set_qty l (lf_qty l - fe_qty f))) with (order_lock t l) by (destruct t; reflexivity). lia. }
    rewrite Eb, Eq. unfold filled_pos, fill_base, fill_proceeds, rounding. cbn [map filter]. rewrite !sumZ_cons. change (sumZ []) with 0. rewrite Fs. cbv zeta.
    unfold fill_rebate, fill_fee. rewrite Ns. destruct s; cbn [side_eqb p_base_free p_quote_free length].
    + split; [lia|]. destruct (FL eq_refl) as [Elp Hpg].
      assert (Efl : (if fill_pegged f then maker_pays m (fill_locked m f) else maker_pays m (fill_quote m f)) = maker_pays m (fill_locked m f)).
      { destruct Hpg as [->|E]; [reflexivity|]. unfold fill_locked. rewrite E. unfold fill_quote. destruct (fill_pegged f); reflexivity. }
      rewrite Efl. set (lkd := fill_locked m f). assert (Elk : lkd = fe_qty f * order_lock t l * qls m) by (unfold lkd, fill_locked; rewrite Elp; reflexivity).
      set (Q := lf_qty l * order_lock t l * qls m).
      replace ((lf_qty l - fe_qty f) * order_lock t l * qls m) with (Q - lkd) by (unfold Q; rewrite Elk; ring).
      assert (Hlk : 0 <= lkd <= Q).
      { specialize (El eq_refl). rewrite Elk. unfold Q. pose proof (cs_qls _ Hc) as Cq. change (1 <= qls m <= i64_max) in Cq.
        rewrite <- El. clear - Hlp Fq Cq. assert (0 <= lp * qls m) by nia. rewrite <- !Z.mul_assoc. nia. }
      unfold with_fees, maker_locks, maker_pays at 1 2 3. destruct (Z.ltb_spec 0 (maker_fee m)) as [Hf|Hf].
      * pose proof (fee_split (maker_fee m) Q lkd ltac:(lia) Hlk) as G.
        exists (fee_up (maker_fee m) Q - fee_up (maker_fee m) (Q - lkd) - fee_down (maker_fee m) lkd). split; [cbn; lia|]. unfold maker_pays. destruct (Z.ltb_spec 0 (maker_fee m)); [|lia]. lia.
      * exists 0. split; [lia|]. unfold maker_pays. destruct (Z.ltb_spec 0 (maker_fee m)); [lia|]. lia.
    + split; [lia|]. exists 0. split; [destruct (0 <? maker_fee m); cbn; lia|]. lia.
Qed.
End Fill.
