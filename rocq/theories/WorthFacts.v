(** What an account is due changes by the fills of its orders only. *)
From Coq Require Import ZArith List Bool Lia ZifyBool Permutation.
From Verif Require Import Base Nodes OrderTree BookSide Heap Market OpenOrders Order Book Instructions
  BaseFacts HeapFacts SpecBook SpecFees SpecHeap HeapSpecProofs SpecOrder MatchFacts OrderFacts PlaceFacts
  SpecLedger SpecEvents Ledger LedgerOps LedgerMoves LedgerPlace LedgerOrder LedgerInv SpecSystem SystemFacts ConsumeFacts
  CancelFacts SpecExit ExitFacts DeferFacts DeferOrder SpecWorth.
Import ListNotations.
Open Scope Z_scope.

(** ** Pools of orders *)
Definition own (k : Z) (x : otree_id * leaf) : bool := lf_owner (snd x) =? k.
Definition slots (k : Z) (L : pool) : list Z := map (fun x => lf_slot (snd x)) (filter (own k) (L Bid ++ L Ask)).
Definition distinct (k : Z) (L : pool) : Prop := NoDup (slots k L).
Definition positive (L : pool) : Prop := forall s t l, In (t, l) (L s) -> 0 < lf_qty l.

Lemma in_slots k L s t l : In (t, l) (L s) -> lf_owner l = k -> In (lf_slot l) (slots k L).
Proof.
  intros H E. unfold slots. apply in_map_iff. exists (t, l). split; [reflexivity|]. apply filter_In. split; [|unfold own; cbn [snd]; lia].
  apply in_or_app. destruct s; auto.
Qed.
Lemma map_nodup_inj {A B} (f : A -> B) l x y : NoDup (map f l) -> In x l -> In y l -> f x = f y -> x = y.
Proof.
  induction l as [|z l IH]; intros Hn Hx Hy E; [destruct Hx|]. cbn [map] in Hn. inversion Hn as [|? ? N1 N2]. subst.
  destruct Hx as [->|Hx], Hy as [->|Hy]; [reflexivity| | |apply IH; assumption].
  - exfalso. apply N1. rewrite E. apply in_map. exact Hy.
  - exfalso. apply N1. rewrite <- E. apply in_map. exact Hx.
Qed.
Lemma slots_sides k L : slots k L = map (fun x => lf_slot (snd x)) (filter (own k) (L Bid)) ++ map (fun x => lf_slot (snd x)) (filter (own k) (L Ask)).
Proof. unfold slots. rewrite filter_app, map_app. reflexivity. Qed.
Lemma nodup_apart {A} (l l' : list A) : NoDup (l ++ l') -> forall x, In x l -> In x l' -> False.
Proof.
  induction l as [|y l IH]; intros Hn x H1 H2; [exact H1|]. cbn [app] in Hn. inversion Hn as [|? ? N1 N2]. subst.
  destruct H1 as [->|H1]; [apply N1, in_or_app; right; exact H2|exact (IH N2 x H1 H2)].
Qed.
Lemma nodup_left {A} (l l' : list A) : NoDup (l ++ l') -> NoDup l.
Proof.
  induction l as [|y l IH]; intros Hn; [constructor|]. cbn [app] in Hn. inversion Hn as [|? ? N1 N2]. subst. constructor; [|exact (IH N2)].
  intros H. apply N1. apply in_or_app. left. exact H.
Qed.
Lemma nodup_right {A} (l l' : list A) : NoDup (l ++ l') -> NoDup l'.
Proof. induction l as [|y l IH]; intros Hn; [exact Hn|]. cbn [app] in Hn. inversion Hn. auto. Qed.
(** Orders of [k] in the same slot are the same. *)
Lemma distinct_same k L s t l s' t' l' : distinct k L -> In (t, l) (L s) -> In (t', l') (L s') -> lf_owner l = k -> lf_owner l' = k ->
  lf_slot l = lf_slot l' -> s = s' /\ t = t' /\ l = l'.
Proof.
  intros Hd H1 H2 O1 O2 E. unfold distinct in Hd. rewrite slots_sides in Hd.
  assert (G : forall s t l, In (t, l) (L s) -> lf_owner l = k -> In (t, l) (filter (own k) (L s))).
  { intros u v x Hx Ox. apply filter_In. split; [exact Hx|]. unfold own. cbn [snd]. lia. }
  assert (Gi : forall s t l, In (t, l) (L s) -> lf_owner l = k -> In (lf_slot l) (map (fun x => lf_slot (snd x)) (filter (own k) (L s)))).
  { intros u v x Hx Ox. apply in_map_iff. exists (v, x). split; [reflexivity|apply G; assumption]. }
  assert (Hs : s = s').
  { pose proof (Gi _ _ _ H1 O1) as I1. pose proof (Gi _ _ _ H2 O2) as I2. rewrite E in I1.
    destruct s, s'; try reflexivity; exfalso; [exact (nodup_apart _ _ Hd _ I1 I2)|exact (nodup_apart _ _ Hd _ I2 I1)]. }
  subst s'. split; [reflexivity|].
  assert (Hn : NoDup (map (fun x => lf_slot (snd x)) (filter (own k) (L s)))) by (destruct s; [exact (nodup_left _ _ Hd)|exact (nodup_right _ _ Hd)]).
  pose proof (map_nodup_inj (fun x : otree_id * leaf => lf_slot (snd x)) _ (t, l) (t', l') Hn (G _ _ _ H1 O1) (G _ _ _ H2 O2) E) as X.
  injection X as -> ->. auto.
Qed.

(** ** Fills in turn *)
Lemma filled_app F F' s i : filled_lots (F ++ F') s i = filled_lots F s i + filled_lots F' s i.
Proof. unfold filled_lots. rewrite map_app. apply sumZ_app. Qed.
Lemma filled_some F s i : filled_lots F s i <> 0 -> exists f, In f F /\ fill_side f = s /\ fe_maker_slot f = i.
Proof.
  induction F as [|f F IH]; intros H; [contradiction H; reflexivity|]. unfold filled_lots in H. cbn [map] in H. rewrite sumZ_cons in H. fold (filled_lots F s i) in H.
  destruct (side_eqb (fill_side f) s && (fe_maker_slot f =? i)) eqn:E.
  - apply andb_prop in E as [E1 E2]. apply side_eqb_ok in E1. exists f. split; [left; reflexivity|]. split; [exact E1|lia].
  - destruct IH as (g & Hg & E1 & E2); [lia|]. exists g. split; [right; exact Hg|auto].
Qed.
Lemma only_fills_trans k L L1 L2 F1 F2 : distinct k L -> only_fills k L L1 F1 -> only_fills k L1 L2 F2 -> only_fills k L L2 (F1 ++ F2).
Proof.
  intros Hd [A1 A2 A3] [B1 B2 B3]. constructor.
  - intros f Hf. apply in_app_or in Hf as [Hf|Hf]; [exact (A1 f Hf)|]. destruct (B1 f Hf) as (Em & t & l1 & Hl1 & Ow & Sl & Q & Fa).
    split; [exact Em|]. destruct (A2 _ _ _ Hl1 Ow) as (l & Hl & E & _). exists t, l. rewrite E in Ow, Sl, Fa. auto.
  - intros s t l2 Hl2 Ow. destruct (B2 _ _ _ Hl2 Ow) as (l1 & Hl1 & E1 & Q1). assert (O1 : lf_owner l1 = k) by (rewrite E1 in Ow; exact Ow).
    destruct (A2 _ _ _ Hl1 O1) as (l & Hl & E & Q). exists l. split; [exact Hl|]. split; [rewrite E1, E; reflexivity|].
    assert (S1 : lf_slot l1 = lf_slot l) by (rewrite E; reflexivity). rewrite filled_app, <- S1 in *. rewrite S1 in *. lia.
  - intros s t l Hl Ow. rewrite filled_app. pose proof (A3 _ _ _ Hl Ow) as Q.
    destruct (Z.eq_dec (filled_lots F2 s (lf_slot l)) 0) as [E|E]; [lia|]. apply filled_some in E as (f & Hf & Es & Ei).
    destruct (B1 f Hf) as (_ & t1 & l1 & Hl1 & O1 & S1 & _ & _). rewrite Es in Hl1. destruct (A2 _ _ _ Hl1 O1) as (l0 & Hl0 & E0 & Q0).
    assert (S0 : lf_slot l1 = lf_slot l0) by (rewrite E0; reflexivity). assert (O0 : lf_owner l0 = k) by (rewrite E0 in O1; exact O1).
    destruct (distinct_same k L _ _ _ _ _ _ Hd Hl0 Hl O0 Ow ltac:(congruence)) as (_ & _ & ->).
    pose proof (B3 _ _ _ Hl1 O1) as Q1. rewrite S0 in Q1. lia.
Qed.
Lemma only_fills_none k L L' : positive L -> (forall s x, In x (L' s) -> lf_owner (snd x) = k -> In x (L s)) -> only_fills k L L' [].
Proof.
  intros Hp H. constructor.
  - intros f [].
  - intros s t l' Hl Ow. exists l'. split; [exact (H s (t, l') Hl Ow)|]. split; [destruct l'; reflexivity|]. unfold filled_lots. cbn. lia.
  - intros s t l Hl _. pose proof (Hp _ _ _ Hl). unfold filled_lots. cbn. lia.
Qed.
Lemma only_fills_one k L L' s t l R f : positive L -> distinct k L -> lf_owner l = k ->
  Permutation (L s) ((t, l) :: R) -> Permutation (L (invert_side s)) (L' (invert_side s)) ->
  (forall x, In x (L' s) -> In x R \/ x = (t, lf_set_qty l (lf_qty l - fe_qty f))) ->
  fill_side f = s -> fe_maker f = k -> fe_maker_slot f = lf_slot l -> 1 <= fe_qty f <= lf_qty l -> fair t l f ->
  only_fills k L L' [f].
Proof.
  intros Hp Hd Ow PL PO Hin Fs Fm Fl Fq Hf.
  assert (Hl : In (t, l) (L s)) by (apply (Permutation_in _ (Permutation_sym PL)); left; reflexivity).
  assert (One : forall u i, filled_lots [f] u i = if side_eqb s u && (lf_slot l =? i) then fe_qty f else 0).
  { intros u i. unfold filled_lots. cbn [map]. rewrite sumZ_cons, Fs, Fl. change (sumZ []) with 0. lia. }
  assert (NR : ~ In (lf_slot l) (map (fun x => lf_slot (snd x)) (filter (own k) R))).
  { unfold distinct in Hd. rewrite slots_sides in Hd.
    assert (Hn : NoDup (map (fun x => lf_slot (snd x)) (filter (own k) (L s)))) by (destruct s; [exact (nodup_left _ _ Hd)|exact (nodup_right _ _ Hd)]).
    apply (Permutation_NoDup (Permutation_map _ (perm_filter (own k) _ _ PL))) in Hn. cbn [filter] in Hn.
    assert (O : own k (t, l) = true) by (unfold own; cbn [snd]; lia). rewrite O in Hn. cbn [map] in Hn. inversion Hn. assumption. }
  constructor.
  - intros g [<-|[]]. split; [exact Fm|]. exists t, l. rewrite Fs. repeat (split; [assumption || lia|]). exact Hf.
  - intros u v l' Hl' Ol'. destruct (side_eqb s u) eqn:Eu.
    + apply side_eqb_ok in Eu as <-. destruct (Hin _ Hl') as [Hr|Hr].
      * exists l'. split; [apply (Permutation_in _ (Permutation_sym PL)); right; exact Hr|]. split; [destruct l'; reflexivity|]. rewrite One.
        destruct (Z.eqb_spec (lf_slot l) (lf_slot l')) as [E|E]; [|rewrite andb_false_r; lia]. exfalso. apply NR. rewrite E.
        apply in_map_iff. exists (v, l'). split; [reflexivity|]. apply filter_In. split; [exact Hr|unfold own; cbn [snd]; lia].
      * injection Hr as -> ->. exists l. split; [exact Hl|]. split; [reflexivity|]. rewrite One, side_eqb_refl, Z.eqb_refl. cbn [andb lf_set_qty lf_qty]. lia.
    + assert (u = invert_side s) as -> by (destruct u, s; (reflexivity || discriminate Eu)).
      exists l'. split; [apply (Permutation_in _ (Permutation_sym PO)); exact Hl'|]. split; [destruct l'; reflexivity|]. rewrite One, Eu. cbn [andb]. lia.
  - intros u v l0 Hl0 O0. rewrite One. destruct (side_eqb s u && (lf_slot l =? lf_slot l0)) eqn:E; [|pose proof (Hp _ _ _ Hl0); lia].
    apply andb_prop in E as [E1 E2]. apply Z.eqb_eq in E2.
    destruct (distinct_same k L _ _ _ _ _ _ Hd Hl Hl0 Ow O0 E2) as (_ & _ & <-). lia.
Qed.

(** ** Worth *)
Definition rest_b (k : Z) (m : market) (L : pool) : Z := sumZ (map (fun x => order_base k m Ask (snd x)) (L Ask)).
Definition rest_q (k : Z) (m : market) (L : pool) : Z := sumZ (map (fun x => order_quote k m Bid (fst x) (snd x)) (L Bid)).

Record tracked (k : Z) (w : world) (L : pool) (w' : world) (L' : pool) (F : list fill_event) : Prop := {
  tr_cfg : m_cfg (w_mkt w') = m_cfg (w_mkt w);
  tr_fills : only_fills k L L' F;
  tr_worth : forall a, fate w k = Some a -> exists a', fate w' k = Some a' /\
    p_base_free (a_pos a') + rest_b k (w_mkt w) L' = p_base_free (a_pos a) + rest_b k (w_mkt w) L + sumZ (map (fill_base (w_mkt w)) F) /\
    exists r, 0 <= r <= rounding (w_mkt w) F /\
      p_quote_free (a_pos a') + rest_q k (w_mkt w) L' =
      p_quote_free (a_pos a) + rest_q k (w_mkt w) L + sumZ (map (fill_proceeds (w_mkt w)) F) - r }.

Lemma order_base_cfg k m m' s l : m_cfg m' = m_cfg m -> order_base k m' s l = order_base k m s l.
Proof. intros E. unfold order_base. destruct (side_cfg _ _ E) as (-> & _). reflexivity. Qed.
Lemma order_quote_cfg k m m' s t l : m_cfg m' = m_cfg m -> order_quote k m' s t l = order_quote k m s t l.
Proof. intros E. unfold order_quote. destruct (side_cfg _ _ E) as (_ & Eq & _). rewrite (with_fees_cfg m m') by exact E. rewrite Eq. reflexivity. Qed.
Lemma rest_cfg k m m' L : m_cfg m' = m_cfg m -> rest_b k m' L = rest_b k m L /\ rest_q k m' L = rest_q k m L.
Proof.
  intros E. split; apply sum_ext; intros x _; [apply order_base_cfg|apply order_quote_cfg]; exact E.
Qed.
Lemma fill_base_cfg m m' f : m_cfg m' = m_cfg m -> fill_base m' f = fill_base m f.
Proof. intros E. unfold fill_base. destruct (side_cfg _ _ E) as (-> & _). reflexivity. Qed.
Lemma fill_proceeds_cfg m m' f : m_cfg m' = m_cfg m -> fill_proceeds m' f = fill_proceeds m f.
Proof. intros E. unfold fill_proceeds, fill_quote, maker_gets, maker_pays. destruct (side_cfg _ _ E) as (_ & -> & ->). reflexivity. Qed.
Lemma rounding_cfg m m' F : m_cfg m' = m_cfg m -> rounding m' F = rounding m F.
Proof. intros E. unfold rounding. destruct (side_cfg _ _ E) as (_ & _ & ->). reflexivity. Qed.
Lemma rounding_app m F F' : rounding m (F ++ F') = rounding m F + rounding m F'.
Proof. unfold rounding. destruct (0 <? maker_fee m); [|reflexivity]. rewrite filter_app, app_length. lia. Qed.

Lemma tracked_trans k w L w1 L1 w2 L2 F1 F2 : distinct k L -> tracked k w L w1 L1 F1 -> tracked k w1 L1 w2 L2 F2 -> tracked k w L w2 L2 (F1 ++ F2).
Proof.
  intros Hd [C1 O1 W1] [C2 O2 W2]. constructor.
  - congruence.
  - exact (only_fills_trans _ _ _ _ _ _ Hd O1 O2).
  - intros a Ha. destruct (W1 a Ha) as (a1 & Ha1 & B1 & r1 & R1 & Q1). destruct (W2 a1 Ha1) as (a2 & Ha2 & B2 & r2 & R2 & Q2).
    exists a2. split; [exact Ha2|]. rewrite !map_app, !sumZ_app, rounding_app.
    destruct (rest_cfg k _ _ L1 C1) as [E1 E2]. destruct (rest_cfg k _ _ L2 C1) as [E3 E4]. rewrite (rounding_cfg _ _ F2 C1) in R2.
    rewrite E1, E3, (sum_ext (fill_base (w_mkt w1)) (fill_base (w_mkt w))) in B2 by (intros f _; apply fill_base_cfg; exact C1).
    rewrite E2, E4, (sum_ext (fill_proceeds (w_mkt w1)) (fill_proceeds (w_mkt w))) in Q2 by (intros f _; apply fill_proceeds_cfg; exact C1).
    split; [lia|]. exists (r1 + r2). split; lia.
Qed.

(** Sums over the orders of [k] only. *)
Lemma order_base_own k m s x : own k x = false -> order_base k m s (snd x) = 0.
Proof. unfold own, order_base. intros ->. reflexivity. Qed.
Lemma order_quote_own k m s x : own k x = false -> order_quote k m s (fst x) (snd x) = 0.
Proof. unfold own, order_quote. intros ->. reflexivity. Qed.
Lemma sum_filter {A} (p : A -> bool) (g : A -> Z) l : (forall x, p x = false -> g x = 0) -> sumZ (map g l) = sumZ (map g (filter p l)).
Proof.
  intros H. induction l as [|x l IH]; [reflexivity|]. cbn [map filter]. rewrite sumZ_cons, IH. destruct (p x) eqn:E; [cbn [map]; rewrite sumZ_cons; reflexivity|].
  rewrite (H x E). lia.
Qed.
Lemma rest_own k m L L' : (forall s, Permutation (filter (own k) (L' s)) (filter (own k) (L s))) ->
  rest_b k m L' = rest_b k m L /\ rest_q k m L' = rest_q k m L.
Proof.
  intros H. unfold rest_b, rest_q.
  rewrite (sum_filter (own k) _ (L' Ask)), (sum_filter (own k) _ (L Ask)) by (intros x; apply order_base_own).
  rewrite (sum_filter (own k) _ (L' Bid)), (sum_filter (own k) _ (L Bid)) by (intros x; apply order_quote_own).
  split; apply sum_perm, Permutation_map, H.
Qed.
Lemma tracked_same k w L w' L' : positive L -> m_cfg (w_mkt w') = m_cfg (w_mkt w) -> fate w' k = fate w k ->
  (forall s, Permutation (filter (own k) (L' s)) (filter (own k) (L s))) -> tracked k w L w' L' [].
Proof.
  intros Hp Ec Ef HL. destruct (rest_own k (w_mkt w) L L' HL) as [E1 E2]. constructor.
  - exact Ec.
  - apply only_fills_none; [exact Hp|]. intros s x Hx Ox.
    assert (G : In x (filter (own k) (L' s))) by (apply filter_In; split; [exact Hx|unfold own; lia]).
    apply (Permutation_in _ (HL s)) in G. apply filter_In in G. apply G.
  - intros a Ha. exists a. rewrite Ef. split; [exact Ha|]. rewrite E1, E2. unfold rounding. cbn. split; [lia|]. exists 0. destruct (0 <? maker_fee (w_mkt w)); lia.
Qed.
Lemma only_fills_from k L0 L L' F : (forall s x, In x (L s) <-> In x (L0 s)) -> only_fills k L L' F -> only_fills k L0 L' F.
Proof.
  intros H [A B C]. constructor.
  - intros f Hf. destruct (A f Hf) as (E & t & l & Hl & G). split; [exact E|]. exists t, l. split; [apply H; exact Hl|exact G].
  - intros s t l' Hl' O. destruct (B s t l' Hl' O) as (l & Hl & G). exists l. split; [apply H; exact Hl|exact G].
  - intros s t l Hl. apply (C s t l). apply H. exact Hl.
Qed.
Lemma only_fills_to k L L' L0 F : (forall s x, In x (L0 s) -> In x (L' s)) -> only_fills k L L' F -> only_fills k L L0 F.
Proof. intros H [A B C]. constructor; [exact A| |exact C]. intros s t l' Hl'. apply (B s t l'). apply H. exact Hl'. Qed.
Lemma tracked_perm k w L w' L' L0 L0' F : (forall s, Permutation (L s) (L0 s)) -> (forall s, Permutation (L' s) (L0' s)) ->
  tracked k w L w' L' F -> tracked k w L0 w' L0' F.
Proof.
  intros P P' [C O W]. constructor.
  - exact C.
  - apply (only_fills_from k L0 L); [intros s x; split; apply Permutation_in; [|symmetry]; apply P|].
    apply (only_fills_to k L L'); [intros s x; apply Permutation_in; symmetry; apply P'|exact O].
  - intros a Ha. destruct (W a Ha) as (a' & Ha' & G). exists a'. split; [exact Ha'|].
    destruct (rest_own k (w_mkt w) L0 L (fun s => perm_filter _ _ _ (P s))) as [E1 E2].
    destruct (rest_own k (w_mkt w) L0' L' (fun s => perm_filter _ _ _ (P' s))) as [E3 E4]. rewrite <- E1, <- E2, <- E3, <- E4. exact G.
Qed.
