(** Placing an order from two worlds that come to the same, whichever accounts are passed along. *)
From Coq Require Import ZArith List Bool Lia ZifyBool Permutation.
From Verif Require Import Base Nodes OrderTree BookSide Heap Market OpenOrders Order Book Instructions
  BaseFacts NodesFacts HeapFacts TreeRep TreeFacts TreeOps TreeIter BookSideFacts BookSideOrder BookSpecProofs SpecBook SpecFees SpecHeap
  HeapSpecProofs FeeFacts SpecOrder MatchFacts MatchBook OrderFacts PlaceFacts OrderSpecProofs OrderClaims Steps StepFacts
  SpecLedger SpecEvents Ledger LedgerOps LedgerMoves LedgerPlace LedgerOrder LedgerInv SpecSystem SystemFacts ConsumeFacts
  TradeFacts DeferFacts.
Import ListNotations.
Open Scope Z_scope.

(** ** Single events *)
Lemma hrep_waiting w P : hrep (w_heap w) P -> (exists q, heap_ok (w_heap w) q) /\ Permutation (waiting w) (pevents P).
Proof.
  intros (L & H1 & H2). split; [exists L; exact H1|]. unfold waiting. rewrite (queue_ok _ _ H1). exact H2.
Qed.
Lemma keys_of m ac P w e : Led m ac P -> Permutation (pevents P) (e :: waiting w) -> NoDup (flat_map last_key (e :: waiting w)).
Proof. intros HL HP. apply (Permutation_NoDup (Permutation_flat_map last_key HP)). exact (led_last_keys _ _ _ HL). Qed.

Lemma cancel_cancelled m ac P e lp id a a' : Led m ac (POut e lp id :: P) -> acct_get (oe_owner e) ac = Some a ->
  ooa_cancel_order a (oe_slot e) (oe_qty e) m = Ok a' -> a' = cancelled m a (oe_slot e) (oe_qty e).
Proof.
  intros HL Ha H. destruct (led_out m ac P e lp id a HL Ha a' H) as (_ & _ & E).
  destruct (ld_back _ _ _ HL _ (or_introl eq_refl)) as (b & Hb & Hbk). cbn [pc_owner] in Hb. rewrite Ha in Hb. injection Hb as <-.
  destruct (Hbk eq_refl) as (oo & Ho & Hfr & Hsd & Hid & Hlp). cbn [pc_slot] in Ho. cbn [pc_side] in Hsd. 
  unfold cancelled. rewrite Ho. rewrite E, Hsd. cbn [pc_lp] in *. rewrite Hlp. reflexivity.
Qed.

Section Out.
Variables (w : world) (P : list piece) (s : side) (t : otree_id) (l : leaf) (now : Z) (tk : option Z) (owner : Z) (rem : list Z).
Hypothesis HL : Led (w_mkt w) (w_accts w) P.
Hypothesis Hh : hrep (w_heap w) P.
Hypothesis Hin : In (t, l) (pleaves s P).
Let e := out_of s l now (h_seq (w_heap w)).

Lemma out_pieces : (exists q, heap_ok (w_heap w) q) /\ NoDup (flat_map last_key (EOut e :: waiting w)) /\
  exists lp P0, Led (w_mkt w) (w_accts w) (POut e lp (lf_key l) :: P0).
Proof using HL Hh Hin.
  destruct (hrep_waiting _ _ Hh) as [Hq Hw]. split; [exact Hq|]. apply in_pleaves in Hin as (lp & P0 & HP).
  pose proof (led_perm _ _ _ _ HP HL) as HL0. destruct (led_drop _ _ _ _ _ _ _ now (h_seq (w_heap w)) HL0) as [HL1 _].
  split; [|exists lp, P0; exact HL1]. eapply keys_of; [exact HL1|]. cbn [pevents flat_map app]. apply perm_skip.
  rewrite Hw, (pevents_perm _ _ HP). reflexivity.
Qed.
Lemma out_now tk' a a' : acct_get (lf_owner l) (w_accts w) = Some a -> ooa_cancel_order a (lf_slot l) (lf_qty l) (w_mkt w) = Ok a' ->
  event_step tk' w (EOut e) (w_set_acct w (lf_owner l) a').
Proof using HL Hh Hin.
  intros Ha Hc. destruct out_pieces as (Hq & Hk & lp & P0 & HL1). constructor; [exact Hq|exact Hk|]. left. split; [|reflexivity].
  unfold delivered. cbn [ev_owner e out_of oe_owner oe_slot oe_qty]. rewrite Ha. f_equal.
  exact (cancel_cancelled _ _ _ _ _ _ _ _ HL1 Ha Hc).
Qed.
Lemma out_step w' : tk_ok tk owner ->
  process_out_event w tk owner rem (mkOut s (lf_slot l) now (h_seq (w_heap w)) (lf_owner l) (lf_qty l)) = Ok w' ->
  event_step tk w (EOut e) w'.
Proof using HL Hh Hin.
  intros Ht H. unfold process_out_event in H. cbn [oe_owner oe_slot oe_qty] in H.
  assert (Hrem : bind (load_remaining w tk (lf_owner l)) (fun a =>
      bind (ooa_cancel_order a (lf_slot l) (lf_qty l) (w_mkt w)) (fun a' =>
        Ok (w_set_acct w (lf_owner l) a'))) = Ok w' -> event_step tk w (EOut e) w').
  { intros G. apply bind_ok in G as (a & E & G). apply bind_ok in G as (a' & E' & G). injection G as <-.
    eapply out_now; [eapply load_remaining_ok; exact E|exact E']. }
  assert (Hpush : tk <> Some (lf_owner l) -> bind (push_back (w_heap w) (EOut (mkOut s (lf_slot l) now (h_seq (w_heap w)) (lf_owner l) (lf_qty l))))
      (fun h => Ok (w_set_heap w h)) = Ok w' -> event_step tk w (EOut e) w').
  { intros Hn G. apply bind_ok in G as (h & E & G). injection G as <-. destruct out_pieces as (Hq & Hk & _). constructor; [exact Hq|exact Hk|].
    right. exists h. split; [exact E|]. split; [reflexivity|]. intros F. contradiction (Hn F). }
  destruct tk as [k|].
  - assert (k = owner) as -> by (destruct Ht as [Ht|Ht]; congruence). destruct (Z.eqb_spec owner (lf_owner l)) as [Eo|Hn].
    + apply bind_ok in H as (a & E & H). apply acct_load_ok in E. apply bind_ok in H as (a' & E' & H). injection H as <-. rewrite Eo in *.
      eapply out_now; eassumption.
    + destruct (mem_key (lf_owner l) rem); [exact (Hrem H)|]. apply Hpush; [congruence|exact H].
  - destruct (mem_key (lf_owner l) rem); [exact (Hrem H)|]. apply Hpush; [discriminate|exact H].
Qed.
End Out.

Lemma fill_step w P o tk owner rem now i q np w' np' :
  let s := invert_side (o_side o) in let f := fill_of o owner now (m_seq (w_mkt w)) i q in
  Led (w_mkt w) (w_accts w) P -> hrep (w_heap w) P -> In (im_tree i, im_leaf i) (pleaves s P) ->
  act_known s (w_mkt w) (AFill i q) ->
  process_fill_event w tk rem np f = Ok (w', np') -> event_step tk w (EFill f) w'.
Proof.
  intros s f HL Hh Hin [K1 K2] H. destruct (K1 eq_refl) as (K3 & K4 & K5). specialize (K2 eq_refl). cbn [act_base act_quote act_item] in *.
  destruct (hrep_waiting _ _ Hh) as [Hq Hw]. apply in_pleaves in Hin as (lp & P0 & HP).
  pose proof (led_perm _ _ _ _ HP HL) as HL0.
  destruct (led_fill (w_mkt w) (w_accts w) P0 s (im_tree i) (im_leaf i) lp f HL0 eq_refl eq_refl eq_refl eq_refl eq_refl K3 K4 K5 K2) as [HL1 _].
  assert (Hk : NoDup (flat_map last_key (EFill f :: waiting w))).
  { eapply keys_of; [exact HL1|]. cbn [app pevents flat_map]. fold (pevents (left_over s (im_tree i) (im_leaf i) lp (fe_qty f) ++ P0)).
    apply perm_skip. rewrite Hw, (pevents_perm _ _ HP), pevents_app. unfold left_over. destruct (lf_qty (im_leaf i) =? fe_qty f); reflexivity. }
  unfold process_fill_event in H. destruct ((np <? FILL_EVENT_REMAINING_LIMIT) && mem_key (fe_maker f) rem).
  - apply bind_ok in H as (a & E & H). apply bind_ok in H as ([a' m'] & E' & H). injection H as <- _.
    assert (Hn : tk <> Some (fe_maker f)).
    { intros F. unfold load_remaining, is_taker in E. rewrite F, Z.eqb_refl in E. discriminate E. }
    apply load_remaining_ok in E. constructor; [exact Hq|exact Hk|]. left. split; [|intros F; contradiction (Hn F)].
    cbn [app] in HL1. destruct (led_exec _ _ _ _ _ a HL1 E a' m' E') as (_ & _ & -> & ->).
    unfold delivered. cbn [ev_owner]. rewrite E. reflexivity.
  - apply bind_ok in H as (h & E & H). injection H as <- _. constructor; [exact Hq|exact Hk|]. right. exists h. auto.
Qed.

(** ** Matching *)
Definition event_of (o : order) (owner now sq : Z) (a : act) : event :=
  match a with
  | AFill i q => EFill (fill_of o owner now sq i q)
  | ADrop i | AOwn i => EOut (out_of (invert_side (o_side o)) (im_leaf i) now 0)
  end.

Record ready (o : order) (w : world) (acts : list act) (P : list piece) : Prop := {
  rd_led : Led (w_mkt w) (w_accts w) P;
  rd_heap : hrep (w_heap w) P;
  rd_keys : NoDup (map lkey (pleaves (invert_side (o_side o)) P));
  rd_acts : NoDup (map akey acts);
  rd_in : forall a, In a acts -> In (im_tree (act_item a), im_leaf (act_item a)) (pleaves (invert_side (o_side o)) P);
  rd_known : Forall (act_known (invert_side (o_side o)) (w_mkt w)) acts }.

Lemma ready_next o tk owner rem now w a r w1 P : ready o w (a :: r) P -> effect o tk owner rem now w a w1 -> exists P1, ready o w1 r P1.
Proof.
  intros [HL Hh Hnd Hak Hin Hk] H1.
  inversion Hk as [|a0 r0 Hk1 Hk2]; subst a0 r0. cbn [map] in Hak. inversion Hak as [|x y N1 N2]; subst x y.
  set (s := invert_side (o_side o)) in *. set (t := im_tree (act_item a)) in *. set (l := im_leaf (act_item a)) in *.
  destruct (effect_led o tk owner rem now w a w1 P H1 HL Hh (Hin a (or_introl eq_refl)) Hk1)
    as (P1 & R & HL1 & Hh1 & B1 & O1 & S1 & S1' & I1). fold s t l in S1, S1'.
  pose proof (effect_rest _ _ _ _ _ _ _ _ H1) as (_ & _ & Ec & _).
  assert (NR : ~ In (t, lf_key l) (map lkey R) /\ NoDup (map lkey R)).
  { pose proof (Permutation_NoDup (Permutation_map lkey S1) Hnd) as N. cbn [map] in N. inversion N; subst. auto. }
  destruct NR as [NR1 NR2]. exists P1. constructor; try assumption.
  - apply (Permutation_NoDup (Permutation_sym (Permutation_map lkey S1'))). rewrite map_app. unfold leaf_after.
    destruct (after_act a l) as [l'|] eqn:E; [|exact NR2]. cbn [map app]. constructor; [|exact NR2].
    unfold lkey at 1. cbn [fst snd]. rewrite (after_key _ _ _ E). exact NR1.
  - intros b Hb. apply (Permutation_in _ (Permutation_sym S1')). apply in_or_app. right.
    pose proof (Hin b (or_intror Hb)) as G. apply (Permutation_in _ S1) in G. destruct G as [G|G]; [|exact G].
    exfalso. apply N1. apply in_map_iff. exists b. split; [|exact Hb]. unfold akey. injection G as G1 G2.
    unfold t in G1. unfold l in G2. rewrite <- G1, <- G2. reflexivity.
  - apply Forall_forall. intros b Hb. rewrite Forall_forall in Hk2. apply (act_cfg (w_mkt w) (w_mkt w1) s owner b Ec). apply Hk2. exact Hb.
Qed.

Lemma strip_out s l now sq : strip (EOut (out_of s l now sq)) = EOut (out_of s l now 0).
Proof. reflexivity. Qed.

Lemma trace_steps o price tk owner rem now items st acts st' lf : tk_ok tk owner ->
  ltrace o price tk owner rem now items st acts st' lf -> forall P, ready o (ms_w st) acts P ->
  exists es, event_steps tk (ms_w st) es (ms_w st') /\ map strip es = map (event_of o owner now (m_seq (w_mkt (ms_w st)))) acts.
Proof.
  intros Htk. induction 1 as [s|i r s Hd|i r s Hb V W|i r s Hb V W St|i r s acts s' lf Hb V D HT IH
    |i r s w acts s' lf Hb V D X HT IH|i r s t a a' acts s' lf Hb V W PO L Q Tk Ow ST Ld Cn HT IH
    |i r s q dec reb w np acts s' lf Hb V W PO L P0 Q Eq Hq S1 S2 X HT IH]; intros P HP.
  - exists []. split; [constructor|reflexivity].
  - exists []. split; [constructor|reflexivity].
  - exists []. split; [constructor|reflexivity].
  - exists []. split; [constructor|reflexivity].
  - exact (IH P HP).
  - assert (He : effect o tk owner rem now (ms_w s) (ADrop i) w) by (constructor; eapply process_out_effect; [exact Htk|exact X]).
    destruct (ready_next _ _ _ _ _ _ _ _ _ _ HP He) as (P1 & HP1). destruct (IH P1 HP1) as (es & E1 & E2).
    pose proof (effect_rest _ _ _ _ _ _ _ _ He) as (_ & _ & _ & Es & _). cbn [after_drop ms_w] in E1, E2.
    eexists (_ :: es). split; [econstructor; [|exact E1]|].
    + eapply out_step; [exact (rd_led _ _ _ _ HP)|exact (rd_heap _ _ _ _ HP)|exact (rd_in _ _ _ _ HP _ (or_introl eq_refl))|exact Htk|exact X].
    + cbn [map]. rewrite E2, Es, strip_out. reflexivity.
  - assert (Et : tk = Some (lf_owner (im_leaf i))) by (destruct Htk as [F|F]; congruence).
    assert (t = lf_owner (im_leaf i)) as -> by congruence. apply acct_load_ok in Ld.
    assert (He : effect o tk owner rem now (ms_w s) (AOwn i) (w_set_acct (ms_w s) (lf_owner (im_leaf i)) a')) by (econstructor; eassumption).
    destruct (ready_next _ _ _ _ _ _ _ _ _ _ HP He) as (P1 & HP1). destruct (IH P1 HP1) as (es & E1 & E2).
    cbn [after_own ms_w] in E1, E2.
    eexists (_ :: es). split; [econstructor; [|exact E1]|].
    + eapply out_now with (now := now); [exact (rd_led _ _ _ _ HP)|exact (rd_heap _ _ _ _ HP)|exact (rd_in _ _ _ _ HP _ (or_introl eq_refl))|exact Ld|exact Cn].
    + cbn [map]. rewrite E2, strip_out. reflexivity.
  - assert (He : effect o tk owner rem now (ms_w s) (AFill i q) w) by (eapply process_fill_effect; exact X).
    destruct (ready_next _ _ _ _ _ _ _ _ _ _ HP He) as (P1 & HP1). destruct (IH P1 HP1) as (es & E1 & E2).
    pose proof (effect_rest _ _ _ _ _ _ _ _ He) as (_ & _ & _ & Es & _). cbn [after_fill ms_w] in E1, E2.
    pose proof (rd_known _ _ _ _ HP) as HK. inversion HK as [|x y HK1 _]; subst x y.
    eexists (_ :: es). split; [econstructor; [|exact E1]|].
    + eapply fill_step; [exact (rd_led _ _ _ _ HP)|exact (rd_heap _ _ _ _ HP)|exact (rd_in _ _ _ _ HP _ (or_introl eq_refl))|exact HK1|exact X].
    + cbn [map]. rewrite E2, Es. reflexivity.
Qed.
