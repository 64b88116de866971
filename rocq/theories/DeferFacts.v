(** Applying an event at once or leaving it in the queue comes to the same in the end. *)
From Coq Require Import ZArith List Bool Lia ZifyBool Permutation.
From Verif Require Import Base Nodes OrderTree BookSide Heap Market OpenOrders Order Book Instructions
  BaseFacts HeapFacts SpecBook SpecFees SpecHeap HeapSpecProofs FeeFacts SpecOrder MatchFacts MatchBook PlaceFacts Steps StepFacts
  SpecLedger SpecEvents Ledger LedgerOps LedgerMoves LedgerPlace LedgerOrder LedgerInv SpecSystem SystemFacts ConsumeFacts.
Import ListNotations.
Open Scope Z_scope.

(** ** What is coming to an account *)
(** An event without its number in the queue. *)
Definition strip (e : event) : event :=
  match e with
  | EFill f => EFill f
  | EOut o => EOut (mkOut (oe_side o) (oe_slot o) (oe_ts o) 0 (oe_owner o) (oe_qty o))
  end.
Definition mine (k : Z) (es : list event) : list event := filter (fun e => ev_owner e =? k) es.
Definition due (w : world) : list event := map strip (waiting w).
Definition known (w : world) (e : event) : bool :=
  match acct_get (ev_owner e) (w_accts w) with Some _ => true | None => false end.
(** Account [k] and the market once everything waiting has been delivered. *)
Definition fate (w : world) (k : Z) : option ooa :=
  option_map (fun a => fold_left (ev_acct (w_mkt w)) (mine k (due w)) a) (acct_get k (w_accts w)).
Definition takings (w : world) : market := fold_left ev_mkt (filter (known w) (due w)) (w_mkt w).

Lemma strip_owner e : ev_owner (strip e) = ev_owner e.
Proof. destruct e; reflexivity. Qed.
Lemma strip_acct m a e : ev_acct m a (strip e) = ev_acct m a e.
Proof. destruct e; reflexivity. Qed.
Lemma strip_mkt m e : ev_mkt m (strip e) = ev_mkt m e.
Proof. destruct e; reflexivity. Qed.
Lemma strip_key e : last_key (strip e) = last_key e.
Proof. destruct e; reflexivity. Qed.
Lemma strip_known w e : known w (strip e) = known w e.
Proof. unfold known. rewrite strip_owner. reflexivity. Qed.

Lemma ev_acct_cfg m m' a e : m_cfg m = m_cfg m' -> ev_acct m a e = ev_acct m' a e.
Proof.
  intros E. destruct e as [f|o]; cbn [ev_acct].
  - unfold filled, filled_pos, fill_rebate, fill_fee, fill_locked, fill_quote, maker_pays, maker_gets, maker_fee, qls, bls. rewrite E. reflexivity.
  - unfold cancelled, cancelled_pos, maker_locks, maker_fee, qls, bls. rewrite E. reflexivity.
Qed.
Lemma fold_acct_cfg m m' es : m_cfg m = m_cfg m' -> forall a, fold_left (ev_acct m) es a = fold_left (ev_acct m') es a.
Proof. intros E. induction es as [|e es IH]; intros a; [reflexivity|]. cbn [fold_left]. rewrite (ev_acct_cfg m m' a e E). apply IH. Qed.
Lemma ev_mkt_cfg m e : m_cfg (ev_mkt m e) = m_cfg m.
Proof. destruct e; reflexivity. Qed.
Lemma fold_mkt_cfg es : forall m, m_cfg (fold_left ev_mkt es m) = m_cfg m.
Proof. induction es as [|e es IH]; intros m; [reflexivity|]. cbn [fold_left]. rewrite IH. apply ev_mkt_cfg. Qed.

Lemma fold_mkt_swap es : forall m e, fold_left ev_mkt es (ev_mkt m e) = ev_mkt (fold_left ev_mkt es m) e.
Proof. induction es as [|x es IH]; intros m e; [reflexivity|]. cbn [fold_left]. rewrite ev_mkt_swap. apply IH. Qed.
Lemma fold_acct_swap m es e : forall a,
  (forall x, In x es -> ev_final e = true -> ev_final x = true -> Z.to_nat (ev_slot e) <> Z.to_nat (ev_slot x)) ->
  fold_left (ev_acct m) es (ev_acct m a e) = ev_acct m (fold_left (ev_acct m) es a) e.
Proof.
  induction es as [|x es IH]; intros a H; [reflexivity|]. cbn [fold_left]. rewrite (ev_acct_swap m a e x) by (apply H; left; reflexivity).
  apply IH. intros y Hy. apply H. right. exact Hy.
Qed.

(** ** Delivering everything *)
Lemma delivered_known w e x : known (delivered w e) x = known w x.
Proof.
  unfold known. rewrite delivered_alt. destruct (acct_get (ev_owner e) (w_accts w)) as [a|] eqn:E; [|reflexivity].
  cbn [w_set_acct w_set_accts w_accts w_set_mkt]. destruct (Z.eq_dec (ev_owner x) (ev_owner e)) as [->|Hn].
  - rewrite (get_set_same _ _ _ _ E), E. reflexivity.
  - rewrite get_set_other by exact Hn. reflexivity.
Qed.
Lemma delivered_get w e k : acct_get k (w_accts (delivered w e)) =
  if ev_owner e =? k then option_map (fun a => ev_acct (w_mkt w) a e) (acct_get k (w_accts w)) else acct_get k (w_accts w).
Proof.
  rewrite delivered_alt. destruct (Z.eqb_spec (ev_owner e) k) as [Ek|Hn].
  - rewrite Ek. destruct (acct_get k (w_accts w)) as [a|] eqn:E; [|exact E]. cbn [w_set_acct w_set_accts w_accts w_set_mkt].
    rewrite (get_set_same _ _ _ _ E). reflexivity.
  - destruct (acct_get (ev_owner e) (w_accts w)) as [a|] eqn:E; [|reflexivity]. cbn [w_set_acct w_set_accts w_accts w_set_mkt].
    apply get_set_other. congruence.
Qed.
Lemma delivered_mkt w e : w_mkt (delivered w e) = if known w e then ev_mkt (w_mkt w) e else w_mkt w.
Proof. rewrite delivered_alt. unfold known. destruct (acct_get (ev_owner e) (w_accts w)); reflexivity. Qed.
Lemma delivered_book w e s : w_book (delivered w e) s = w_book w s.
Proof. rewrite delivered_alt. destruct (acct_get (ev_owner e) (w_accts w)); [|reflexivity]. destruct s; reflexivity. Qed.
Lemma delivered_waiting w e : waiting (delivered w e) = waiting w.
Proof. rewrite delivered_alt. unfold waiting, queue_of. destruct (acct_get (ev_owner e) (w_accts w)); reflexivity. Qed.

Lemma deliver_get es : forall w k, acct_get k (w_accts (deliver w es)) =
  option_map (fun a => fold_left (ev_acct (w_mkt w)) (mine k es) a) (acct_get k (w_accts w)).
Proof.
  induction es as [|e es IH]; intros w k; [cbn [mine filter fold_left]; unfold deliver; cbn [fold_left]; destruct (acct_get k (w_accts w)); reflexivity|].
  rewrite deliver_cons, IH, delivered_get. cbn [mine filter]. fold (mine k es).
  assert (E : forall a, fold_left (ev_acct (w_mkt (delivered w e))) (mine k es) a = fold_left (ev_acct (w_mkt w)) (mine k es) a).
  { intros a. apply fold_acct_cfg. apply delivered_cfg. }
  destruct (ev_owner e =? k); destruct (acct_get k (w_accts w)); cbn [option_map fold_left]; rewrite ?E; reflexivity.
Qed.
Lemma deliver_mkt es : forall w, w_mkt (deliver w es) = fold_left ev_mkt (filter (known w) es) (w_mkt w).
Proof.
  induction es as [|e es IH]; intros w; [reflexivity|]. rewrite deliver_cons, IH, delivered_mkt. cbn [filter].
  rewrite (filter_ext _ _ (delivered_known w e)). destruct (known w e); reflexivity.
Qed.
Lemma deliver_book es : forall w s, w_book (deliver w es) s = w_book w s.
Proof. induction es as [|e es IH]; intros w s; [reflexivity|]. rewrite deliver_cons, IH. apply delivered_book. Qed.

Lemma mine_strip k es : mine k (map strip es) = map strip (mine k es).
Proof.
  induction es as [|e es IH]; [reflexivity|]. unfold mine in *. cbn [map filter]. rewrite strip_owner, IH.
  destruct (ev_owner e =? k); reflexivity.
Qed.
Lemma fold_strip m es : forall a, fold_left (ev_acct m) (map strip es) a = fold_left (ev_acct m) es a.
Proof. induction es as [|e es IH]; intros a; [reflexivity|]. cbn [map fold_left]. rewrite strip_acct. apply IH. Qed.
Lemma fold_strip_mkt es : forall m, fold_left ev_mkt (map strip es) m = fold_left ev_mkt es m.
Proof. induction es as [|e es IH]; intros a; [reflexivity|]. cbn [map fold_left]. rewrite strip_mkt. apply IH. Qed.
Lemma known_strip w es : filter (known w) (map strip es) = map strip (filter (known w) es).
Proof. induction es as [|e es IH]; [reflexivity|]. cbn [map filter]. rewrite strip_known, IH. destruct (known w e); reflexivity. Qed.

Lemma fate_deliver w k : fate w k = acct_get k (w_accts (deliver w (waiting w))).
Proof. rewrite deliver_get. unfold fate, due. rewrite mine_strip. destruct (acct_get k (w_accts w)); cbn [option_map]; rewrite ?fold_strip; reflexivity. Qed.
Lemma takings_deliver w : takings w = w_mkt (deliver w (waiting w)).
Proof. rewrite deliver_mkt. unfold takings, due. rewrite known_strip. apply fold_strip_mkt. Qed.

(** ** One event *)
(** It is applied at once or joins the queue; removals of [tk]'s orders are applied at once and
    fills of them are not. *)
Definition is_out (e : event) : bool := match e with EOut _ => true | EFill _ => false end.
Record event_step (tk : option Z) (w : world) (e : event) (w' : world) : Prop := {
  es_heap : exists q, heap_ok (w_heap w) q;
  es_keys : NoDup (flat_map last_key (e :: waiting w));
  es_how : (w' = delivered w e /\ (tk = Some (ev_owner e) -> is_out e = true)) \/
           (exists h, push_back (w_heap w) e = Ok h /\ w' = w_set_heap w h /\ (tk = Some (ev_owner e) -> is_out e = false)) }.

Lemma push_waiting w e h q : heap_ok (w_heap w) q -> push_back (w_heap w) e = Ok h -> waiting (w_set_heap w h) = waiting w ++ [e].
Proof.
  intros (F & Hr) Hp. destruct (push_back_rep _ _ _ _ _ Hr Hp) as (s & F' & _ & _ & Hr' & _).
  unfold waiting. rewrite (queue_ok w q) by (exists F; exact Hr). rewrite (queue_ok (w_set_heap w h) (q ++ [(e, s)])) by (exists F'; exact Hr').
  rewrite map_app. reflexivity.
Qed.
Lemma push_due w e h q : heap_ok (w_heap w) q -> push_back (w_heap w) e = Ok h -> due (w_set_heap w h) = due w ++ [strip e].
Proof. intros Hq Hp. unfold due. rewrite (push_waiting _ _ _ _ Hq Hp), map_app. reflexivity. Qed.

Lemma keys_apart es e : NoDup (flat_map last_key (e :: es)) ->
  forall x, In x es -> ev_owner x = ev_owner e -> ev_final e = true -> ev_final x = true -> Z.to_nat (ev_slot e) <> Z.to_nat (ev_slot x).
Proof.
  intros Hnd x Hx Eo F1 F2 Es. cbn [flat_map] in Hnd. unfold last_key at 1 in Hnd. rewrite F1 in Hnd. cbn [app] in Hnd.
  inversion Hnd as [|? ? N _]. apply N. apply in_flat_map. exists x. split; [exact Hx|]. unfold last_key. rewrite F2, Eo, Es. left. reflexivity.
Qed.
Lemma mine_in k es x : In x (mine k es) -> In x es /\ ev_owner x = k.
Proof. intros H. apply filter_In in H as [H E]. split; [exact H|]. apply Z.eqb_eq. exact E. Qed.

Section Step.
Variables (tk : option Z) (w : world) (e : event) (w' : world).
Hypothesis H : event_step tk w e w'.

Lemma step_book s : w_book w' s = w_book w s.
Proof using H. destruct (es_how _ _ _ _ H) as [[-> _]|(h & _ & -> & _)]; [apply delivered_book|destruct s; reflexivity]. Qed.
Lemma step_known x : known w' x = known w x.
Proof using H. destruct (es_how _ _ _ _ H) as [[-> _]|(h & _ & -> & _)]; [apply delivered_known|reflexivity]. Qed.
Lemma step_cfg : m_cfg (w_mkt w') = m_cfg (w_mkt w).
Proof using H. destruct (es_how _ _ _ _ H) as [[-> _]|(h & _ & -> & _)]; [apply delivered_cfg|reflexivity]. Qed.
Lemma step_fate k : fate w' k = if ev_owner e =? k then option_map (fun a => ev_acct (w_mkt w) a (strip e)) (fate w k) else fate w k.
Proof using H.
  destruct (es_how _ _ _ _ H) as [[-> _]|(h & Hp & -> & _)].
  - unfold fate, due. rewrite delivered_waiting, delivered_get. destruct (Z.eqb_spec (ev_owner e) k) as [Ek|Ek].
    + destruct (acct_get k (w_accts w)) as [a|]; cbn [option_map]; [|reflexivity]. f_equal.
      rewrite (fold_acct_cfg _ (w_mkt w) _ (delivered_cfg w e)), strip_acct. apply fold_acct_swap.
      intros x Hx F1 F2. rewrite mine_strip in Hx. apply in_map_iff in Hx as (y & <- & Hy). apply mine_in in Hy as [Hy Eo].
      assert (G : ev_slot (strip y) = ev_slot y) by (destruct y; reflexivity). rewrite G.
      apply (keys_apart _ _ (es_keys _ _ _ _ H) y Hy); [congruence|exact F1|destruct y; exact F2].
    + destruct (acct_get k (w_accts w)) as [a|]; cbn [option_map]; [|reflexivity]. f_equal. apply fold_acct_cfg. apply delivered_cfg.
  - destruct (es_heap _ _ _ _ H) as (q & Hq). unfold fate. rewrite (push_due _ _ _ _ Hq Hp). cbn [w_set_heap w_accts w_mkt].
    unfold mine. rewrite filter_app. cbn [filter]. rewrite strip_owner. fold (mine k (due w)).
    destruct (ev_owner e =? k).
    + destruct (acct_get k (w_accts w)) as [a|]; cbn [option_map]; [|reflexivity]. rewrite fold_left_app. reflexivity.
    + rewrite app_nil_r. reflexivity.
Qed.
Lemma step_takings : takings w' = if known w e then ev_mkt (takings w) (strip e) else takings w.
Proof using H.
  destruct (es_how _ _ _ _ H) as [[-> _]|(h & Hp & -> & _)].
  - unfold takings, due. rewrite delivered_waiting, delivered_mkt, (filter_ext _ _ (delivered_known w e)).
    destruct (known w e); [|reflexivity]. rewrite strip_mkt. apply fold_mkt_swap.
  - destruct (es_heap _ _ _ _ H) as (q & Hq). unfold takings. rewrite (push_due _ _ _ _ Hq Hp). cbn [w_set_heap w_mkt].
    change (known (w_set_heap w h)) with (known w). rewrite filter_app. cbn [filter]. rewrite strip_known.
    destruct (known w e); [rewrite fold_left_app; reflexivity|rewrite app_nil_r; reflexivity].
Qed.
Lemma step_own k : tk = Some k ->
  acct_get k (w_accts w') = (if (ev_owner e =? k) && is_out e then option_map (fun a => ev_acct (w_mkt w) a (strip e)) (acct_get k (w_accts w))
                             else acct_get k (w_accts w)) /\
  mine k (due w') = mine k (due w) ++ (if (ev_owner e =? k) && negb (is_out e) then [strip e] else []).
Proof using H.
  intros Et. destruct (es_how _ _ _ _ H) as [[-> Ho]|(h & Hp & -> & Ho)].
  - rewrite delivered_get. unfold due at 1. rewrite delivered_waiting. fold (due w). destruct (Z.eqb_spec (ev_owner e) k) as [Ek|Ek].
    + rewrite Ho by congruence. cbn [andb negb]. rewrite app_nil_r. split; [|reflexivity].
      destruct (acct_get k (w_accts w)); cbn [option_map]; rewrite ?strip_acct; reflexivity.
    + cbn [andb]. rewrite app_nil_r. split; reflexivity.
  - destruct (es_heap _ _ _ _ H) as (q & Hq). rewrite (push_due _ _ _ _ Hq Hp). cbn [w_set_heap w_accts]. unfold mine. rewrite filter_app.
    cbn [filter]. rewrite strip_owner. destruct (Z.eqb_spec (ev_owner e) k) as [Ek|Ek]; [|split; reflexivity].
    rewrite Ho by congruence. split; reflexivity.
Qed.
End Step.

(** ** Two worlds that come to the same *)
Record even (tk : option Z) (w1 w2 : world) : Prop := {
  ev_book : forall s, w_book w1 s = w_book w2 s;
  ev_fate : forall k, fate w1 k = fate w2 k;
  ev_takings : takings w1 = takings w2;
  ev_own : forall k, tk = Some k -> acct_get k (w_accts w1) = acct_get k (w_accts w2) /\ mine k (due w1) = mine k (due w2) }.

Lemma even_refl tk w : even tk w w.
Proof. constructor; auto. Qed.
Lemma even_known tk w1 w2 : even tk w1 w2 -> forall e, known w1 e = known w2 e.
Proof.
  intros H e. unfold known. pose proof (ev_fate _ _ _ H (ev_owner e)) as E. unfold fate in E.
  destruct (acct_get (ev_owner e) (w_accts w1)), (acct_get (ev_owner e) (w_accts w2)); (reflexivity || discriminate E).
Qed.
Lemma takings_cfg w : m_cfg (takings w) = m_cfg (w_mkt w).
Proof. apply fold_mkt_cfg. Qed.
Lemma even_cfg tk w1 w2 : even tk w1 w2 -> m_cfg (w_mkt w1) = m_cfg (w_mkt w2).
Proof. intros H. rewrite <- !takings_cfg, (ev_takings _ _ _ H). reflexivity. Qed.

Lemma even_step tk w1 w2 e1 e2 w1' w2' : even tk w1 w2 -> event_step tk w1 e1 w1' -> event_step tk w2 e2 w2' ->
  strip e1 = strip e2 -> even tk w1' w2'.
Proof.
  intros HE H1 H2 Es. pose proof (even_cfg _ _ _ HE) as Ec.
  assert (Eo : ev_owner e1 = ev_owner e2) by (rewrite <- (strip_owner e1), <- (strip_owner e2), Es; reflexivity).
  assert (Ei : is_out e1 = is_out e2) by (destruct e1, e2; (reflexivity || discriminate Es)).
  assert (Ea : forall a, ev_acct (w_mkt w1) a (strip e1) = ev_acct (w_mkt w2) a (strip e2)) by (intros a; rewrite Es; apply ev_acct_cfg; exact Ec).
  constructor.
  - intros s. rewrite (step_book _ _ _ _ H1), (step_book _ _ _ _ H2). apply (ev_book _ _ _ HE).
  - intros k. rewrite (step_fate _ _ _ _ H1), (step_fate _ _ _ _ H2), Eo, (ev_fate _ _ _ HE k).
    destruct (ev_owner e2 =? k); [|reflexivity]. destruct (fate w2 k); cbn [option_map]; rewrite ?Ea; reflexivity.
  - rewrite (step_takings _ _ _ _ H1), (step_takings _ _ _ _ H2), (ev_takings _ _ _ HE), Es, <- (strip_known w1 e1), Es, strip_known, (even_known _ _ _ HE).
    reflexivity.
  - intros k Ek. destruct (step_own _ _ _ _ H1 k Ek) as [A1 B1], (step_own _ _ _ _ H2 k Ek) as [A2 B2].
    destruct (ev_own _ _ _ HE k Ek) as [A B]. rewrite A1, A2, B1, B2, A, B, Eo, Ei, Es. split; [|reflexivity].
    destruct ((ev_owner e2 =? k) && is_out e2); [|reflexivity]. destruct (acct_get k (w_accts w2)); cbn [option_map]; [|reflexivity].
    rewrite <- Es, Ea, Es. reflexivity.
Qed.

Inductive event_steps (tk : option Z) : world -> list event -> world -> Prop :=
| ess_nil w : event_steps tk w [] w
| ess_cons w e w1 r w2 : event_step tk w e w1 -> event_steps tk w1 r w2 -> event_steps tk w (e :: r) w2.
Lemma even_steps tk w1 es1 w1' : event_steps tk w1 es1 w1' -> forall w2 es2 w2', event_steps tk w2 es2 w2' ->
  map strip es1 = map strip es2 -> even tk w1 w2 -> even tk w1' w2'.
Proof.
  induction 1 as [w|w e w1 r w1' H1 _ IH]; intros w2 es2 w2' H2 Es HE; inversion H2 as [|? ? ? ? ? G1 G2]; subst; try discriminate Es; [exact HE|].
  cbn [map] in Es. injection Es as Ea Eb. eapply IH; [exact G2|exact Eb|]. exact (even_step _ _ _ _ _ _ _ HE H1 G1 Ea).
Qed.

(** The books, the sender's own account and the market's other counters change alike. *)
Lemma w_book_set_cases w s b u : w_book (w_set_book w s b) u = if side_eqb s u then b else w_book w u.
Proof. destruct s, u; reflexivity. Qed.
Lemma even_set_book tk w1 w2 s b : even tk w1 w2 -> even tk (w_set_book w1 s b) (w_set_book w2 s b).
Proof.
  intros [A B C D]. constructor.
  - intros u. rewrite !w_book_set_cases. destruct (side_eqb s u); [reflexivity|apply A].
  - intros k. specialize (B k). destruct s; exact B.
  - destruct s; exact C.
  - intros k Hk. specialize (D k Hk). destruct s; exact D.
Qed.
Lemma even_set_own tk w1 w2 k a a' : tk = Some k -> acct_get k (w_accts w1) = Some a -> even tk w1 w2 ->
  even tk (w_set_acct w1 k a') (w_set_acct w2 k a').
Proof.
  intros Et Ha [A B C D]. destruct (D k Et) as [D1 D2]. rewrite Ha in D1. symmetry in D1.
  assert (K : forall w x y, acct_get k (w_accts w) = Some x -> known (w_set_acct w k a') y = known w y).
  { intros w x y Hx. unfold known. cbn [w_set_acct w_set_accts w_accts]. destruct (Z.eq_dec (ev_owner y) k) as [->|Hn].
    - rewrite (get_set_same _ _ _ _ Hx), Hx. reflexivity.
    - rewrite get_set_other by exact Hn. reflexivity. }
  assert (Ec : m_cfg (w_mkt w1) = m_cfg (w_mkt w2)) by (rewrite <- !takings_cfg, C; reflexivity).
  constructor.
  - intros s. specialize (A s). destruct s; exact A.
  - intros j. specialize (B j). unfold fate in *. change (due (w_set_acct w1 k a')) with (due w1). change (due (w_set_acct w2 k a')) with (due w2).
    cbn [w_set_acct w_set_accts w_accts w_mkt] in *. destruct (Z.eq_dec j k) as [->|Hn].
    + rewrite (get_set_same _ _ _ _ Ha), (get_set_same _ _ _ _ D1), D2. cbn [option_map]. f_equal. apply fold_acct_cfg. exact Ec.
    + rewrite !get_set_other by exact Hn. exact B.
  - unfold takings in *. change (due (w_set_acct w1 k a')) with (due w1). change (due (w_set_acct w2 k a')) with (due w2).
    rewrite (filter_ext _ _ (fun y => K w1 a y Ha)), (filter_ext _ _ (fun y => K w2 a y D1)). exact C.
  - intros j Hj. assert (j = k) as -> by congruence. cbn [w_set_acct w_set_accts w_accts].
    rewrite (get_set_same _ _ _ _ Ha), (get_set_same _ _ _ _ D1). split; [reflexivity|exact D2].
Qed.
(** A change of the market that is the same before and after delivering. *)
Definition steady (g : market -> market) : Prop := (forall m e, ev_mkt (g m) e = g (ev_mkt m e)) /\ (forall m, m_cfg (g m) = m_cfg m).
Lemma steady_fold g es : steady g -> forall m, fold_left ev_mkt es (g m) = g (fold_left ev_mkt es m).
Proof. intros [H _]. induction es as [|e es IH]; intros m; [reflexivity|]. cbn [fold_left]. rewrite H. apply IH. Qed.
Lemma even_set_mkt tk w1 w2 g : steady g -> even tk w1 w2 -> even tk (w_set_mkt w1 (g (w_mkt w1))) (w_set_mkt w2 (g (w_mkt w2))).
Proof.
  intros Hg [A B C D]. constructor.
  - intros s. specialize (A s). destruct s; exact A.
  - intros k. specialize (B k). unfold fate in *. cbn [w_set_mkt w_accts w_mkt].
    change (due (w_set_mkt w1 (g (w_mkt w1)))) with (due w1). change (due (w_set_mkt w2 (g (w_mkt w2)))) with (due w2).
    destruct (acct_get k (w_accts w1)), (acct_get k (w_accts w2)); cbn [option_map] in *; try (discriminate B || reflexivity).
    rewrite !(fold_acct_cfg _ _ _ (proj2 Hg _)). exact B.
  - unfold takings in *. cbn [w_set_mkt w_mkt]. change (due (w_set_mkt w1 (g (w_mkt w1)))) with (due w1).
    change (due (w_set_mkt w2 (g (w_mkt w2)))) with (due w2). change (known (w_set_mkt w1 (g (w_mkt w1)))) with (known w1).
    change (known (w_set_mkt w2 (g (w_mkt w2)))) with (known w2). rewrite !(steady_fold g _ Hg), C. reflexivity.
  - exact D.
Qed.
