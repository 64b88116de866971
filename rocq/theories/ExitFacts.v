(** Leaving a market: what an account is due stays the same while its owner cancels and its
    events are delivered, and is then paid out. *)
From Coq Require Import ZArith List Bool Lia ZifyBool Permutation.
From Verif Require Import Base Nodes OrderTree BookSide Heap Market OpenOrders Order Book Instructions
  BaseFacts HeapFacts SpecBook SpecFees SpecHeap HeapSpecProofs SpecOrder MatchFacts OrderFacts PlaceFacts OrderSpecProofs
  Steps StepFacts TokenFacts SpecLedger SpecEvents Ledger LedgerOps LedgerMoves LedgerPlace LedgerOrder LedgerInv SpecSystem SystemFacts Solvency
  ConsumeFacts CancelFacts SpecControl ControlFacts LifeFacts IdFacts AuthFacts EndFacts SystemProofs SpecWind LockFacts WindFacts SpecExit.
Import ListNotations.
Open Scope Z_scope.

(** ** Slots *)
Lemma order_at_pos a i oo : order_at a i = Ok oo -> 0 <= i.
Proof. unfold order_at. destruct (Z.leb_spec 0 i); [lia|]. cbn. discriminate. Qed.
Lemma cancelled_slots m a i q oo : order_at a i = Ok oo ->
  (forall j, j <> i -> order_at (cancelled m a i q) j = order_at a j) /\
  a_pos (cancelled m a i q) = cancelled_pos m (a_pos a) (oo_side oo) q (oo_locked_price oo).
Proof.
  intros H. pose proof (order_at_pos _ _ _ H). unfold cancelled. rewrite H. split; [|reflexivity].
  intros j N. unfold freed. rewrite order_at_set_other by congruence. reflexivity.
Qed.
Lemma filled_slots m a f : (fe_maker_out f = true -> 0 <= fe_maker_slot f) ->
  (forall j, (fe_maker_out f = true -> j <> fe_maker_slot f) -> order_at (filled m a f) j = order_at a j) /\
  a_pos (filled m a f) = filled_pos m (a_pos a) f.
Proof.
  intros H. unfold filled. destruct (fe_maker_out f); [|split; reflexivity]. specialize (H eq_refl). split; [|reflexivity].
  intros j N. specialize (N eq_refl). unfold freed. rewrite order_at_set_other by congruence. reflexivity.
Qed.

(** The slots that the orders and final events of an account occupy. *)
Definition mine (k : Z) (x : otree_id * leaf) : bool := lf_owner (snd x) =? k.
Definition ending (k : Z) (e : event) : bool := ev_final e && (ev_owner e =? k).
Definition slots_of (k : Z) (w : world) : list Z :=
  map (fun x => lf_slot (snd x)) (filter (mine k) (orders w Bid)) ++
  map (fun x => lf_slot (snd x)) (filter (mine k) (orders w Ask)) ++ map ev_slot (filter (ending k) (waiting w)).
Lemma count_filter {A} (p : A -> bool) (g : A -> Z) i l :
  sumZ (map (fun x => one_if (x =? i)) (map g (filter p l))) = sumZ (map (fun y => one_if (p y && (g y =? i))) l).
Proof. induction l as [|y l IH]; [reflexivity|]. cbn [filter map]. rewrite sumZ_cons, <- IH. destruct (p y); cbn [andb map]; rewrite ?sumZ_cons; unfold one_if; lia. Qed.
Lemma count_nodup l : (forall i, sumZ (map (fun x => one_if (x =? i)) l) <= 1) -> NoDup l.
Proof.
  induction l as [|x l IH]; intros H; [constructor|].
  assert (N : forall i, 0 <= sumZ (map (fun x => one_if (x =? i)) l)).
  { intros i. apply sumZ_nonneg. intros z Hz. apply in_map_iff in Hz as (y & <- & _). unfold one_if. destruct (y =? i); lia. }
  constructor.
  - intros Hin. specialize (H x). cbn [map] in H. rewrite sumZ_cons, Z.eqb_refl in H. apply in_split in Hin as (l1 & l2 & ->).
    rewrite map_app, sumZ_app in H. cbn [map] in H. rewrite sumZ_cons, Z.eqb_refl in H. change (one_if true) with 1 in H.
    assert (forall l, 0 <= sumZ (map (fun y => one_if (y =? x)) l)).
    { intros l. apply sumZ_nonneg. intros z Hz. apply in_map_iff in Hz as (y & <- & _). unfold one_if. destruct (y =? x); lia. }
    pose proof (H0 l1). pose proof (H0 l2). lia.
  - apply IH. intros i. specialize (H i). cbn [map] in H. rewrite sumZ_cons in H. unfold one_if in H at 1. destruct (x =? i); lia.
Qed.
Lemma sum_ext {A} (f g : A -> Z) l : (forall x, In x l -> f x = g x) -> sumZ (map f l) = sumZ (map g l).
Proof. induction l as [|x l IH]; intros H; [reflexivity|]. cbn [map]. rewrite !sumZ_cons, (H x (or_introl eq_refl)), IH; [lia|]. intros y Hy. apply H. right. exact Hy. Qed.
Lemma occupants_slots k i w : occupants k i w = sumZ (map (fun x => one_if (x =? i)) (slots_of k w)).
Proof.
  unfold occupants, things_sum, slots_of. rewrite !map_app, !sumZ_app, !count_filter, <- Z.add_assoc.
  reflexivity.
Qed.

Record tidy (k : Z) (w : world) (a : ooa) : Prop := {
  td_slots : NoDup (slots_of k w);
  td_orders : forall s t l, In (t, l) (orders w s) -> lf_owner l = k -> exists oo, order_at a (lf_slot l) = Ok oo /\ oo_side oo = s /\
    (s = Bid -> oo_locked_price oo = order_lock t l) }.
Lemma backed_tidy w k a : backed w -> acct_get k (w_accts w) = Some a -> tidy k w a.
Proof.
  intros B A. split.
  - apply count_nodup. intros i. rewrite <- occupants_slots, (bk_slots _ B _ _ i A). unfold one_if. destruct (slot_used a i); lia.
  - intros s t l Hin E. destruct (bk_order _ B _ _ _ Hin) as (b & oo & Hb & Ho & (_ & _ & H3 & _ & H5) & _). rewrite E, A in Hb. injection Hb as <-.
    exists oo. repeat split; assumption.
Qed.

(** ** What is due depends on the terms, the orders, the events and the slots only *)
Lemma side_cfg m m' : m_cfg m' = m_cfg m -> bls m' = bls m /\ qls m' = qls m /\ maker_fee m' = maker_fee m.
Proof. unfold bls, qls, maker_fee. intros ->. auto. Qed.
Lemma with_fees_cfg m m' q : m_cfg m' = m_cfg m -> with_fees m' q = with_fees m q.
Proof. intros E. unfold with_fees, maker_locks. destruct (side_cfg _ _ E) as (_ & _ & ->). reflexivity. Qed.
Lemma event_base_cfg m m' e : m_cfg m' = m_cfg m -> event_base m' e = event_base m e.
Proof. intros E. unfold event_base. destruct (side_cfg _ _ E) as (-> & _ & _). reflexivity. Qed.
Lemma event_quote_cfg w w' e : m_cfg (w_mkt w') = m_cfg (w_mkt w) ->
  (ev_final e = true -> ev_side e = Bid -> event_lock w' e = event_lock w e) -> event_quote w' e = event_quote w e.
Proof.
  intros E L. unfold event_quote. destruct (side_cfg _ _ E) as (_ & Eq & Ef). destruct e as [f|o]; cbn [ev_side ev_final] in *.
  - unfold fill_rebate, fill_locked, fill_quote, fill_fee, maker_gets, maker_pays, fill_quote. rewrite Eq, Ef. reflexivity.
  - destruct (oe_side o); [|reflexivity]. rewrite (L eq_refl eq_refl), Eq. apply with_fees_cfg. exact E.
Qed.
Lemma event_lock_kept w w' k a a' e : acct_get k (w_accts w) = Some a -> acct_get k (w_accts w') = Some a' -> ev_owner e = k ->
  order_at a' (ev_slot e) = order_at a (ev_slot e) -> event_lock w' e = event_lock w e.
Proof. intros A A' O H. destruct e as [f|o]; [reflexivity|]. cbn [event_lock ev_owner ev_slot] in *. rewrite O, A, A', H. reflexivity. Qed.

(** ** Cancelling *)
Definition order_base (k : Z) (m : market) (s : side) (l : leaf) : Z := if (lf_owner l =? k) && side_eqb s Ask then lf_qty l * bls m else 0.
Definition order_quote (k : Z) (m : market) (s : side) (t : otree_id) (l : leaf) : Z :=
  if (lf_owner l =? k) && side_eqb s Bid then with_fees m (lf_qty l * order_lock t l * qls m) else 0.
Lemma perm_filter {A} (p : A -> bool) (l l' : list A) : Permutation l l' -> Permutation (filter p l) (filter p l').
Proof.
  induction 1 as [|x l1 l2 _ IH|x y l|l1 l2 l3 _ IH1 _ IH2]; cbn [filter]; try reflexivity.
  - destruct (p x); [constructor; exact IH|exact IH].
  - destruct (p x), (p y); try reflexivity. apply perm_swap.
  - etransitivity; eassumption.
Qed.
Lemma sum_split {A} (f : A -> Z) x l l' : Permutation l (x :: l') -> sumZ (map f l) = f x + sumZ (map f l').
Proof. intros H. rewrite (sum_perm _ _ (Permutation_map f H)). reflexivity. Qed.
Lemma orders_kept w w' s : w_book w' s = w_book w s -> orders w' s = orders w s.
Proof. exact (orders_same_book w w' s). Qed.

Lemma taken_due w s t l w' k a : taken_off w s t l w' -> lf_owner l = k -> acct_get k (w_accts w) = Some a -> tidy k w a ->
  exists a', acct_get k (w_accts w') = Some a' /\ tidy k w' a' /\
    base_due k a' w' = base_due k a w /\ quote_due k a' w' = quote_due k a w.
Proof.
  intros [Po Eo (a0 & A0 & Ea) Em Eh] O A [Nd To]. rewrite O, A in A0. injection A0 as <-. rewrite O in Ea.
  destruct (To s t l) as (oo & Ho & Es & El); [apply (Permutation_in _ (Permutation_sym Po)); left; reflexivity|exact O|].
  destruct (cancelled_slots (w_mkt w) a (lf_slot l) (lf_qty l) oo Ho) as [Hs Hp]. set (a' := cancelled (w_mkt w) a (lf_slot l) (lf_qty l)) in *.
  assert (A' : acct_get k (w_accts w') = Some a') by (rewrite Ea, acct_get_set, Z.eqb_refl, A; reflexivity).
  assert (Oo : orders w' (invert_side s) = orders w (invert_side s)) by (apply orders_kept; exact Eo).
  assert (Ew : waiting w' = waiting w) by (unfold waiting, queue_of; rewrite Eh; reflexivity).
  assert (Pl : Permutation (slots_of k w) (lf_slot l :: slots_of k w')).
  { assert (M : mine k (t, l) = true) by (unfold mine; cbn [snd]; lia).
    assert (Pf : Permutation (map (fun x => lf_slot (snd x)) (filter (mine k) (orders w s))) (lf_slot l :: map (fun x => lf_slot (snd x)) (filter (mine k) (orders w' s)))).
    { rewrite (Permutation_map _ (perm_filter (mine k) _ _ Po)). cbn [filter]. rewrite M. reflexivity. }
    unfold slots_of. rewrite Ew. destruct s; cbn [invert_side] in Oo; rewrite Oo, Pf; [reflexivity|].
    symmetry. apply (Permutation_middle (map (fun x => lf_slot (snd x)) (filter (mine k) (orders w Bid)))). }
  rewrite Pl in Nd. apply NoDup_cons_iff in Nd as [Nl Nd'].
  assert (Hin : forall s0 t0 l0, In (t0, l0) (orders w' s0) -> In (t0, l0) (orders w s0)).
  { intros s0 t0 l0 H. destruct s, s0; cbn [invert_side] in Oo; try (rewrite Oo in H; exact H); apply (Permutation_in _ (Permutation_sym Po)); right; exact H. }
  assert (Hsl : forall s0 t0 l0, In (t0, l0) (orders w' s0) -> lf_owner l0 = k -> lf_slot l0 <> lf_slot l).
  { intros s0 t0 l0 H H0 E. apply Nl. rewrite <- E. unfold slots_of. rewrite !in_app_iff.
    assert (G : In (lf_slot l0) (map (fun x => lf_slot (snd x)) (filter (mine k) (orders w' s0)))).
    { apply in_map_iff. exists (t0, l0). split; [reflexivity|]. apply filter_In. split; [exact H|]. unfold mine. cbn [snd]. lia. }
    destruct s0; [left; exact G|right; left; exact G]. }
  exists a'. split; [exact A'|]. split; [|split].
  - split; [exact Nd'|]. intros s0 t0 l0 H H0. rewrite (Hs _ (Hsl _ _ _ H H0)). exact (To _ _ _ (Hin _ _ _ H) H0).
  - unfold base_due, open_base, things_sum. rewrite Em, Ew, Hp, Es. fold (order_base k (w_mkt w)).
    pose proof (sum_split (fun x => order_base k (w_mkt w) s (snd x)) _ _ _ Po) as S. cbv beta in S. cbn [snd] in S. unfold order_base in S at 2. rewrite O, Z.eqb_refl in S.
    unfold cancelled_pos. unfold order_base in S. destruct s; cbn [invert_side side_eqb andb] in *; rewrite Oo, S; cbn [p_base_free]; lia.
  - unfold quote_due, open_quote, things_sum. rewrite Em, Ew, Hp, Es.
    pose proof (sum_split (fun x => order_quote k (w_mkt w) s (fst x) (snd x)) _ _ _ Po) as S. cbv beta in S. cbn [fst snd] in S. unfold order_quote in S at 2. rewrite O, Z.eqb_refl in S.
    assert (Sev : sumZ (map (fun e => if ev_owner e =? k then event_quote w' e else 0) (waiting w)) = sumZ (map (fun e => if ev_owner e =? k then event_quote w e else 0) (waiting w))).
    { apply sum_ext. intros e He. destruct (Z.eqb_spec (ev_owner e) k) as [Eo'|]; [|reflexivity]. apply event_quote_cfg; [rewrite Em; reflexivity|].
      intros F _. eapply event_lock_kept; [exact A|exact A'|exact Eo'|]. apply Hs. intros E. apply Nl. rewrite <- E. unfold slots_of. rewrite !in_app_iff. right. right.
      apply in_map. apply filter_In. rewrite Ew. split; [exact He|]. unfold ending. rewrite F. cbn [andb]. lia. }
    rewrite Sev. unfold cancelled_pos. cbv zeta. unfold order_quote in S.
    destruct s; cbn [invert_side side_eqb andb] in *; rewrite Oo, S; [rewrite (El eq_refl)|]; unfold with_fees; cbn [p_quote_free]; lia.
Qed.
Lemma taken_all_due w gone w' : taken_off_all w gone w' -> forall k a, (forall sd t l, In (sd, t, l) gone -> lf_owner l = k) ->
  acct_get k (w_accts w) = Some a -> tidy k w a ->
  exists a', acct_get k (w_accts w') = Some a' /\ base_due k a' w' = base_due k a w /\ quote_due k a' w' = quote_due k a w.
Proof.
  induction 1 as [w|w s t l w1 r w2 H H0 IH]; intros k a G A T; [exists a; auto|].
  destruct (taken_due _ _ _ _ _ k a H (G _ _ _ (or_introl eq_refl)) A T) as (a1 & A1 & T1 & B1 & Q1).
  destruct (IH k a1 (fun sd t' l' Hin => G _ _ _ (or_intror Hin)) A1 T1) as (a2 & A2 & B2 & Q2). exists a2. split; [exact A2|]. split; congruence.
Qed.

(** ** Delivering *)
Lemma out_slot s o : reachable s -> In (EOut o) (waiting (s_w s)) -> exists a oo, acct_get (oe_owner o) (w_accts (s_w s)) = Some a /\
  order_at a (oe_slot o) = Ok oo /\ oo_side oo = oe_side o.
Proof.
  intros R H. destruct (reachable_inv _ R) as (cl & ct & P & HI). destruct (event_pieces _ _ _ (iv_rep _ _ _ _ _ _ HI) H) as (p & Hp & lp & id & ->).
  destruct (ld_back _ _ _ (iv_led _ _ _ _ _ _ HI) _ Hp) as (a & A & L). destruct (L eq_refl) as (oo & Ho & S). exists a, oo. split; [exact A|]. split; [exact Ho|].
  unfold slot_of in S. cbn [pc_side] in S. tauto.
Qed.
Lemma fill_slot s f : reachable s -> In (EFill f) (waiting (s_w s)) -> fe_maker_out f = true -> 0 <= fe_maker_slot f.
Proof.
  intros R H F. destruct (reachable_inv _ R) as (cl & ct & P & HI). destruct (event_pieces _ _ _ (iv_rep _ _ _ _ _ _ HI) H) as (p & Hp & id & ->).
  destruct (ld_back _ _ _ (iv_led _ _ _ _ _ _ HI) _ Hp) as (a & A & L). destruct (L F) as (oo & Ho & _). exact (order_at_pos _ _ _ Ho).
Qed.
Lemma delivered_due s x s' k a : reachable s -> In x (queue_of (s_w s)) -> ev_owner (fst x) = k -> consumes s [x] s' ->
  acct_get k (w_accts (s_w s)) = Some a ->
  exists a', acct_get k (w_accts (s_w s')) = Some a' /\ base_due k a' (s_w s') = base_due k a (s_w s) /\ quote_due k a' (s_w s') = quote_due k a (s_w s).
Proof.
  intros R Hx O (Eq & Ew & _ & _) A. pose proof (reachable_backed _ R) as B. pose proof (backed_tidy _ _ _ B A) as [Nd _].
  destruct (reachable_queue _ R) as (_ & _ & _ & _ & Hh & _). pose proof (heap_ok_nodup _ _ Hh) as Hnd.
  assert (Pq : Permutation (waiting (s_w s)) (fst x :: waiting (s_w s'))).
  { unfold waiting. rewrite Eq. change (fst x :: map fst (without [x] (queue_of (s_w s)))) with (map fst ([x] ++ without [x] (queue_of (s_w s)))). apply Permutation_map.
    apply without_perm; [exact Hnd|constructor; [intros []|constructor]|]. intros y [<-|[]]. exact Hx. }
  assert (Hw : In (fst x) (waiting (s_w s))) by (unfold waiting; apply in_map; exact Hx).
  cbn [map deliver fold_left] in Ew. set (e := fst x) in *. set (w := s_w s) in *. set (w' := s_w s') in *.
  destruct (delivered_rest w e) as (D1 & _ & D3 & D4).
  assert (Ob : forall sd, orders w' sd = orders w sd) by (intros sd; apply orders_kept; rewrite Ew; destruct sd; [exact D3|exact D4]).
  assert (Ec : m_cfg (w_mkt w') = m_cfg (w_mkt w)) by (rewrite Ew; exact D1).
  assert (Sl : forall e', In e' (waiting w') -> ev_owner e' = k -> ev_final e = true -> ev_final e' = true -> ev_slot e' <> ev_slot e).
  { intros e' He' O' F F' E. unfold slots_of in Nd. rewrite (Permutation_map ev_slot (perm_filter (ending k) _ _ Pq)) in Nd.
    rewrite app_assoc in Nd. assert (M : ending k e = true) by (unfold ending; rewrite F; cbn [andb]; lia). cbn [filter] in Nd. rewrite M in Nd. cbn [map] in Nd.
    apply NoDup_remove_2 in Nd. apply Nd. apply in_app_iff. right. rewrite <- E. apply in_map. apply filter_In. split; [exact He'|]. unfold ending. rewrite F'. cbn [andb]. lia. }
  assert (G : exists a', acct_get k (w_accts w') = Some a' /\ p_base_free (a_pos a') = p_base_free (a_pos a) + event_base (w_mkt w) e /\
    p_quote_free (a_pos a') = p_quote_free (a_pos a) + event_quote w e /\
    (forall e', In e' (waiting w') -> ev_owner e' = k -> ev_final e' = true -> order_at a' (ev_slot e') = order_at a (ev_slot e'))).
  { rewrite Ew. cbn [w_accts w_set_heap]. unfold delivered. rewrite O, A. destruct e as [f|o]; cbn [ev_owner ev_slot ev_final ev_side] in *; subst k.
    - cbn [w_accts w_set_acct w_set_accts w_set_mkt]. rewrite acct_get_set, Z.eqb_refl, A. cbn [option_map]. eexists. split; [reflexivity|].
      destruct (filled_slots (w_mkt w) a f (fill_slot _ _ R Hw)) as [F1 F2]. rewrite F2. unfold filled_pos, event_base, event_quote. cbv zeta. cbn [ev_side].
      split; [|split].
      + destruct (fill_side f); cbn [p_base_free]; lia.
      + destruct (fill_side f); cbn [p_quote_free]; [destruct (fill_pegged f)|]; lia.
      + intros e' He' O' F'. apply F1. intros F. exact (Sl _ He' O' F F').
    - destruct (out_slot _ _ R Hw) as (b & oo & Hb & Ho & Es). fold w in Hb. rewrite A in Hb. injection Hb as <-.
      cbn [w_accts w_set_acct w_set_accts]. rewrite acct_get_set, Z.eqb_refl, A. cbn [option_map]. eexists. split; [reflexivity|].
      destruct (cancelled_slots (w_mkt w) a (oe_slot o) (oe_qty o) oo Ho) as [F1 F2]. rewrite F2, Es. unfold cancelled_pos, event_base, event_quote. cbv zeta. cbn [ev_side].
      split; [|split].
      + destruct (oe_side o); cbn [p_base_free]; lia.
      + cbn [event_lock]. rewrite A, Ho. destruct (oe_side o); cbn [p_quote_free]; unfold with_fees; lia.
      + intros e' He' O' F'. apply F1. exact (Sl _ He' O' eq_refl F'). }
  destruct G as (a' & A' & Gb & Gq & Gs). exists a'. split; [exact A'|]. destruct (side_cfg _ _ Ec) as (Eb & El & _). split.
  - unfold base_due, open_base, things_sum. rewrite !Ob, Gb, Eb.
    pose proof (sum_split (fun e => if ev_owner e =? k then event_base (w_mkt w) e else 0) _ _ _ Pq) as S. cbv beta in S. rewrite O, Z.eqb_refl in S.
    rewrite (sum_ext (fun e => if ev_owner e =? k then event_base (w_mkt w') e else 0) (fun e => if ev_owner e =? k then event_base (w_mkt w) e else 0))
      by (intros e' _; rewrite (event_base_cfg _ _ e' Ec); reflexivity). lia.
  - unfold quote_due, open_quote, things_sum. rewrite !Ob, Gq, El.
    pose proof (sum_split (fun e => if ev_owner e =? k then event_quote w e else 0) _ _ _ Pq) as S. cbv beta in S. rewrite O, Z.eqb_refl in S.
    rewrite (sum_ext (fun e => if ev_owner e =? k then event_quote w' e else 0) (fun e => if ev_owner e =? k then event_quote w e else 0)).
    2:{ intros e' He'. destruct (Z.eqb_spec (ev_owner e') k) as [O'|]; [|reflexivity]. apply event_quote_cfg; [exact Ec|].
        intros F _. eapply event_lock_kept; [exact A|exact A'|exact O'|]. exact (Gs _ He' O' F). }
    rewrite !(sum_ext (fun x => if (lf_owner (snd x) =? k) && _ then with_fees (w_mkt w') _ else 0) (fun x => if (lf_owner (snd x) =? k) && _ then with_fees (w_mkt w) _ else 0))
      by (intros y _; rewrite (with_fees_cfg _ _ _ Ec); reflexivity). lia.
Qed.

Definition about (k : Z) (x : event * Z) : bool := ev_owner (fst x) =? k.
Lemma filter_without k x q : about k x = true -> filter (about k) (without [x] q) = without [x] (filter (about k) q).
Proof.
  intros _. unfold without. induction q as [|y q IH]; [reflexivity|]. cbn [filter].
  destruct (negb (mem_key (snd y) (map snd [x]))) eqn:E, (about k y) eqn:F; cbn [filter]; rewrite ?E, ?F, ?IH; reflexivity.
Qed.
Lemma drain_own e k : forall xs s a, reachable s -> s_closed s = false -> Permutation xs (filter (about k) (queue_of (s_w s))) ->
  acct_get k (w_accts (s_w s)) = Some a ->
  exists s' a', executes e s (map (fun i => IConsumeGiven (c_consume_events_admin (m_cfg (w_mkt (s_w s)))) [i] [k]) (map snd xs)) s' /\
    reachable s' /\ s_closed s' = false /\ m_cfg (w_mkt (s_w s')) = m_cfg (w_mkt (s_w s)) /\ s_tok s' = s_tok s /\
    acct_get k (w_accts (s_w s')) = Some a' /\ a_owner a' = a_owner a /\ p_penalty (a_pos a') = p_penalty (a_pos a) /\
    base_due k a' (s_w s') = base_due k a (s_w s) /\ quote_due k a' (s_w s') = quote_due k a (s_w s) /\
    (forall sd, orders (s_w s') sd = orders (s_w s) sd) /\ (forall ev, In ev (waiting (s_w s')) -> ev_owner ev <> k).
Proof.
  induction xs as [|x xs IH]; intros s a R C HP A.
  - exists s, a. split; [apply xs_none|]. split; [exact R|]. split; [exact C|]. split; [reflexivity|]. split; [reflexivity|]. split; [exact A|].
    do 5 (split; [reflexivity|]). intros ev He E. apply Permutation_nil in HP. unfold waiting in He. apply in_map_iff in He as (x & <- & Hx).
    assert (Hf : In x (filter (about k) (queue_of (s_w s)))) by (apply filter_In; split; [exact Hx|unfold about; lia]). rewrite HP in Hf. destruct Hf.
  - assert (Hf : In x (filter (about k) (queue_of (s_w s)))) by (apply (Permutation_in _ HP); left; reflexivity).
    pose proof Hf as Hf'. apply filter_In in Hf' as [Hx Hk]. unfold about in Hk.
    destruct (consume_single e s x R C Hx) as (s1 & H1 & G). replace (ev_owner (fst x)) with k in H1 by lia.
    pose proof (reach_step _ _ _ _ _ R H1) as R1. destruct (delivered_due s x s1 k a R Hx ltac:(lia) G A) as (a1 & A1 & B1 & Q1).
    destruct (reachable_queue _ R) as (_ & _ & _ & _ & Hh & _). pose proof (heap_ok_nodup _ _ Hh) as Hnd. destruct G as (Eq & Ew & Et & Ec). rewrite C in Ec.
    cbn [map deliver fold_left] in Ew. destruct (delivered_rest (s_w s) (fst x)) as (D1 & _ & D3 & D4). pose proof (delivered_kept (s_w s) (fst x)) as K.
    assert (HP1 : Permutation xs (filter (about k) (queue_of (s_w s1)))).
    { rewrite Eq, filter_without by (unfold about; lia). apply (Permutation_cons_inv (a := x)). rewrite HP.
      change (x :: without [x] (filter (about k) (queue_of (s_w s)))) with ([x] ++ without [x] (filter (about k) (queue_of (s_w s)))).
      apply without_perm; [|constructor; [intros []|constructor]|intros y [<-|[]]; exact Hf].
      clear - Hnd. induction (queue_of (s_w s)) as [|y q IHq]; [constructor|]. cbn [map] in Hnd. apply NoDup_cons_iff in Hnd as [Hn Hnd]. cbn [filter].
      destruct (about k y); [|exact (IHq Hnd)]. cbn [map]. constructor; [|exact (IHq Hnd)]. intros Hi. apply Hn. apply in_map_iff in Hi as (z & <- & Hz).
      apply filter_In in Hz as [Hz _]. apply in_map. exact Hz. }
    assert (Em : m_cfg (w_mkt (s_w s1)) = m_cfg (w_mkt (s_w s))) by (rewrite Ew; exact D1).
    assert (K1 : kept (s_w s) (s_w s1)) by (rewrite Ew; exact K). destruct (kept_back _ _ _ _ K1 A1) as (b & Hb & Ko & Kp). rewrite A in Hb. injection Hb as <-.
    destruct (IH s1 a1 R1 Ec HP1 A1) as (s' & a' & X & R' & C' & M' & T' & A' & O' & P' & B' & Q' & Or' & W').
    exists s', a'. split; [cbn [map]; eapply xs_more; [exact H1|]; rewrite <- Em; exact X|]. split; [exact R'|]. split; [exact C'|].
    split; [congruence|]. split; [congruence|]. split; [exact A'|]. split; [congruence|]. split; [congruence|]. split; [congruence|]. split; [congruence|].
    split; [|exact W']. intros sd. rewrite Or'. apply orders_kept. rewrite Ew. destruct sd; [exact D3|exact D4].
Qed.

(** ** Paying out *)
Lemma sum_none {A} (f : A -> Z) l : (forall x, In x l -> f x = 0) -> sumZ (map f l) = 0.
Proof. induction l as [|x l IH]; intros H; [reflexivity|]. cbn [map]. rewrite sumZ_cons, (H x (or_introl eq_refl)), IH; [lia|]. intros y Hy. apply H. right. exact Hy. Qed.
Lemma things_none fo fe w : (forall s t l, In (t, l) (orders w s) -> fo s t l = 0) -> (forall ev, In ev (waiting w) -> fe ev = 0) -> things_sum fo fe w = 0.
Proof.
  intros Ho He. unfold things_sum. rewrite !sum_none; [reflexivity| | |].
  - exact He.
  - intros [t l] H. exact (Ho _ _ _ H).
  - intros [t l] H. exact (Ho _ _ _ H).
Qed.
Lemma closes e s u k a : s_closed s = false -> acct_get k (w_accts (s_w s)) = Some a -> a_owner a = u ->
  position_is_empty (a_pos a) (a_version a) = true ->
  exec e s (ICloseAccount u k) = Ok (s_set_w s (w_set_accts (s_w s) (acct_del k (w_accts (s_w s)))), ONone).
Proof.
  intros C A O E. unfold exec. rewrite C. cbn [andb]. unfold exec_open. cbv zeta. unfold lift_w, close_account_ix, acct_load. rewrite A. cbn [bind].
  rewrite O, Z.eqb_refl. cbn [require bind]. rewrite E. reflexivity.
Qed.

Lemma cancel_all_closed e s u k so n s' out : exec e s (ICancelAll u k so n) = Ok (s', out) -> s_closed s' = s_closed s.
Proof.
  unfold exec. destruct (s_closed s && _); [intros H; discriminate H|]. unfold exec_open, lift_w. cbv zeta. intros H.
  apply bind_ok in H as (? & _ & H). apply bind_ok in H as (? & _ & H). apply bind_ok in H as ([w q] & _ & H). injection H as <- _. reflexivity.
Qed.

Theorem owner_leaves e s k a ub uq : reachable s -> s_closed s = false -> acct_get k (w_accts (s_w s)) = Some a -> can_leave s a ub uq ->
  exists slots s', executes e s (leaving (w_mkt (s_w s)) (a_owner a) k ub uq slots) s' /\
    Permutation slots (map snd (filter (about k) (queue_of (s_w s)))) /\
    transferred [(base_due k a (s_w s), c_base_vault (m_cfg (w_mkt (s_w s))), ub);
                 (quote_due k a (s_w s), c_quote_vault (m_cfg (w_mkt (s_w s))), uq)] (s_tok s) (s_tok s') /\
    acct_get k (w_accts (s_w s')) = None.
Proof.
  intros R C A [L Pn (xb & vb & Xb & Vb & Mb & Ob & Rb) (xq & vq & Xq & Vq & Mq & Oq & Rq)].
  destruct (cancel_all_allowed e s (a_owner a) k None 24 a R C A (or_introl eq_refl) ltac:(lia) L) as (s1 & gone & H1 & T1 & Et1 & _ & Hg & Hn).
  pose proof (reach_step _ _ _ _ _ R H1) as R1.
  assert (C1 : s_closed s1 = false) by (rewrite (cancel_all_closed _ _ _ _ _ _ _ _ H1); exact C).
  destruct (taken_all_facts _ _ _ T1) as (K1 & M1 & Eh1 & _).
  destruct (taken_all_due _ _ _ T1 k a (fun sd t l Hin => proj1 (Hg _ _ _ Hin)) A (backed_tidy _ _ _ (reachable_backed _ R) A)) as (a1 & A1 & B1 & Q1).
  destruct (kept_back _ _ _ _ K1 A1) as (b & Hb & Ko & Kp). rewrite A in Hb. injection Hb as <-.
  assert (Eq1 : queue_of (s_w s1) = queue_of (s_w s)) by (unfold queue_of; rewrite Eh1; reflexivity).
  destruct (drain_own e k _ s1 a1 R1 C1 (Permutation_refl _) A1) as (s2 & a2 & X2 & R2 & C2 & M2 & T2 & A2 & O2 & P2 & B2 & Q2 & Or2 & W2).
  assert (No : forall sd t l, In (t, l) (orders (s_w s2) sd) -> lf_owner l <> k).
  { intros sd t l Hin E. rewrite Or2 in Hin. apply (Hn ltac:(lia) _ _ _ Hin). unfold selected. auto. }
  assert (Fb : base_due k a2 (s_w s2) = p_base_free (a_pos a2)).
  { unfold base_due, open_base. rewrite things_none; [lia| |].
    - intros sd t l Hin. specialize (No _ _ _ Hin). replace (lf_owner l =? k) with false by lia. reflexivity.
    - intros ev Hev. specialize (W2 _ Hev). replace (ev_owner ev =? k) with false by lia. reflexivity. }
  assert (Fq : quote_due k a2 (s_w s2) = p_quote_free (a_pos a2)).
  { unfold quote_due, open_quote. rewrite things_none; [lia| |].
    - intros sd t l Hin. specialize (No _ _ _ Hin). replace (lf_owner l =? k) with false by lia. reflexivity.
    - intros ev Hev. specialize (W2 _ Hev). replace (ev_owner ev =? k) with false by lia. reflexivity. }
  pose proof (reachable_backed _ R2) as Bk.
  assert (Z1 : p_bids_base (a_pos a2) = 0 /\ p_asks_base (a_pos a2) = 0 /\ p_bids_quote (a_pos a2) = 0).
  { rewrite (bk_bids _ Bk _ _ A2), (bk_asks _ Bk _ _ A2), (bk_quote _ Bk _ _ A2). unfold lots, bid_quote.
    rewrite !things_none; [auto| | | | | |]; intros; try (rewrite (proj2 (Z.eqb_neq _ _) (No _ _ _ H)); reflexivity);
      rewrite (proj2 (Z.eqb_neq _ _) (W2 _ H)); reflexivity. }
  destruct Z1 as (Zb & Za & Zq).
  assert (Ec : m_cfg (w_mkt (s_w s2)) = m_cfg (w_mkt (s_w s))) by congruence.
  assert (Et2 : s_tok s2 = s_tok s) by congruence.
  destruct (owed_at_most _ _ _ R2 A2) as (O3 & O4 & O5 & O6 & O7 & O8).
  pose proof (reachable_funded _ R2) as ((_ & _) & (vb' & Vb' & _ & _ & Ab) & (vq' & Vq' & _ & _ & Aq)).
  rewrite Ec, Et2 in Vb', Vq'. rewrite Vb in Vb'. injection Vb' as <-. rewrite Vq in Vq'. injection Vq' as <-.
  assert (Hi : settles (ISettle (a_owner a) k ub uq None) k ub uq None) by (left; eexists; reflexivity).
  destruct (settle_possible e s2 (ISettle (a_owner a) k ub uq None) k ub uq None a2 R2 C2 Hi A2) as (s3 & H3).
  - cbn [permitted signer_of]. left. congruence.
  - rewrite Ec, Et2. exists xb. split; [exact Xb|]. split; [exact Mb|]. lia.
  - rewrite Ec, Et2. exists xq. split; [exact Xq|]. split; [exact Mq|]. lia.
  - exact I.
  - rewrite P2, Kp. exact Pn.
  - intros x [X|X]; rewrite Et2 in X; congruence.
  - pose proof (reach_step _ _ _ _ _ R2 H3) as R3. destruct (exec_settle _ _ _ _ _ _ _ _ _ H3 Hi) as (a0 & A0 & G & _). rewrite A2 in A0. injection A0 as <-.
    pose proof (settle_settlement _ _ _ _ _ _ _ R2 G A2) as [St _ _ _ Sa _ _]. cbv zeta in St, Sa. rewrite Ec, Et2, <- Fb, <- Fq, B2, Q2, B1, Q1 in St.
    destruct (reachable_inv _ R2) as (cl & ct & P & HI). pose proof (led_free _ _ (iv_led _ _ _ _ _ _ HI)) as Hf.
    destruct (settle_tokens _ _ _ _ _ _ _ Hf A2 G) as (_ & C3 & _). rewrite C2 in C3.
    assert (Hl : p_locked_fees (a_pos a2) - leftover (w_mkt (s_w s2)) (a_pos a2) = 0).
    { unfold leftover. rewrite Zb, Z.eqb_refl, andb_true_r. destruct (Z.ltb_spec 0 (maker_fee (w_mkt (s_w s2)))) as [F|F]; [lia|].
      pose proof (ul_none _ (reachable_unlocked _ R2 F) _ _ A2) as U. unfold locked in U. lia. }
    assert (H4 : exec e s3 (ICloseAccount (a_owner a) k) = Ok (s_set_w s3 (w_set_accts (s_w s3) (acct_del k (w_accts (s_w s3)))), ONone)).
    { eapply closes; [exact C3|exact Sa|cbn [a_owner a_set_pos]; congruence|].
      unfold position_is_empty. cbn [a_pos a_set_pos p_bids_base p_asks_base p_base_free p_quote_free p_locked_fees p_rebates p_penalty p_bids_quote].
      rewrite Zb, Za, Zq, Hl. cbn. apply orb_true_r. }
    eexists _, _. split; [|split; [|split]].
    + unfold leaving. eapply xs_more; [exact H1|]. rewrite <- M1. eapply executes_app; [exact X2|]. eapply xs_more; [exact H3|]. eapply xs_more; [exact H4|]. apply xs_none.
    + rewrite Eq1. reflexivity.
    + cbn [s_tok s_set_w]. exact St.
    + exact (proj1 (proj2 (proj2 (proj2 (close_account_ok _ _ _ _ _ _ _ R3 H4 Sa))))).
Qed.
