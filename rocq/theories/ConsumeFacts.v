(** Consuming events: it always works, delivers each chosen event once, and the order in
    which events are delivered does not matter. *)
From Coq Require Import ZArith List Bool Lia ZifyBool Permutation.
From Verif Require Import Base Nodes OrderTree BookSide Heap Market OpenOrders Order Book Instructions
  BaseFacts HeapFacts SpecBook SpecFees SpecHeap HeapSpecProofs FeeFacts SpecOrder MatchFacts Steps StepFacts
  SpecLedger SpecEvents Ledger LedgerOps LedgerMoves LedgerPlace LedgerOrder LedgerInv SpecSystem SystemFacts.
Import ListNotations.
Open Scope Z_scope.

(** ** One event *)
Lemma mem_key_in k l : mem_key k l = true <-> In k l.
Proof. unfold mem_key. rewrite existsb_exists. split; [intros (x & H & E); assert (k = x) as -> by lia; exact H|intros H; exists k; split; [exact H|lia]]. Qed.

Lemma without_one (q1 q2 : list (event * Z)) e s : NoDup (map snd (q1 ++ (e, s) :: q2)) ->
  without [(e, s)] (q1 ++ (e, s) :: q2) = q1 ++ q2.
Proof.
  intros Hnd. unfold without. rewrite filter_app. cbn [filter map snd mem_key existsb].
  rewrite Z.eqb_refl. cbn [orb negb].
  rewrite map_app in Hnd. cbn [map snd] in Hnd. pose proof (NoDup_remove_2 _ _ _ Hnd) as Hs.
  assert (G : forall l, ~ In s (map snd l) -> filter (fun x : event * Z => negb (mem_key (snd x) [s])) l = l).
  { intros l. induction l as [|[e1 s1] l IH]; intros Hl; [reflexivity|]. cbn [filter snd mem_key existsb].
    destruct (Z.eqb_spec s1 s) as [->|]; [exfalso; apply Hl; left; reflexivity|]. cbn [orb negb].
    f_equal. apply IH. intros H. apply Hl. right. exact H. }
  f_equal; apply G; intros H; apply Hs; apply in_or_app; auto.
Qed.

Lemma without_nil q : without [] q = q.
Proof. unfold without. induction q as [|x q IH]; [reflexivity|]. cbn [filter map mem_key existsb negb]. f_equal. exact IH. Qed.

Lemma without_app d1 d2 q : without d2 (without d1 q) = without (d1 ++ d2) q.
Proof.
  unfold without. rewrite map_app. induction q as [|x q IH]; [reflexivity|]. cbn [filter].
  assert (E : mem_key (snd x) (map snd d1 ++ map snd d2) = mem_key (snd x) (map snd d1) || mem_key (snd x) (map snd d2))
    by (unfold mem_key; apply existsb_app).
  rewrite E. destruct (mem_key (snd x) (map snd d1)); cbn [negb orb]; [exact IH|]. cbn [filter].
  destruct (mem_key (snd x) (map snd d2)); cbn [negb]; [exact IH|]. f_equal. exact IH.
Qed.

Lemma without_in x d q : In x (without d q) <-> In x q /\ ~ In (snd x) (map snd d).
Proof. unfold without. rewrite filter_In, negb_true_iff, <- not_true_iff_false, mem_key_in. reflexivity. Qed.

Lemma delivered_heap w h e : delivered (w_set_heap w h) e = w_set_heap (delivered w e) h.
Proof. unfold delivered. cbn [w_set_heap w_accts]. destruct (acct_get _ _); [|reflexivity]. destruct e; reflexivity. Qed.
Lemma deliver_heap es : forall w h, deliver (w_set_heap w h) es = w_set_heap (deliver w es) h.
Proof. induction es as [|e es IH]; intros w h; [reflexivity|]. unfold deliver in *. cbn [fold_left]. rewrite delivered_heap. apply IH. Qed.
Lemma deliver_cons w e es : deliver w (e :: es) = deliver (delivered w e) es.
Proof. reflexivity. Qed.
Lemma deliver_app w a b : deliver w (a ++ b) = deliver (deliver w a) b.
Proof. apply fold_left_app. Qed.

Lemma mkt_bounds w db dq cl ct P : Inv w db dq cl ct P ->
  vol_all (w_mkt w) P <= 340282366920938463463374607431768211455 /\
  fee_all (w_mkt w) P <= 340282366920938463463374607431768211455.
Proof.
  intros HI. pose proof (iv_vol _ _ _ _ _ _ HI) as V. pose proof (iv_fee _ _ _ _ _ _ HI) as F.
  pose proof (mk_seq _ (ld_mkt _ _ _ (iv_led _ _ _ _ _ _ HI))) as S. unfold u64_ok in S. lia.
Qed.

Lemma gaps_perm m ac P Q : Permutation P Q -> base_gap m ac P = base_gap m ac Q /\ quote_gap m ac P = quote_gap m ac Q /\
  vol_all m P = vol_all m Q /\ fee_all m P = fee_all m Q.
Proof. intros H. unfold base_gap, quote_gap, vol_all, fee_all. rewrite !(fun f => psum_perm f _ _ H). auto. Qed.

Lemma consume_one_ok w cl ct P q rem e slot : Inv w 0 0 cl ct P -> heap_ok (w_heap w) q -> In (e, slot) q ->
  exists w', consume_one w rem slot = Ok w' /\
  if present rem (e, slot) then
    heap_ok (w_heap w') (without [(e, slot)] q) /\ w' = w_set_heap (delivered w e) (w_heap w')
  else w' = w.
Proof.
  intros HI Hh Hin. pose proof HI as [HR HL HB HQ _ _ _ _]. destruct (mkt_bounds _ _ _ _ _ _ HI) as [HV HF].
  pose proof (at_slot_in _ _ _ _ Hh Hin) as He. unfold consume_one. rewrite He. cbn [unwrap bind]. unfold present. cbn [fst].
  apply in_split in Hin as (q1 & q2 & Eq). pose proof (heap_ok_nodup _ _ Hh) as Hnd.
  assert (Hdel : exists h', delete_slot (w_heap w) slot = Ok (h', e) /\ heap_ok h' (without [(e, slot)] q)).
  { rewrite Eq in Hh, Hnd. destruct Hh as (F & Hr). destruct (delete_slot_rep _ _ _ _ _ _ Hr) as (h' & E & Hr' & _).
    exists h'. split; [exact E|]. rewrite Eq, without_one by exact Hnd. exists (slot :: F). exact Hr'. }
  destruct Hdel as (h' & Hd & Hh').
  destruct (event_piece _ _ _ _ (rp_heap _ _ HR) He) as (L & L1 & L2 & _ & _ & _ & P0 & Hev & _).
  destruct e as [f|o]; cbn [ev_owner].
  - destruct (mem_key (fe_maker f) rem); [|exists w; auto]. destruct Hev as (id & HP).
    pose proof (led_perm _ _ _ _ HP HL) as HL0.
    destruct (ld_back _ _ _ HL0 _ (or_introl eq_refl)) as (a & Ha & _). cbn [pc_owner] in Ha.
    destruct (exec_ok (w_mkt w) (w_accts w) P0 f id a HL0 Ha) as (a' & m' & Hx).
    1-4: destruct (gaps_perm (w_mkt w) (w_accts w) _ _ HP) as (G1 & G2 & G3 & G4); lia.
    destruct (led_exec (w_mkt w) (w_accts w) P0 f id a HL0 Ha a' m' Hx) as (_ & _ & Ea & Em).
    unfold acct_load. rewrite Ha. cbn [bind]. rewrite Hx. cbn [bind]. rewrite Hd. cbn [bind].
    eexists. split; [reflexivity|]. split; [exact Hh'|]. unfold delivered. cbn [ev_owner]. rewrite Ha. subst a' m'. reflexivity.
  - destruct (mem_key (oe_owner o) rem); [|exists w; auto]. destruct Hev as (lp & id & HP).
    pose proof (led_perm _ _ _ _ HP HL) as HL0.
    destruct (ld_back _ _ _ HL0 _ (or_introl eq_refl)) as (a & Ha & Hsl). cbn [pc_owner pc_slot] in Ha, Hsl.
    destruct (Hsl eq_refl) as (oo & Hoo & (_ & Hsd & _ & Hlp)). cbn [pc_side] in Hsd.
    destruct (cancel_out_ok (w_mkt w) (w_accts w) P0 o lp id a HL0 Ha) as (a' & Hx).
    1-2: destruct (gaps_perm (w_mkt w) (w_accts w) _ _ HP) as (G1 & G2 & _ & _); lia.
    destruct (led_out (w_mkt w) (w_accts w) P0 o lp id a HL0 Ha a' Hx) as (_ & _ & Ea).
    unfold acct_load. rewrite Ha. cbn [bind]. rewrite Hx. cbn [bind]. rewrite Hd. cbn [bind].
    eexists. split; [reflexivity|]. split; [exact Hh'|]. unfold delivered, cancelled. cbn [ev_owner]. rewrite Ha, Hoo, Hsd, Hlp.
    subst a'. reflexivity.
Qed.

Lemma consume_loop_ok : forall xs w cl ct P q rem, Inv w 0 0 cl ct P -> heap_ok (w_heap w) q ->
  NoDup (map snd xs) -> incl xs q ->
  exists w', consume_loop w rem (map snd xs) = Ok w' /\ (exists P', Inv w' 0 0 cl ct P') /\
    heap_ok (w_heap w') (without (filter (present rem) xs) q) /\
    w' = w_set_heap (deliver w (map fst (filter (present rem) xs))) (w_heap w').
Proof.
  induction xs as [|[e slot] xs IH]; intros w cl ct P q rem HI Hh Hnd Hin.
  - exists w. cbn [map filter consume_loop deliver fold_left]. rewrite without_nil. repeat split; [exists P; exact HI|exact Hh|].
    destruct w; reflexivity.
  - cbn [map snd] in Hnd. apply NoDup_cons_iff in Hnd as [Hns Hnd].
    destruct (consume_one_ok _ _ _ _ _ rem _ _ HI Hh (Hin _ (or_introl eq_refl))) as (w1 & H1 & Hw1).
    destruct (consume_led _ _ _ _ _ _ _ _ _ HI H1) as (P1 & HI1).
    cbn [map snd consume_loop filter]. rewrite H1. cbn [bind].
    destruct (present rem (e, slot)).
    + destruct Hw1 as [Hh1 Ew1].
      destruct (IH w1 cl ct P1 (without [(e, slot)] q) rem HI1 Hh1 Hnd) as (w' & H' & HP' & Hh' & Ew').
      { intros x Hx. apply without_in. split; [apply Hin; right; exact Hx|]. cbn [map snd]. intros [E|[]].
        apply Hns. rewrite E. apply in_map. exact Hx. }
      exists w'. split; [exact H'|]. split; [exact HP'|]. rewrite without_app in Hh'. split; [exact Hh'|].
      cbn [map fst]. rewrite deliver_cons. rewrite Ew1, deliver_heap in Ew'. rewrite Ew'. cbn [w_set_heap w_heap]. reflexivity.
    + subst w1. exact (IH w cl ct P1 q rem HI1 Hh Hnd (fun x Hx => Hin x (or_intror Hx))).
Qed.

(** ** Which events are chosen *)
Lemma unique_nodup : forall l seen, NoDup (unique seen l) /\ forall x, In x (unique seen l) <-> In x l /\ ~ In x seen.
Proof.
  induction l as [|y l IH]; intros seen; cbn [unique].
  - split; [constructor|]. intros x. split; [intros []|intros [[] _]].
  - destruct (mem_key y seen) eqn:E.
    + apply mem_key_in in E. destruct (IH seen) as [N H]. split; [exact N|]. intros x. rewrite H. cbn [In].
      split; [intros [A B]; auto|]. intros [[->|A] B]; [contradiction|auto].
    + assert (Hy : ~ In y seen) by (rewrite <- mem_key_in, E; discriminate).
      destruct (IH (y :: seen)) as [N H]. split.
      * constructor; [|exact N]. rewrite H. cbn [In]. tauto.
      * intros x. cbn [In]. rewrite H. cbn [In]. destruct (Z.eq_dec y x) as [->|]; tauto.
Qed.

Lemma unique_id : forall l seen, NoDup l -> (forall x, In x l -> ~ In x seen) -> unique seen l = l.
Proof.
  induction l as [|y l IH]; intros seen Hnd Hs; [reflexivity|]. cbn [unique].
  apply NoDup_cons_iff in Hnd as [Hn Hnd]. destruct (mem_key y seen) eqn:E.
  - apply mem_key_in in E. exfalso. exact (Hs y (or_introl eq_refl) E).
  - f_equal. apply IH; [exact Hnd|]. intros x Hx [->|H]; [exact (Hn Hx)|]. exact (Hs x (or_intror Hx) H).
Qed.

Lemma slots_entries (q : list (event * Z)) : forall ss, incl ss (map snd q) -> exists xs, ss = map snd xs /\ incl xs q.
Proof.
  induction ss as [|s ss IH]; intros H; [exists []; split; [reflexivity|intros x []]|].
  destruct (IH (fun x Hx => H x (or_intror Hx))) as (xs & -> & Hxs).
  pose proof (H s (or_introl eq_refl)) as Hs. apply in_map_iff in Hs as ([e s'] & E & Hin). cbn [snd] in E. subst s'.
  exists ((e, s) :: xs). split; [reflexivity|]. intros x [<-|Hx]; [exact Hin|exact (Hxs x Hx)].
Qed.
Lemma entries_inj (q xs ys : list (event * Z)) : NoDup (map snd q) -> incl xs q -> incl ys q -> map snd xs = map snd ys -> xs = ys.
Proof.
  intros Hnd. revert ys. induction xs as [|[e s] xs IH]; intros [|[e' s'] ys] Hx Hy E; try discriminate; [reflexivity|].
  cbn [map snd] in E. injection E as <- E. f_equal.
  - f_equal. pose proof (Hx _ (or_introl eq_refl)) as H1. pose proof (Hy _ (or_introl eq_refl)) as H2.
    clear -Hnd H1 H2. induction q as [|[e0 s0] q IH]; [destruct H1|]. cbn [map snd] in Hnd. apply NoDup_cons_iff in Hnd as [Hn Hnd].
    destruct H1 as [E1|H1], H2 as [E2|H2].
    + congruence.
    + injection E1 as -> ->. exfalso. apply Hn. apply in_map_iff. exists (e', s). auto.
    + injection E2 as -> ->. exfalso. apply Hn. apply in_map_iff. exists (e, s). auto.
    + auto.
  - apply IH; [| |exact E]; intros x H; [apply Hx|apply Hy]; right; exact H.
Qed.
Lemma nodup_firstn {A} n (l : list A) : NoDup l -> NoDup (firstn n l).
Proof. intros H. rewrite <- (firstn_skipn n l) in H. apply nodup_app_l in H. exact H. Qed.
Lemma in_firstn {A} n (l : list A) x : In x (firstn n l) -> In x l.
Proof. intros H. rewrite <- (firstn_skipn n l). apply in_or_app. left. exact H. Qed.

Lemma used_in h q s : heap_ok h q -> 0 <= s < 600 -> negb (hn_is_free (h_nodes h s)) = mem_key s (map snd q).
Proof.
  intros Hh Hs. assert (E : at_slot h s = if hn_is_free (h_nodes h s) then None else Some (hn_event (h_nodes h s))).
  { unfold at_slot, MAX_EVENTS. replace (s <? 0) with false by lia. replace (600 <=? s) with false by lia. reflexivity. }
  apply eq_true_iff_eq. rewrite mem_key_in. split.
  - intros H. destruct (in_dec Z.eq_dec s (map snd q)) as [Hin|Hn]; [exact Hin|].
    rewrite (at_slot_none _ _ _ Hh (proj1 Hs) Hn) in E. destruct (hn_is_free _); discriminate.
  - intros H. apply in_map_iff in H as ([e s'] & Es & Hin). cbn [snd] in Es. subst s'.
    rewrite (at_slot_in _ _ _ _ Hh Hin) in E. destruct (hn_is_free _); [discriminate|reflexivity].
Qed.
Lemma given_in h q slots : heap_ok h q -> Forall (fun z => 0 <= z < 600) slots ->
  filter (fun s => negb (hn_is_free (h_nodes h s))) slots = filter (fun s => mem_key s (map snd q)) slots.
Proof.
  intros Hh Hs. induction Hs as [|s l Hs _ IH]; [reflexivity|]. cbn [filter]. rewrite IH, (used_in _ _ _ Hh Hs). reflexivity.
Qed.

(** The entries a call is to look at. *)
Definition targets (q : list (event * Z)) (slots : list Z) (n : Z) : list Z :=
  firstn (Z.to_nat n) (unique [] (filter (fun s => mem_key s (map snd q)) slots ++ map snd q)).

Lemma targets_entries q slots n : NoDup (map snd q) ->
  exists xs, targets q slots n = map snd xs /\ incl xs q /\ NoDup (map snd xs).
Proof.
  intros Hnd. destruct (unique_nodup (filter (fun s => mem_key s (map snd q)) slots ++ map snd q) []) as [N H].
  destruct (slots_entries q (targets q slots n)) as (xs & E & Hin).
  { intros x Hx. apply in_firstn in Hx. apply H in Hx as [Hx _]. apply in_app_or in Hx as [Hx|Hx]; [|exact Hx].
    apply filter_In in Hx as [_ Hx]. apply mem_key_in. exact Hx. }
  exists xs. split; [exact E|]. split; [exact Hin|]. rewrite <- E. apply nodup_firstn. exact N.
Qed.

Lemma consume_ok w cl ct P q limit slots rem : Inv w 0 0 cl ct P -> heap_ok (w_heap w) q ->
  Forall (fun z => 0 <= z < 600) slots ->
  exists w' xs, consume_events_ix w limit slots rem = Ok w' /\
    targets q slots (Z.min limit 8) = map snd xs /\ incl xs q /\ NoDup (map snd xs) /\
    (exists P', Inv w' 0 0 cl ct P') /\
    heap_ok (w_heap w') (without (filter (present rem) xs) q) /\
    w' = w_set_heap (deliver w (map fst (filter (present rem) xs))) (w_heap w').
Proof.
  intros HI Hh Hs. destruct (targets_entries q slots (Z.min limit 8) (heap_ok_nodup _ _ Hh)) as (xs & E & Hin & Hnd).
  destruct (consume_loop_ok xs w cl ct P q rem HI Hh Hnd Hin) as (w' & H & HP & Hh' & Ew).
  exists w', xs. refine (conj _ (conj E (conj Hin (conj Hnd (conj HP (conj Hh' Ew)))))). unfold consume_events_ix, slots_to_consume, MAX_EVENTS_CONSUME. rewrite (heap_iter_rep _ _ Hh). cbn [bind]. cbv zeta.
  rewrite (given_in _ _ _ Hh Hs). unfold targets in E. rewrite E. exact H.
Qed.

(** ** The order of delivery *)
Definition last_key (e : event) : list (Z * nat) := if ev_final e then [(ev_owner e, Z.to_nat (ev_slot e))] else [].

Lemma acct_set_swap k1 k2 a b ac : k1 <> k2 -> acct_set k1 a (acct_set k2 b ac) = acct_set k2 b (acct_set k1 a ac).
Proof.
  intros Hn. induction ac as [|[k c] ac IH]; [reflexivity|]. cbn [acct_set].
  destruct (Z.eqb_spec k2 k) as [E2|E2], (Z.eqb_spec k1 k) as [E1|E1]; cbn [acct_set].
  - congruence.
  - destruct (Z.eqb_spec k1 k); [congruence|]. destruct (Z.eqb_spec k2 k); congruence.
  - destruct (Z.eqb_spec k2 k); [congruence|]. destruct (Z.eqb_spec k1 k); congruence.
  - destruct (Z.eqb_spec k1 k); [congruence|]. destruct (Z.eqb_spec k2 k); [congruence|]. f_equal. exact IH.
Qed.
Lemma acct_set_twice k a b ac : acct_set k a (acct_set k b ac) = acct_set k a ac.
Proof.
  induction ac as [|[k' c] ac IH]; [reflexivity|]. cbn [acct_set]. destruct (Z.eqb_spec k k'); cbn [acct_set].
  - destruct (Z.eqb_spec k k'); [reflexivity|congruence].
  - destruct (Z.eqb_spec k k'); [congruence|]. f_equal. exact IH.
Qed.
Lemma set_nth_swap {A} (v : A) : forall n m l, set_nth n v (set_nth m v l) = set_nth m v (set_nth n v l).
Proof.
  induction n as [|n IH]; intros [|m] [|x l]; try reflexivity. cbn [set_nth]. f_equal. apply IH.
Qed.

(** What an event does to the account and the market. *)
Definition ev_acct (m : market) (a : ooa) (e : event) : ooa :=
  match e with EFill f => filled m a f | EOut o => cancelled m a (oe_slot o) (oe_qty o) end.
Definition ev_mkt (m : market) (e : event) : market := match e with EFill f => filled_mkt m f | EOut _ => m end.
Lemma delivered_alt w e : delivered w e =
  match acct_get (ev_owner e) (w_accts w) with
  | None => w
  | Some a => w_set_acct (w_set_mkt w (ev_mkt (w_mkt w) e)) (ev_owner e) (ev_acct (w_mkt w) a e)
  end.
Proof. unfold delivered. destruct (acct_get _ _); [|reflexivity]. destruct e; [reflexivity|]. cbn [ev_mkt]. destruct w; reflexivity. Qed.

Lemma ev_acct_mkt m a e e' : ev_acct (ev_mkt m e') a e = ev_acct m a e.
Proof. destruct e' as [f'|o']; [|reflexivity]. destruct e as [f|o]; reflexivity. Qed.
Lemma ev_mkt_swap m e e' : ev_mkt (ev_mkt m e) e' = ev_mkt (ev_mkt m e') e.
Proof.
  destruct e as [f|o], e' as [f'|o']; try reflexivity. cbn [ev_mkt]. unfold filled_mkt at 1 3.
  change (fill_fee (filled_mkt m f) f') with (fill_fee m f'). change (fill_fee (filled_mkt m f') f) with (fill_fee m f).
  change (fill_quote (filled_mkt m f) f') with (fill_quote m f'). change (fill_quote (filled_mkt m f') f) with (fill_quote m f).
  unfold filled_mkt. generalize (fill_fee m f), (fill_fee m f'), (fill_quote m f), (fill_quote m f'). intros a b c d.
  unfold m_set_fees_accrued, m_set_maker_volume, m_set_rebates_accrued. cbn. f_equal; ring.
Qed.

Lemma order_at_nat a i j oo : Z.to_nat i <> Z.to_nat j -> order_at (set_order_at a i oo) j = order_at a j.
Proof.
  intros Hn. unfold order_at, set_order_at. destruct (massert (0 <=? j)); [|reflexivity]. cbn [bind a_orders a_set_orders].
  rewrite nth_error_set_nth_neq by exact Hn. reflexivity.
Qed.
Lemma freed_freed a i p j q : freed (freed a i p) j q = freed (freed a j p) i q.
Proof. unfold freed, set_order_at, a_set_pos, a_set_orders. cbn. f_equal. apply set_nth_swap. Qed.

(** An account's position and slots after an event, separately. *)
Definition ev_pos (m : market) (a : ooa) (p : position) (e : event) : position :=
  match e with
  | EFill f => filled_pos m p f
  | EOut o => match order_at a (oe_slot o) with
              | Ok oo => cancelled_pos m p (oo_side oo) (oe_qty o) (oo_locked_price oo)
              | Err _ => p
              end
  end.
Definition ev_clears (a : ooa) (e : event) : bool :=
  ev_final e && match e with EFill _ => true | EOut o => match order_at a (oe_slot o) with Ok _ => true | Err _ => false end end.
Definition ev_orders (a : ooa) (e : event) : list open_order :=
  if ev_clears a e then set_nth (Z.to_nat (ev_slot e)) open_order0 (a_orders a) else a_orders a.
Lemma ev_acct_alt m a e : ev_acct m a e = a_set_orders (a_set_pos a (ev_pos m a (a_pos a) e)) (ev_orders a e).
Proof.
  destruct e as [f|o]; cbn [ev_acct ev_pos]; unfold ev_orders, ev_clears; cbn [ev_final ev_slot].
  - unfold filled. destruct (fe_maker_out f); reflexivity.
  - unfold cancelled. cbn [andb]. destruct (order_at a (oe_slot o)); [reflexivity|]. destruct a; reflexivity.
Qed.

Lemma ev_other_slot m a e e' : (ev_final e = true -> ev_final e' = true -> Z.to_nat (ev_slot e) <> Z.to_nat (ev_slot e')) ->
  ev_final e' = true -> order_at (ev_acct m a e) (ev_slot e') = order_at a (ev_slot e').
Proof.
  intros Hd Hf. rewrite ev_acct_alt. unfold ev_orders, ev_clears. destruct (ev_final e) eqn:E; [|reflexivity]. cbn [andb].
  destruct (match e with EFill _ => true | EOut o => _ end); [|reflexivity].
  exact (order_at_nat (a_set_pos a (ev_pos m a (a_pos a) e)) (ev_slot e) (ev_slot e') open_order0 (Hd eq_refl Hf)).
Qed.

Lemma pos_swap m a p e e' : ev_pos m a (ev_pos m a p e) e' = ev_pos m a (ev_pos m a p e') e.
Proof.
  destruct e as [f|o], e' as [f'|o']; cbn [ev_pos].
  - unfold filled_pos. cbv zeta. destruct (fill_side f), (fill_side f'); cbn; f_equal; ring.
  - destruct (order_at a (oe_slot o')) as [oo|]; [|reflexivity].
    unfold filled_pos, cancelled_pos. cbv zeta. destruct (fill_side f), (oo_side oo); cbn; f_equal; ring.
  - destruct (order_at a (oe_slot o)) as [oo|]; [|reflexivity].
    unfold filled_pos, cancelled_pos. cbv zeta. destruct (fill_side f'), (oo_side oo); cbn; f_equal; ring.
  - destruct (order_at a (oe_slot o)) as [oo|], (order_at a (oe_slot o')) as [oo'|]; try reflexivity.
    unfold cancelled_pos. cbv zeta. destruct (oo_side oo), (oo_side oo'); cbn; f_equal; ring.
Qed.

Lemma ev_pos_same m a a' p e : (ev_final e = true -> order_at a' (ev_slot e) = order_at a (ev_slot e)) -> ev_pos m a' p e = ev_pos m a p e.
Proof. intros H. destruct e as [f|o]; [reflexivity|]. cbn [ev_pos ev_final ev_slot] in *. rewrite (H eq_refl). reflexivity. Qed.
Lemma ev_clears_same a a' e : (ev_final e = true -> order_at a' (ev_slot e) = order_at a (ev_slot e)) -> ev_clears a' e = ev_clears a e.
Proof. intros H. destruct e as [f|o]; [reflexivity|]. unfold ev_clears. cbn [ev_final ev_slot] in *. rewrite (H eq_refl). reflexivity. Qed.

Lemma ev_acct_swap m a e e' : (ev_final e = true -> ev_final e' = true -> Z.to_nat (ev_slot e) <> Z.to_nat (ev_slot e')) ->
  ev_acct m (ev_acct m a e) e' = ev_acct m (ev_acct m a e') e.
Proof.
  intros Hd. assert (Hd' : ev_final e' = true -> ev_final e = true -> Z.to_nat (ev_slot e') <> Z.to_nat (ev_slot e)) by (intros A B C; exact (Hd B A (eq_sym C))).
  rewrite (ev_acct_alt m (ev_acct m a e) e'), (ev_acct_alt m (ev_acct m a e') e).
  rewrite (ev_pos_same m a (ev_acct m a e) _ e' (ev_other_slot m a e e' Hd)).
  rewrite (ev_pos_same m a (ev_acct m a e') _ e (ev_other_slot m a e' e Hd')).
  unfold ev_orders. rewrite (ev_clears_same a (ev_acct m a e) e' (ev_other_slot m a e e' Hd)).
  rewrite (ev_clears_same a (ev_acct m a e') e (ev_other_slot m a e' e Hd')).
  rewrite !ev_acct_alt. unfold ev_orders. cbn [a_set_orders a_set_pos a_pos a_orders a_owner a_delegate a_num a_version].
  rewrite (pos_swap m a _ e e'). unfold a_set_orders, a_set_pos. cbn [a_owner a_delegate a_num a_version a_pos a_orders].
  f_equal. destruct (ev_clears a e), (ev_clears a e'); try reflexivity. apply set_nth_swap.
Qed.

Lemma delivered_swap w e e' :
  (ev_owner e = ev_owner e' -> ev_final e = true -> ev_final e' = true -> Z.to_nat (ev_slot e) <> Z.to_nat (ev_slot e')) ->
  delivered (delivered w e) e' = delivered (delivered w e') e.
Proof.
  intros Hd. rewrite (delivered_alt w e), (delivered_alt w e').
  destruct (Z.eq_dec (ev_owner e) (ev_owner e')) as [Eo|Eo].
  - rewrite <- Eo. destruct (acct_get (ev_owner e) (w_accts w)) as [a|] eqn:Ha.
    + rewrite !delivered_alt. cbn [w_set_acct w_set_accts w_set_mkt w_accts w_mkt]. rewrite <- Eo.
      rewrite !(get_set_same _ _ _ _ Ha). rewrite !ev_acct_mkt, (ev_mkt_swap _ e e'), (ev_acct_swap _ a e e' (Hd Eo)).
      unfold w_set_acct, w_set_accts, w_set_mkt. cbn [w_accts w_mkt w_bids w_asks w_heap]. rewrite !acct_set_twice. reflexivity.
    + rewrite !delivered_alt, <- Eo, Ha. reflexivity.
  - destruct (acct_get (ev_owner e) (w_accts w)) as [a|] eqn:Ha, (acct_get (ev_owner e') (w_accts w)) as [b|] eqn:Hb;
      rewrite !delivered_alt; cbn [w_set_acct w_set_accts w_set_mkt w_accts w_mkt];
      rewrite ?get_set_other by congruence; rewrite ?Ha, ?Hb; try reflexivity.
    rewrite !ev_acct_mkt, (ev_mkt_swap _ e e').
    unfold w_set_acct, w_set_accts, w_set_mkt. cbn [w_accts w_mkt w_bids w_asks w_heap]. rewrite acct_set_swap by congruence. reflexivity.
Qed.

Lemma deliver_perm es es' : Permutation es es' -> NoDup (flat_map last_key es) -> forall w, deliver w es = deliver w es'.
Proof.
  induction 1 as [|e es es' _ IH|e1 e2 es|es1 es2 es3 H1 IH1 _ IH2]; intros Hnd w.
  - reflexivity.
  - rewrite !deliver_cons. apply IH. cbn [flat_map] in Hnd. eapply nodup_app_r. exact Hnd.
  - rewrite !deliver_cons. f_equal. apply delivered_swap. intros Eo F2 F1 Es. cbn [flat_map] in Hnd.
    unfold last_key in Hnd. rewrite F1, F2, Eo, Es in Hnd. cbn [app] in Hnd. inversion Hnd as [|? ? N _]. apply N. left. reflexivity.
  - rewrite IH1 by exact Hnd. apply IH2. eapply Permutation_NoDup; [|exact Hnd]. apply Permutation_flat_map. exact H1.
Qed.

(** Final events never share a slot. *)
Lemma led_last_keys m ac P : Led m ac P -> NoDup (flat_map last_key (pevents P)).
Proof.
  intros HL.
  assert (H1 : forall k i, psum (in_slot k i) P <= 1).
  { intros k i. destruct (Z_le_gt_dec (psum (in_slot k i) P) 1) as [H|H]; [exact H|]. exfalso.
    assert (G : exists p, In p P /\ pc_owner p = k).
    { clear -H. induction P as [|p P IH]; [unfold psum in H; cbn in H; lia|]. rewrite psum_cons in H.
      destruct (Z.eq_dec (pc_owner p) k) as [E|E]; [exists p; split; [left; reflexivity|exact E]|].
      unfold in_slot at 1 in H. replace (pc_owner p =? k) with false in H by lia. rewrite andb_false_r in H. cbn [andb] in H.
      destruct (IH H) as (q & Hq & Eq). exists q. split; [right; exact Hq|exact Eq]. }
    destruct G as (p & Hp & <-). destruct (ld_back _ _ _ HL p Hp) as (a & Ha & _).
    rewrite (ac_slots _ _ _ _ (ld_acct _ _ _ HL _ _ Ha) i) in H. unfold used in H. destruct (order_at a i) as [oo|]; [destruct (oo_free oo)|]; lia. }
  assert (H2 : forall p, In p P -> pc_last p = true -> 0 <= pc_slot p).
  { intros p Hp Hl. destruct (ld_back _ _ _ HL p Hp) as (a & _ & H). destruct (H Hl) as (oo & Ho & _). exact (order_at_nonneg _ _ _ Ho). }
  clear HL. induction P as [|p P IH]; [constructor|].
  assert (IHP : NoDup (flat_map last_key (pevents P))).
  { apply IH; [|intros q Hq; apply H2; right; exact Hq]. intros k i. specialize (H1 k i). rewrite psum_cons in H1.
    pose proof (in_slot_nonneg k i p). lia. }
  assert (G : forall e, pc_last p = ev_final e -> pc_owner p = ev_owner e -> pc_slot p = ev_slot e ->
    NoDup (last_key e ++ flat_map last_key (pevents P))).
  { intros e E1 E2 E3. unfold last_key at 1. destruct (ev_final e); [|exact IHP]. cbn [app]. constructor; [|exact IHP].
    intros Hin. apply in_flat_map in Hin as (e' & He' & Hin). unfold last_key in Hin. destruct (ev_final e') eqn:Ef; [|destruct Hin].
    destruct Hin as [Hin|[]]. injection Hin as K1 K2.
    assert (Hq : exists q, In q P /\ pc_last q = true /\ pc_owner q = ev_owner e' /\ pc_slot q = ev_slot e').
    { unfold pevents in He'. apply in_flat_map in He' as (q & Hq & Hqe). exists q. split; [exact Hq|].
      destruct q as [s t l lp|o lp id|f id]; [destruct Hqe| |]; destruct Hqe as [<-|[]]; auto. }
    destruct Hq as (q & Hq & Q1 & Q2 & Q3). pose proof (H2 q (or_intror Hq) Q1) as S1.
    pose proof (H2 p (or_introl eq_refl) E1) as S2.
    assert (Es : pc_slot q = pc_slot p) by lia.
    specialize (H1 (pc_owner p) (pc_slot p)). rewrite psum_cons in H1. rewrite (in_slot_own p E1) in H1.
    pose proof (psum_in (in_slot (pc_owner p) (pc_slot p)) P q (fun r _ => in_slot_nonneg _ _ r) Hq) as Hs.
    replace (in_slot (pc_owner p) (pc_slot p) q) with 1 in Hs; [lia|]. rewrite <- Es.
    replace (pc_owner p) with (pc_owner q) by congruence. symmetry. apply in_slot_own. exact Q1. }
  destruct p as [s t l lp|o lp id|f id]; [exact IHP| |].
  - exact (G (EOut o) eq_refl eq_refl eq_refl).
  - exact (G (EFill f) eq_refl eq_refl eq_refl).
Qed.

(** ** The instructions *)
Lemma unique_dedup : forall l acc seen, (forall x, In x seen <-> In x acc) ->
  fold_left (fun acc x => if mem_key x acc then acc else acc ++ [x]) l acc = acc ++ unique seen l.
Proof.
  induction l as [|y l IH]; intros acc seen H; cbn [fold_left unique]; [symmetry; apply app_nil_r|].
  assert (E : mem_key y acc = mem_key y seen).
  { apply eq_true_iff_eq. rewrite !mem_key_in. symmetry. apply H. }
  rewrite E. destruct (mem_key y seen); [apply IH; exact H|].
  rewrite (IH (acc ++ [y]) (y :: seen)); [rewrite <- app_assoc; reflexivity|].
  intros x. rewrite in_app_iff. cbn [In]. rewrite H. tauto.
Qed.
Lemma dedup_unique l : dedup l = unique [] l.
Proof. unfold dedup. rewrite (unique_dedup l [] []); [reflexivity|tauto]. Qed.

Lemma filter_none {A} (f : A -> bool) l : (forall x, In x l -> f x = false) -> filter f l = [].
Proof. induction l as [|x l IH]; intros H; [reflexivity|]. cbn [filter]. rewrite (H x (or_introl eq_refl)). apply IH. intros y Hy. apply H. right. exact Hy. Qed.
Lemma at_slot_one (q : list (event * Z)) x : NoDup (map snd q) -> In x q -> filter (fun y => snd y =? snd x) q = [x].
Proof.
  intros Hnd Hin. apply in_split in Hin as (q1 & q2 & ->). rewrite map_app in Hnd. cbn [map] in Hnd. apply NoDup_remove_2 in Hnd.
  rewrite filter_app. cbn [filter]. rewrite Z.eqb_refl.
  rewrite !filter_none; [reflexivity| |]; intros y Hy; apply Z.eqb_neq; intros E; apply Hnd; apply in_or_app; [right|left]; rewrite <- E; apply in_map; exact Hy.
Qed.
Lemma at_slots_entries q : NoDup (map snd q) -> forall xs, incl xs q -> at_slots q (map snd xs) = xs.
Proof.
  intros Hnd. induction xs as [|x xs IH]; intros H; [reflexivity|]. unfold at_slots in *. cbn [map flat_map].
  rewrite (at_slot_one q x Hnd (H x (or_introl eq_refl))). cbn [app]. f_equal. apply IH. intros y Hy. apply H. right. exact Hy.
Qed.
Lemma targets_looked q slots n xs : NoDup (map snd q) -> targets q slots n = map snd xs -> incl xs q -> looked_at q slots (Z.to_nat n) = xs.
Proof.
  intros Hnd E Hin. unfold looked_at. rewrite dedup_unique. unfold targets in E. rewrite E. apply at_slots_entries; assumption.
Qed.
Lemma looked_front q n : NoDup (map snd q) -> looked_at q [] n = firstn n q.
Proof.
  intros Hnd. unfold looked_at. cbn [filter app]. rewrite dedup_unique, unique_id by (auto). rewrite firstn_map.
  apply at_slots_entries; [exact Hnd|]. intros x Hx. exact (in_firstn _ _ _ Hx).
Qed.

Lemma queue_ok w q : heap_ok (w_heap w) q -> queue_of w = q.
Proof. intros H. unfold queue_of. rewrite (heap_iter_rep _ _ H). reflexivity. Qed.
Lemma reachable_queue s : reachable s -> exists cl ct P, Inv (s_w s) 0 0 cl ct P /\ heap_ok (w_heap (s_w s)) (queue_of (s_w s)) /\
  Permutation (waiting (s_w s)) (pevents P).
Proof.
  intros H. apply reachable_inv in H as (cl & ct & P & HI). exists cl, ct, P. split; [exact HI|].
  split; [|apply rep_waiting; exact (iv_rep _ _ _ _ _ _ HI)]. destruct (rp_heap _ _ (iv_rep _ _ _ _ _ _ HI)) as (L & Hh & _). rewrite (queue_ok _ _ Hh). exact Hh.
Qed.

(** What a successful call did. *)
Lemma lift_w_ok s w' : lift_w s (Ok w') = Ok (s_set_w s w', ONone).
Proof. reflexivity. Qed.

Lemma consume_ix_ok s limit slots rem : reachable s -> Forall (fun z => 0 <= z < 600) slots ->
  exists w', consume_events_ix (s_w s) limit slots rem = Ok w' /\
  let done := filter (present rem) (looked_at (queue_of (s_w s)) slots (Z.to_nat (Z.min limit 8))) in
  consumes s done (s_set_w s w') /\ incl done (queue_of (s_w s)) /\ NoDup (map snd done).
Proof.
  intros Hr Hs. destruct (reachable_queue _ Hr) as (cl & ct & P & HI & Hh & _).
  destruct (consume_ok _ _ _ _ _ limit slots rem HI Hh Hs) as (w' & xs & H & Ex & Hin & Hnd & _ & Hh' & Ew).
  exists w'. split; [exact H|]. cbv zeta. rewrite (targets_looked _ _ _ _ (heap_ok_nodup _ _ Hh) Ex Hin).
  split; [|split].
  - unfold consumes. cbn [s_w s_set_w s_tok s_closed]. split; [|auto]. apply queue_ok. exact Hh'.
  - intros x Hx. apply filter_In in Hx as [Hx _]. exact (Hin x Hx).
  - clear -Hnd. induction xs as [|x xs IH]; [constructor|]. cbn [map] in Hnd. apply NoDup_cons_iff in Hnd as [Hn Hnd]. cbn [filter].
    destruct (present rem x); [|exact (IH Hnd)]. cbn [map]. constructor; [|exact (IH Hnd)].
    intros Hi. apply Hn. apply in_map_iff in Hi as (y & <- & Hy). apply filter_In in Hy as [Hy _]. apply in_map. exact Hy.
Qed.

Lemma slots_range slots : forallb (fun z => (0 <=? z) && (z <? MAX_EVENTS)) slots = true <-> Forall (fun z => 0 <= z < 600) slots.
Proof. rewrite forallb_forall, Forall_forall. unfold MAX_EVENTS. split; intros H x Hx; specialize (H x Hx); lia. Qed.

Lemma u64_arg_in z : 0 <= z < 2 ^ 64 -> u64_arg z = Ok tt.
Proof. intros H. unfold u64_arg, in_u64, in_range, u64_max. change (2 ^ 64) with 18446744073709551616 in H. replace (_ && _) with true by lia. reflexivity. Qed.

Lemma consume_works e s admin limit rem : reachable s -> s_closed s = false -> admin = c_consume_events_admin (m_cfg (w_mkt (s_w s))) ->
  0 <= limit < 2 ^ 64 ->
  exists s', exec e s (IConsume admin limit rem) = Ok (s', ONone) /\
  let done := filter (present rem) (firstn (Z.to_nat (Z.min limit 8)) (queue_of (s_w s))) in
  consumes s done s' /\ incl done (queue_of (s_w s)) /\ NoDup (map snd done).
Proof.
  intros Hr Hc -> Hl. destruct (consume_ix_ok s limit [] rem Hr (Forall_nil _)) as (w' & H & G). cbv zeta in G.
  destruct (reachable_queue _ Hr) as (_ & _ & _ & _ & Hh & _). rewrite looked_front in G by exact (heap_ok_nodup _ _ Hh).
  exists (s_set_w s w'). split; [|exact G]. unfold exec. rewrite Hc. cbn [andb]. unfold exec_open. cbn beta iota zeta.
  rewrite (u64_arg_in limit Hl). cbn [bind].
  rewrite Z.eqb_refl. cbn [require bind]. rewrite H. reflexivity.
Qed.

Lemma consume_given_works e s admin slots rem : reachable s -> s_closed s = false -> admin = c_consume_events_admin (m_cfg (w_mkt (s_w s))) ->
  Forall (fun z => 0 <= z < 600) slots ->
  exists s', exec e s (IConsumeGiven admin slots rem) = Ok (s', ONone) /\
  let done := filter (present rem) (looked_at (queue_of (s_w s)) slots (Nat.min (length slots) 8)) in
  consumes s done s' /\ incl done (queue_of (s_w s)) /\ NoDup (map snd done).
Proof.
  intros Hr Hc -> Hs. destruct (consume_ix_ok s (Z.of_nat (length slots)) slots rem Hr Hs) as (w' & H & G). cbv zeta in G.
  replace (Z.to_nat (Z.min (Z.of_nat (length slots)) 8)) with (Nat.min (length slots) 8) in G by lia.
  exists (s_set_w s w'). split; [|exact G]. unfold exec. rewrite Hc. cbn [andb]. unfold exec_open. cbn beta iota zeta.
  rewrite Z.eqb_refl. cbn [require bind]. rewrite (proj2 (slots_range slots) Hs). cbn [require bind]. rewrite H. reflexivity.
Qed.

(** Every successful call is of this kind. *)
Lemma consume_done e s i s' out : reachable s -> is_consume i = true -> exec e s i = Ok (s', out) ->
  exists done, consumes s done s' /\ incl done (queue_of (s_w s)) /\ NoDup (map snd done) /\ (length done <= 8)%nat.
Proof.
  intros Hr Hi H. assert (Hc : s_closed s = false).
  { unfold exec in H. destruct (s_closed s); [|reflexivity]. destruct i; discriminate. }
  assert (Hlen : forall (A : Type) (f : A -> bool) l n, (n <= 8)%nat -> (length l <= n)%nat -> (length (filter f l) <= 8)%nat).
  { intros A f l n Hn Hl. enough (length (filter f l) <= length l)%nat by lia. clear. induction l as [|x l IH]; [reflexivity|]. cbn [filter]. destruct (f x); cbn [length]; lia. }
  destruct i; try discriminate Hi.
  - pose proof H as H0. unfold exec in H0. rewrite Hc in H0. cbn [andb] in H0. unfold exec_open in H0. cbn beta iota zeta in H0.
    apply bind_ok in H0 as (u & E1 & H0). apply bind_ok in H0 as (u' & E2 & _). apply require_ok in E1. apply require_ok in E2.
    destruct (consume_works e s admin limit rem Hr Hc) as (s1 & H1 & G1 & G2 & G3); [lia|unfold in_u64, in_range, u64_max in E1; change (2 ^ 64) with 18446744073709551616; lia|].
    rewrite H1 in H. injection H as <- _. eexists. split; [exact G1|]. split; [exact G2|]. split; [exact G3|].
    eapply Hlen; [|apply firstn_le_length]. lia.
  - pose proof H as H0. unfold exec in H0. rewrite Hc in H0. cbn [andb] in H0. unfold exec_open in H0. cbn beta iota zeta in H0.
    apply bind_ok in H0 as (u & E1 & H0). apply bind_ok in H0 as (u' & E2 & _). apply require_ok in E1. apply require_ok in E2.
    destruct (consume_given_works e s admin slots rem Hr Hc) as (s1 & H1 & G1 & G2 & G3); [lia|apply slots_range; exact E2|].
    rewrite H1 in H. injection H as <- _. eexists. split; [exact G1|]. split; [exact G2|]. split; [exact G3|].
    destruct (reachable_queue _ Hr) as (_ & _ & _ & _ & Hh & _).
    destruct (targets_entries (queue_of (s_w s)) slots (Z.of_nat (Nat.min (length slots) 8)) (heap_ok_nodup _ _ Hh)) as (xs & Ex & Hin & _).
    pose proof (targets_looked _ _ _ _ (heap_ok_nodup _ _ Hh) Ex Hin) as El. rewrite Nat2Z.id in El. rewrite El.
    eapply (Hlen _ _ _ 8%nat); [lia|]. rewrite <- (map_length snd), <- Ex. unfold targets. etransitivity; [apply firstn_le_length|]. lia.
Qed.

Lemma without_perm done q : NoDup (map snd q) -> NoDup (map snd done) -> incl done q -> Permutation q (done ++ without done q).
Proof.
  intros Hq. revert q Hq. induction done as [|x done IH]; intros q Hq Hd Hin; [rewrite without_nil; reflexivity|].
  cbn [map] in Hd. apply NoDup_cons_iff in Hd as [Hx Hd].
  pose proof (Hin x (or_introl eq_refl)) as Hxq. apply in_split in Hxq as (q1 & q2 & ->).
  assert (E : without (x :: done) (q1 ++ x :: q2) = without done (q1 ++ q2)).
  { change (x :: done) with ([x] ++ done). rewrite <- without_app. destruct x as [e s]. rewrite without_one by exact Hq. reflexivity. }
  rewrite E. cbn [app]. rewrite <- Permutation_middle. constructor. apply IH.
  - rewrite map_app in *. cbn [map] in Hq. exact (NoDup_remove_1 _ _ _ Hq).
  - exact Hd.
  - intros y Hy. pose proof (Hin y (or_intror Hy)) as H. apply in_app_or in H. apply in_or_app.
    destruct H as [H|[<-|H]]; [auto| |auto]. exfalso. apply Hx. apply in_map. exact Hy.
Qed.

Lemma w_set_heap_same w : w_set_heap w (w_heap w) = w.
Proof. destruct w; reflexivity. Qed.
Lemma consumed_deliver s s' : consumed s s' -> reachable s ->
  reachable s' /\ exists es, Permutation (waiting (s_w s)) (es ++ waiting (s_w s')) /\
  s_w s' = w_set_heap (deliver (s_w s) es) (w_heap (s_w s')) /\ s_tok s' = s_tok s /\ s_closed s' = s_closed s.
Proof.
  induction 1 as [s|e s i s1 out s2 Hi H _ IH]; intros Hr.
  - split; [exact Hr|]. exists []. cbn [app deliver fold_left]. rewrite w_set_heap_same. auto.
  - pose proof (reach_step _ _ _ _ _ Hr H) as Hr1. destruct (IH Hr1) as (Hr2 & es & HP & Ew & Et & Ec). split; [exact Hr2|].
    destruct (consume_done _ _ _ _ _ Hr Hi H) as (done & (Eq & Ew1 & Et1 & Ec1) & Hin & Hnd & _).
    destruct (reachable_queue _ Hr) as (_ & _ & _ & _ & Hh & _).
    exists (map fst done ++ es). split; [|split; [|split; congruence]].
    + rewrite <- app_assoc, <- HP. unfold waiting. rewrite Eq, <- map_app. apply Permutation_map.
      apply without_perm; [exact (heap_ok_nodup _ _ Hh)|exact Hnd|exact Hin].
    + rewrite deliver_app. rewrite Ew. rewrite Ew1, deliver_heap. cbn [w_set_heap w_heap]. reflexivity.
Qed.

Lemma consumed_confluent s s1 s2 : reachable s -> consumed s s1 -> consumed s s2 ->
  Permutation (waiting (s_w s1)) (waiting (s_w s2)) ->
  w_accts (s_w s1) = w_accts (s_w s2) /\ w_mkt (s_w s1) = w_mkt (s_w s2) /\
  w_bids (s_w s1) = w_bids (s_w s2) /\ w_asks (s_w s1) = w_asks (s_w s2) /\ s_tok s1 = s_tok s2.
Proof.
  intros Hr H1 H2 HP. destruct (consumed_deliver _ _ H1 Hr) as (_ & e1 & P1 & W1 & T1 & _).
  destruct (consumed_deliver _ _ H2 Hr) as (_ & e2 & P2 & W2 & T2 & _).
  assert (HE : Permutation e1 e2).
  { apply (Permutation_app_inv_r (waiting (s_w s2))). rewrite <- P2. rewrite <- HP. symmetry. exact P1. }
  assert (HD : deliver (s_w s) e1 = deliver (s_w s) e2).
  { apply deliver_perm; [exact HE|]. destruct (reachable_queue _ Hr) as (cl & ct & P & HI & _ & HW).
    pose proof (led_last_keys _ _ _ (iv_led _ _ _ _ _ _ HI)) as Hnd.
    assert (G : Permutation (flat_map last_key (pevents P)) (flat_map last_key (e1 ++ waiting (s_w s1)))).
    { apply Permutation_flat_map. rewrite <- HW. exact P1. }
    apply (Permutation_NoDup G) in Hnd. rewrite flat_map_app in Hnd. eapply nodup_app_l. exact Hnd. }
  rewrite W1, W2, HD, T1, T2. cbn [w_set_heap w_accts w_mkt w_bids w_asks]. auto.
Qed.

(** Any event can be consumed on its own, so the queue can be emptied in any order. *)
Lemma delivered_cfg w e : m_cfg (w_mkt (delivered w e)) = m_cfg (w_mkt w).
Proof. rewrite delivered_alt. destruct (acct_get _ _); [|reflexivity]. destruct e; reflexivity. Qed.
Lemma consume_single e s x : reachable s -> s_closed s = false -> In x (queue_of (s_w s)) ->
  exists s', exec e s (IConsumeGiven (c_consume_events_admin (m_cfg (w_mkt (s_w s)))) [snd x] [ev_owner (fst x)]) = Ok (s', ONone) /\
  consumes s [x] s'.
Proof.
  intros Hr Hc Hx. destruct (reachable_queue _ Hr) as (_ & _ & _ & _ & Hh & _). pose proof (heap_ok_nodup _ _ Hh) as Hnd.
  destruct (consume_given_works e s (c_consume_events_admin (m_cfg (w_mkt (s_w s)))) [snd x] [ev_owner (fst x)] Hr Hc eq_refl) as (s' & H & G & _).
  { constructor; [|constructor]. apply (heap_ok_range _ _ Hh). apply in_map. exact Hx. }
  exists s'. split; [exact H|]. change (Nat.min (length [snd x]) 8) with 1%nat in G. unfold looked_at in G. cbn [filter] in G.
  rewrite (proj2 (mem_key_in (snd x) (map snd (queue_of (s_w s))))) in G by (apply in_map; exact Hx).
  rewrite dedup_unique in G. cbn [app unique mem_key existsb firstn] in G.
  change [snd x] with (map snd [x]) in G. rewrite at_slots_entries in G; [|exact Hnd|intros y [<-|[]]; exact Hx].
  cbn [filter] in G. unfold present, mem_key in G. cbn [existsb fst map] in G. rewrite Z.eqb_refl in G. cbn [orb] in G. exact G.
Qed.

Lemma drain_any_order e : forall xs s, reachable s -> s_closed s = false -> Permutation xs (queue_of (s_w s)) ->
  exists s', executes e s (map (fun x => IConsumeGiven (c_consume_events_admin (m_cfg (w_mkt (s_w s)))) [snd x] [ev_owner (fst x)]) xs) s' /\
  waiting (s_w s') = [].
Proof.
  induction xs as [|x xs IH]; intros s Hr Hc HP.
  - exists s. split; [constructor|]. apply Permutation_nil in HP. unfold waiting. rewrite HP. reflexivity.
  - assert (Hx : In x (queue_of (s_w s))) by (apply (Permutation_in _ HP); left; reflexivity).
    destruct (consume_single e s x Hr Hc Hx) as (s1 & H1 & (Eq & Ew & Et & Ec)).
    pose proof (reach_step _ _ _ _ _ Hr H1) as Hr1. destruct (reachable_queue _ Hr) as (_ & _ & _ & _ & Hh & _). pose proof (heap_ok_nodup _ _ Hh) as Hnd.
    assert (HP1 : Permutation xs (queue_of (s_w s1))).
    { rewrite Eq. apply (Permutation_cons_inv (a := x)). rewrite HP. change (x :: without [x] (queue_of (s_w s))) with ([x] ++ without [x] (queue_of (s_w s))).
      apply without_perm; [exact Hnd|constructor; [intros []|constructor]|]. intros y [<-|[]]. exact Hx. }
    destruct (IH s1 Hr1) as (s' & Hx' & Hw); [congruence|exact HP1|].
    assert (Em : m_cfg (w_mkt (s_w s1)) = m_cfg (w_mkt (s_w s))).
    { rewrite Ew. cbn [w_set_heap w_mkt map deliver fold_left]. apply delivered_cfg. }
    rewrite Em in Hx'. exists s'. split; [|exact Hw]. cbn [map]. econstructor; [exact H1|exact Hx'].
Qed.
