(** Every stored number keeps within its width. *)
From Coq Require Import ZArith List Bool Lia ZifyBool Permutation.
From Verif Require Import Base Nodes OrderTree BookSide Heap Market OpenOrders Order Book Instructions
  BaseFacts NodesFacts HeapFacts TreeRep TreeFacts TreeOps TreeIter BookSideFacts BookSideOrder SpecBook BookSpecProofs SpecFees SpecOrder MatchFacts MatchBook OrderFacts PlaceFacts OrderSpecProofs
  Steps StepFacts TokenFacts SpecLedger SpecEvents Ledger LedgerOps LedgerMoves LedgerPlace LedgerOrder LedgerInv SpecSystem SystemFacts
  SpecControl ControlFacts LifeFacts IdFacts SpecPersist PersistFacts SpecFit.
Import ListNotations.
Open Scope Z_scope.

(** ** What the arithmetic does not already bound *)
Definition is_time (z : Z) : Prop := 0 <= z < 2 ^ 63.
Lemma time_u64 z : is_time z -> is_u64 z.
Proof. unfold is_time, is_u64. change (2 ^ 63) with 9223372036854775808. lia. Qed.
Definition lsmall (l : leaf) : Prop :=
  is_u16 (lf_tif l) /\ is_time (lf_ts l) /\ is_i64 (lf_peg_limit l) /\ is_u64 (lf_client_id l) /\ is_address (lf_owner l).
Definition esmall (e : event) : Prop :=
  match e with
  | EFill f => 0 <= fe_maker_slot f < 24 /\ is_u64 (fe_ts f) /\ is_u64 (fe_seq f) /\ is_u64 (fe_maker_ts f) /\
      is_u64 (fe_taker_cid f) /\ is_i64 (fe_peg_limit f) /\ is_u64 (fe_maker_cid f) /\ is_address (fe_maker f) /\ is_address (fe_taker f)
  | EOut o => 0 <= oe_slot o < 24 /\ is_u64 (oe_ts o) /\ is_u64 (oe_seq o) /\ is_address (oe_owner o)
  end.
Definition hsmall (h : heap) : Prop := is_u64 (h_seq h) /\ forall i, esmall (hn_event (h_nodes h i)).
Definition osmall (o : order) : Prop := is_u16 (o_tif o) /\ is_u64 (o_client_id o) /\ is_i64 (order_peg_limit o).

Record fine (w : world) : Prop := {
  fn_book : forall sd t l, In (t, l) (orders w sd) -> lsmall l;
  fn_heap : hsmall (w_heap w);
  fn_slots : forall k a, acct_get k (w_accts w) = Some a -> Forall slot_fits (a_orders a);
  fn_expiry : is_i64 (m_time_expiry (w_mkt w));
  fn_ref : is_u128 (m_fees_to_referrers (w_mkt w)) }.

(** ** The heap *)
Lemma event0_small : esmall event0.
Proof. unfold event0, esmall, is_u64, is_i64, is_address. cbn [fe_maker_slot fe_ts fe_seq fe_maker_ts fe_taker_cid fe_peg_limit fe_maker_cid fe_maker fe_taker]. lia. Qed.
Lemma upd_event (n : Z -> hnode) j x i (Q : event -> Prop) : (forall i, Q (hn_event (n i))) -> Q (hn_event x) -> Q (hn_event (upd n j x i)).
Proof. intros H1 H2. unfold upd. destruct (i =? j); [exact H2|apply H1]. Qed.
Lemma push_small h e h' : push_back h e = Ok h' -> hsmall h -> esmall e -> hsmall h'.
Proof.
  unfold push_back. intros H [H1 H2] He. cbv zeta in H. do 2 (apply bind_ok in H as (? & _ & H)).
  apply bind_ok in H as ([[[us nn] np] nodes] & E & H). apply bind_ok in H as (sq & S & H). apply chk_u64_ok in S as [-> S].
  injection H as <-. split; [cbn [h_seq]; unfold is_u64; lia|]. intros i. cbn [h_nodes]. apply upd_event; [|exact He]. clear i.
  destruct (heap_is_empty h); [injection E as _ _ _ <-; exact H2|].
  do 2 (apply bind_ok in E as (? & _ & E)). injection E as _ _ _ <-. intros i. apply upd_event.
  - intros j. apply upd_event; [exact H2|apply H2].
  - cbn [set_prev hn_event]. apply upd_event; [exact H2|apply H2].
Qed.
Lemma delete_small h s h' e : delete_slot h s = Ok (h', e) -> hsmall h -> hsmall h'.
Proof.
  unfold delete_slot. intros H [H1 H2]. destruct (_ || _); [discriminate H|]. cbv zeta in H.
  do 2 (apply bind_ok in H as (? & _ & H)). injection H as <- _. split; [exact H1|]. cbn [h_nodes]. intros i.
  assert (G : forall i, esmall (hn_event (upd (upd (h_nodes h) (hn_prev (h_nodes h s)) (set_next (h_nodes h (hn_prev (h_nodes h s))) (hn_next (h_nodes h s))))
    (hn_next (h_nodes h s)) (set_prev (upd (h_nodes h) (hn_prev (h_nodes h s)) (set_next (h_nodes h (hn_prev (h_nodes h s))) (hn_next (h_nodes h s))) (hn_next (h_nodes h s))) (hn_prev (h_nodes h s))) i))).
  { intros j. apply upd_event; [intros k; apply upd_event; [exact H2|apply H2]|]. cbn [set_prev hn_event]. apply upd_event; [exact H2|apply H2]. }
  apply upd_event; [exact G|]. cbn [hn_event]. apply G.
Qed.
Lemma iter_small n : forall h s L e, heap_iter_loop n h s = Ok L -> hsmall h -> In e (map fst L) -> esmall e.
Proof.
  induction n as [|n IH]; intros h s L e H Hh Hin; cbn [heap_iter_loop] in H; [injection H as <-; destruct Hin|].
  apply bind_ok in H as (? & _ & H). apply bind_ok in H as (r & E & H). injection H as <-. cbn [map fst] in Hin.
  destruct Hin as [<-|Hin]; [apply Hh|exact (IH _ _ _ _ E Hh Hin)].
Qed.
Lemma waiting_small w e : hsmall (w_heap w) -> In e (waiting w) -> esmall e.
Proof.
  intros Hh. unfold waiting, queue_of, heap_iter. destruct (heap_iter_loop _ _ _) as [L|] eqn:E; [|intros []].
  exact (iter_small _ _ _ _ _ E Hh).
Qed.

(** ** Slots *)
Lemma slot0_fits : slot_fits open_order0.
Proof. split; cbn [open_order0 oo_id oo_client_id oo_locked_price]; unfold is_u128, is_u64; lia. Qed.
Lemma set_nth_forall {A} (Q : A -> Prop) n v l : Forall Q l -> Q v -> Forall Q (set_nth n v l).
Proof.
  intros H Hv. revert n. induction H as [|x l Hx H IH]; intros [|n]; cbn [set_nth]; [constructor|constructor|constructor; assumption|].
  constructor; [exact Hx|apply IH].
Qed.
Definition sfine (a : ooa) : Prop := Forall slot_fits (a_orders a).
Lemma remove_order_slots a slot q p a' : remove_order a slot q p = Ok a' -> sfine a -> sfine a'.
Proof.
  unfold remove_order. intros H Ha. apply bind_ok in H as (oo & _ & H). apply bind_ok in H as (u & _ & H). cbv zeta in H.
  apply bind_ok in H as (p' & E & H). injection H as <-. unfold sfine, set_order_at. cbn [a_orders a_set_orders].
  apply set_nth_forall; [exact Ha|exact slot0_fits].
Qed.
Lemma cancel_slots a slot q m a' : ooa_cancel_order a slot q m = Ok a' -> sfine a -> sfine a'.
Proof.
  unfold ooa_cancel_order. intros H Ha. apply bind_ok in H as (oo & _ & H). cbv zeta in H.
  do 4 (apply bind_ok in H as (? & _ & H)). apply bind_ok in H as (p' & _ & H). eapply remove_order_slots; [exact H|exact Ha].
Qed.
Lemma execute_maker_slots a m f a' m' : execute_maker a m f = Ok (a', m') -> sfine a -> sfine a'.
Proof.
  unfold execute_maker. intros H Ha. cbv zeta in H.
  do 4 (apply bind_ok in H as (? & _ & H)). apply bind_ok in H as ([[lm ab] lp] & _ & H).
  apply bind_ok in H as (p1 & _ & H).
  do 5 (apply bind_ok in H as (? & _ & H)). apply bind_ok in H as (a2 & E & H). apply bind_ok in H as (? & _ & H). injection H as <- _.
  destruct (fe_maker_out f).
  - eapply remove_order_slots; [exact E|exact Ha].
  - destruct (invert_side (fe_taker_side f)); repeat (apply bind_ok in E as (? & _ & E)); injection E as <-; exact Ha.
Qed.
Lemma execute_taker_slots a m s b q tf ra a' m' : execute_taker a m s b q tf ra = Ok (a', m') -> sfine a -> sfine a'.
Proof.
  unfold execute_taker. intros H Ha. cbv zeta in H. apply bind_ok in H as (p1 & P & H). do 3 (apply bind_ok in H as (? & _ & H)).
  injection H as <- _. exact Ha.
Qed.
Lemma add_order_slots a s t l cid lp a' : add_order a s t l cid lp = Ok a' -> sfine a -> is_u128 (lf_key l) -> is_u64 cid ->
  0 <= lp < 2 ^ 63 -> sfine a'.
Proof.
  unfold add_order. intros H Ha H1 H2 H3. cbv zeta in H. apply bind_ok in H as (p' & _ & H). apply bind_ok in H as (? & _ & H). injection H as <-.
  unfold sfine, set_order_at. cbn [a_orders a_set_orders]. apply set_nth_forall; [exact Ha|]. split; assumption.
Qed.

Definition asl (w : world) : Prop := forall k a, acct_get k (w_accts w) = Some a -> sfine a.
Lemma asl_same w w' : w_accts w' = w_accts w -> asl w -> asl w'.
Proof. intros E H k a. rewrite E. apply H. Qed.
Lemma asl_set w w' k v : w_accts w' = acct_set k v (w_accts w) -> asl w -> sfine v -> asl w'.
Proof.
  intros E H Hv k' a. rewrite E, acct_get_set. destruct (k' =? k); [|apply H]. destruct (acct_get k (w_accts w)); [|discriminate].
  intros G. injection G as <-. exact Hv.
Qed.
Lemma drop_asl taker rem now s l w w' : drop_effect taker rem now s l w w' -> asl w -> asl w'.
Proof.
  intros [w0 a a' _ Ha E|w0 h E] U; [|eapply asl_same; [reflexivity|exact U]].
  eapply asl_set; [reflexivity|exact U|exact (cancel_slots _ _ _ _ _ E (U _ _ Ha))].
Qed.
Lemma drops_asl taker rem now s w g w' : drops taker rem now s w g w' -> asl w -> asl w'.
Proof. induction 1 as [w|w t l w1 r w2 H _ IH]; intros U; [exact U|]. exact (IH (drop_asl _ _ _ _ _ _ _ H U)). Qed.
Lemma effect_asl o taker owner rem now w a w' : effect o taker owner rem now w a w' -> asl w -> asl w'.
Proof.
  intros [w0 i q x x' m' _ Ha E|w0 i q h E|w0 i w1 E|w0 i x x' Et Ha E] U.
  - eapply asl_set; [reflexivity|exact U|exact (execute_maker_slots _ _ _ _ _ E (U _ _ Ha))].
  - eapply asl_same; [reflexivity|exact U].
  - exact (drop_asl _ _ _ _ _ _ _ E U).
  - eapply asl_set; [reflexivity|exact U|exact (cancel_slots _ _ _ _ _ E (U _ _ Ha))].
Qed.
Lemma effects_asl o taker owner rem now w l w' : effects o taker owner rem now w l w' -> asl w -> asl w'.
Proof. induction 1 as [w|w a w1 r w2 H _ IH]; intros U; [exact U|]. exact (IH (effect_asl _ _ _ _ _ _ _ _ H U)). Qed.
Lemma settle_taker_asl o taker maxq s w' bt qt tf ra rq : settle_taker o taker maxq s = Ok (w', bt, qt, tf, ra, rq) -> asl (ms_w s) -> asl w'.
Proof.
  intros H U. unfold settle_taker in H. cbv zeta in H.
  do 6 (apply bind_ok in H as (? & _ & H)). apply bind_ok in H as ([[w1 f1] r1] & E & H).
  do 5 (apply bind_ok in H as (? & _ & H)). injection H as <- _ _ _ _ _.
  match type of E with (if ?c then _ else _) = _ => destruct c end; [|injection E as <- _ _; exact U].
  do 2 (apply bind_ok in E as (? & _ & E)). apply bind_ok in E as ([[w2 f2] r2] & E1 & E).
  assert (U2 : asl w2).
  { match type of E1 with (if ?c then _ else _) = _ => destruct c end; [|injection E1 as <- _ _; exact U].
    do 3 (apply bind_ok in E1 as (? & _ & E1)). injection E1 as <- _ _. eapply asl_same; [reflexivity|exact U]. }
  apply bind_ok in E as (w3 & E2 & E). apply bind_ok in E as (? & _ & E). injection E as <- _ _.
  destruct taker as [t|].
  - apply bind_ok in E2 as (a & A & E2). apply acct_load_ok in A. apply bind_ok in E2 as ([a' m'] & E3 & E2). injection E2 as <-.
    eapply asl_set; [reflexivity|exact U2|exact (execute_taker_slots _ _ _ _ _ _ _ _ _ E3 (U2 _ _ A))].
  - apply bind_ok in E2 as (tv & _ & E2). injection E2 as <-. eapply asl_same; [reflexivity|exact U2].
Qed.
Lemma process_out_asl w tk owner rem ev w' : process_out_event w tk owner rem ev = Ok w' -> asl w -> asl w'.
Proof.
  intros H U.
  assert (L : forall t k a, load_remaining w t k = Ok a -> acct_get k (w_accts w) = Some a).
  { intros t k0 a G. unfold load_remaining in G. destruct (is_taker t k0); [discriminate G|]. apply acct_load_ok in G. exact G. }
  assert (C : forall k a a', acct_get k (w_accts w) = Some a -> ooa_cancel_order a (oe_slot ev) (oe_qty ev) (w_mkt w) = Ok a' -> asl (w_set_acct w k a')).
  { intros k a a' A E. eapply asl_set; [reflexivity|exact U|exact (cancel_slots _ _ _ _ _ E (U _ _ A))]. }
  unfold process_out_event in H. destruct tk as [t|].
  - destruct (owner =? oe_owner ev); [|destruct (mem_key _ _)].
    + apply bind_ok in H as (a & A & H). apply acct_load_ok in A. apply bind_ok in H as (a' & E & H). injection H as <-. exact (C _ _ _ A E).
    + apply bind_ok in H as (a & A & H). apply L in A. apply bind_ok in H as (a' & E & H). injection H as <-. exact (C _ _ _ A E).
    + apply bind_ok in H as (h & E & H). injection H as <-. eapply asl_same; [reflexivity|exact U].
  - destruct (mem_key _ _).
    + apply bind_ok in H as (a & A & H). apply L in A. apply bind_ok in H as (a' & E & H). injection H as <-. exact (C _ _ _ A E).
    + apply bind_ok in H as (h & E & H). injection H as <-. eapply asl_same; [reflexivity|exact U].
Qed.
Lemma set_book_asl w s b : asl w -> asl (w_set_book w s b).
Proof. apply asl_same. destruct s; reflexivity. Qed.
Lemma post_order_asl w o taker owner rem oracle now id pl price qty target w' pb pq mf : is_u128 id -> is_u64 (o_client_id o) -> 0 <= price < 2 ^ 63 ->
  post_order w o taker owner rem oracle now id pl price qty target = Ok (w', pb, pq, mf) -> asl w -> asl w'.
Proof.
  intros R1 R2 R3 H U. unfold post_order in H. cbv zeta in H. do 6 (apply bind_ok in H as (? & _ & H)).
  apply bind_ok in H as ([w1 f1] & E1 & H). apply bind_ok in H as ([b1 ex] & _ & H). apply bind_ok in H as (w3 & E3 & H).
  apply bind_ok in H as (w4 & E4 & H). apply bind_ok in H as (a & A & H). apply acct_load_ok in A. apply bind_ok in H as (? & _ & H).
  apply bind_ok in H as ([[b3 ?] ?] & _ & H). apply bind_ok in H as (a' & E5 & H). injection H as <- _ _ _.
  assert (U1 : asl w1).
  { destruct (o_side o); [|injection E1 as <- _; exact U].
    do 2 (apply bind_ok in E1 as (? & _ & E1)). apply bind_ok in E1 as (b & B & E1). apply acct_load_ok in B. apply bind_ok in E1 as (l & _ & E1). injection E1 as <- _.
    eapply asl_set; [reflexivity|exact U|]. exact (U _ _ B). }
  assert (U3 : asl w3).
  { destruct ex; [apply process_out_asl in E3; [exact E3|]|injection E3 as <-]; apply set_book_asl; exact U1. }
  assert (U4 : asl w4).
  { destruct (is_full _); [|injection E4 as <-; exact U3]. apply bind_ok in E4 as ([b2 ow] & _ & E4). apply bind_ok in E4 as ([wo wp] & _ & E4).
    apply bind_ok in E4 as (? & _ & E4). apply process_out_asl in E4; [exact E4|]. apply set_book_asl. exact U3. }
  eapply asl_set; [reflexivity|apply (set_book_asl w4 (o_side o) b3); exact U4|].
  exact (add_order_slots _ _ _ _ _ _ _ E5 (U4 _ _ A) R1 R2 R3).
Qed.
Lemma key_u128 s pd n : 0 <= pd <= 18446744073709551615 -> 0 <= n <= 18446744073709551615 -> is_u128 (new_node_key s pd n).
Proof.
  intros H1 H2. rewrite new_node_key_eq by exact H2. unfold is_u128, key_low. destruct s; lia.
Qed.
Lemma new_order_asl w o oracle taker owner now limit rem w' r : sound_call w o taker owner -> osmall o -> u64_ok (m_seq (w_mkt w')) -> 0 <= m_seq (w_mkt w) ->
  new_order w o oracle taker owner now limit rem = Ok (w', r) -> asl w -> asl w'.
Proof.
  intros Hsc (O1 & O2 & O3) Sq Sq0 H U. pose proof Hsc as [Hc Hsd Hso Htk]. pose proof Hso as [Hb0 Hq0 Hpr].
  destruct (sc_other_fits _ _ _ _ Hsc) as (T & Hf & Hage).
  destruct (new_order_inv _ _ _ _ _ _ _ _ _ _ _ Hf Htk Hc Hb0 Hq0 H)
    as (price & pd & maxq & acts & ms & lf & w2 & bt & qt & tf & ra & rq & mf & b2 & T2 & Hpl & Hfin).
  destruct (placed_numbers _ _ _ _ _ _ _ _ _ _ _ _ _ _ _ _ _ _ _ _ _ _ _ _ Hsc Hf Hpl)
    as (_ & _ & _ & _ & _ & _ & _ & _ & _ & _ & _ & _ & _ & _ & _ & _ & Hef & _).
  pose proof (pc_settle _ _ _ _ _ _ _ _ _ _ _ _ _ _ _ _ _ _ _ _ _ _ _ _ Hpl) as Hst.
  pose proof (pc_price _ _ _ _ _ _ _ _ _ _ _ _ _ _ _ _ _ _ _ _ _ _ _ _ Hpl) as Hp.
  destruct (order_price_facts _ _ _ _ _ _ Hso Hp) as (Rp & Rpd & _).
  assert (Es : m_seq (w_mkt w') = m_seq (w_mkt w) + 1).
  { destruct (new_order_full _ _ _ _ _ _ _ _ _ _ Hsc H)
    as (T_ & T0 & price_ & pd_ & maxq_ & acts_ & ms_ & lf_ & w2_ & bt_ & qt_ & tf_ & ra_ & rq_ & mf_ & b2_ & T2_ & T3_ & gone & put
        & _ & _ & _ & _ & _ & _ & _ & _ & _ & _ & _ & _ & _ & Es & _). exact Es. }
  apply effects_asl in Hef; [|eapply asl_same; [reflexivity|exact U]].
  apply settle_taker_asl in Hst; [|exact Hef].
  destruct Hfin as [Hno|t w4 pb pq mfees Hpos Htg Hpeg Hpost].
  - apply set_book_asl. exact Hst.
  - apply post_order_asl in Hpost; [exact Hpost| |exact O2| |apply set_book_asl; exact Hst].
    + apply key_u128; [exact Rpd|unfold u64_ok in Sq; lia].
    + unfold lock_price, own_peg. destruct (_ && _) eqn:Eo; [|lia]. unfold is_i64 in O3.
      unfold order_peg_limit in *. destruct (o_params o); cbn in Eo; try discriminate Eo. lia.
Qed.

(** ** Placing an order *)
Definition lfine (l : leaf) : Prop := lsmall l /\ 0 <= lf_slot l < 24.
Lemma drop_heap taker rem now s l w w' : drop_effect taker rem now s l w w' -> is_time now -> lfine l -> hsmall (w_heap w) -> hsmall (w_heap w').
Proof.
  intros [w0 a a' _ _ _|w0 h E] Hn Hl Hh; [exact Hh|]. cbn [w_heap w_set_heap] in *. eapply push_small; [exact E|exact Hh|].
  cbn [esmall oe_slot oe_ts oe_seq oe_owner]. split; [apply Hl|]. split; [apply time_u64, Hn|]. split; [apply Hh|apply Hl].
Qed.
Lemma drops_heap taker rem now s w g w' : drops taker rem now s w g w' -> is_time now -> (forall x, In x g -> lfine (snd x)) ->
  hsmall (w_heap w) -> hsmall (w_heap w').
Proof.
  induction 1 as [w|w t l w1 r w2 H _ IH]; intros Hn Hg Hh; [exact Hh|]. apply IH; [exact Hn|intros x Hx; apply Hg; right; exact Hx|].
  exact (drop_heap _ _ _ _ _ _ _ H Hn (Hg (t, l) (or_introl eq_refl)) Hh).
Qed.
Lemma effect_heap o taker owner rem now w a w' : effect o taker owner rem now w a w' -> osmall o -> is_time now -> is_address owner -> is_u64 (m_seq (w_mkt w)) ->
  lfine (im_leaf (act_item a)) -> hsmall (w_heap w) -> hsmall (w_heap w').
Proof.
  intros [w0 i q x x' m' _ _ _|w0 i q h E|w0 i w1 E|w0 i x x' _ _ _] (O1 & O2 & O3) Hn Ha Hs Hl Hh; try exact Hh.
  - cbn [w_heap w_set_heap act_item] in *. eapply push_small; [exact E|exact Hh|]. destruct Hl as ((L1 & L2 & L3 & L4 & L6) & L5). apply time_u64 in L2. apply time_u64 in Hn.
    unfold fill_of. cbn [esmall fe_maker_slot fe_ts fe_seq fe_maker_ts fe_taker_cid fe_peg_limit fe_maker_cid fe_maker fe_taker]. auto 12.
  - exact (drop_heap _ _ _ _ _ _ _ E Hn Hl Hh).
Qed.
Lemma effects_heap o taker owner rem now w l w' : effects o taker owner rem now w l w' -> osmall o -> is_time now -> is_address owner -> is_u64 (m_seq (w_mkt w)) ->
  (forall a, In a l -> lfine (im_leaf (act_item a))) -> hsmall (w_heap w) -> hsmall (w_heap w').
Proof.
  induction 1 as [w|w a w1 r w2 H _ IH]; intros Ho Hn Ha Hs Hl Hh; [exact Hh|].
  apply IH; [exact Ho|exact Hn|exact Ha| |intros b Hb; apply Hl; right; exact Hb|].
  - destruct (effect_rest _ _ _ _ _ _ _ _ H) as (_ & _ & _ & E & _). rewrite E. exact Hs.
  - exact (effect_heap _ _ _ _ _ _ _ _ H Ho Hn Ha Hs (Hl a (or_introl eq_refl)) Hh).
Qed.

Lemma order_at_range a i oo : order_at a i = Ok oo -> 0 <= i < Z.of_nat (length (a_orders a)).
Proof.
  unfold order_at. intros H. apply bind_ok in H as (u & E & H). apply massert_ok in E. unfold unwrap in H.
  destruct (nth_error (a_orders a) (Z.to_nat i)) eqn:G; [|discriminate H].
  assert (Z.to_nat i < length (a_orders a))%nat by (apply nth_error_Some; congruence). lia.
Qed.
Lemma inv_slot w db dq cl ct P p : Inv w db dq cl ct P -> In p P -> pc_last p = true -> 0 <= pc_slot p < 24.
Proof.
  intros HI Hp Hl. destruct (ld_back _ _ _ (iv_led _ _ _ _ _ _ HI) _ Hp) as (a & Ha & G). destruct (G Hl) as (oo & E & _).
  apply order_at_range in E. rewrite (ac_len _ _ _ _ (ld_acct _ _ _ (iv_led _ _ _ _ _ _ HI) _ _ Ha)) in E. exact E.
Qed.
Lemma leaf_slot w db dq cl ct P sd t l : Inv w db dq cl ct P -> In (t, l) (orders w sd) -> 0 <= lf_slot l < 24.
Proof.
  intros HI Hl. destruct (order_piece _ _ _ _ _ (iv_rep _ _ _ _ _ _ HI) Hl) as (lp & Hp). exact (inv_slot _ _ _ _ _ _ _ HI Hp eq_refl).
Qed.

Lemma new_order_fine w o oracle taker owner now limit rem w' r db dq cl ct P db' dq' cl' ct' P' : Inv w db dq cl ct P -> Inv w' db' dq' cl' ct' P' ->
  sane_order o -> taker = Some owner \/ (taker = None /\ acct_get owner (w_accts w) = None) -> osmall o -> is_time now -> is_address owner ->
  new_order w o oracle taker owner now limit rem = Ok (w', r) -> fine w -> fine w'.
Proof.
  intros HI HI' Ho Ht Hos Hnow Hown H [F1 F2 F3 F4 F5].
  pose proof (rep_sound _ _ (iv_rep _ _ _ _ _ _ HI) (iv_led _ _ _ _ _ _ HI)) as Hs.
  assert (Hsc : sound_call w o taker owner) by (apply sound_call_of; [exact Hs|exact Ho|destruct Ht as [Ht|[Ht _]]; auto]).
  pose proof (mk_seq _ (ld_mkt _ _ _ (iv_led _ _ _ _ _ _ HI))) as S0. pose proof (mk_seq _ (ld_mkt _ _ _ (iv_led _ _ _ _ _ _ HI'))) as S1.
  pose proof (new_order_asl _ _ _ _ _ _ _ _ _ _ Hsc Hos S1 (proj1 S0) H F3) as G3.
  destruct (new_order_full _ _ _ _ _ _ _ _ _ _ Hsc H)
    as (T & T0 & price & pd & maxq & acts & ms & lf & w2 & bt & qt & tf & ra & rq & mf & b2 & T2 & T3 & gone & put
        & Hf & Hf0 & Hpl & Hex & _ & _ & _ & _ & _ & Eb2 & Hf3 & HP & Ec & Es & Hput).
  pose proof Hpl as [_ Hseq _ _ _ _ _ Hf2 Hlv _ _ _]. rewrite <- Eb2 in Hf2.
  assert (Hall : forall sd t l, In (t, l) (orders w sd) -> lfine l).
  { intros sd t l Hl. split; [exact (F1 _ _ _ Hl)|exact (leaf_slot _ _ _ _ _ _ _ _ _ HI Hl)]. }
  assert (Hacts : forall a, In a acts -> lfine (im_leaf (act_item a))).
  { intros a Ha. pose proof (merged_on_book _ _ _ _ _ (ft_ok _ _ _ Hf) (ex_acts _ _ _ _ _ _ _ _ _ _ _ _ _ Hex)) as Hon. rewrite Forall_forall in Hon.
    specialize (Hon _ Ha). apply (Hall (invert_side (o_side o)) (im_tree (act_item a))). apply (in_orders _ _ _ _ _ _ Hf eq_refl).
    unfold on_book in Hon. apply (in_map snd) in Hon. exact Hon. }
  assert (Hgone : forall x, In x gone -> lfine (snd x)).
  { intros [t l] Hx. destruct (ex_gone _ _ _ _ _ _ _ _ _ _ _ _ _ Hex) as (_ & _ & G).
    specialize (G t l _ Hx (bs_lists _ _ t (ft_ok _ _ _ Hf0))). apply (Hall (o_side o) t). apply (in_orders _ _ _ _ _ _ Hf0 eq_refl). apply in_dir in G. exact G. }
  destruct (ex_world _ _ _ _ _ _ _ _ _ _ _ _ _ Hex) as (wa & wb & wc & wd & Ea & Hef & Hq1 & Hdr & Hq2).
  assert (Hh : hsmall (w_heap w')).
  { destruct Hq2 as [-> _]. apply (drops_heap _ _ _ _ _ _ _ Hdr Hnow Hgone). destruct Hq1 as [-> _].
    apply (effects_heap _ _ _ _ _ _ _ _ Hef Hos Hnow Hown); [|exact Hacts|subst wa; exact F2].
    subst wa. change (is_u64 (m_seq (w_mkt w) + 1)). unfold u64_ok in *. unfold is_u64. lia. }
  assert (Hterms : m_time_expiry (w_mkt w') = m_time_expiry (w_mkt w) /\ m_fees_to_referrers (w_mkt w') = m_fees_to_referrers (w_mkt w)).
  { destruct Hq2 as (_ & (_ & A1 & _ & _ & A2) & _). destruct (drops_rest _ _ _ _ _ _ _ Hdr) as [_ B]. destruct Hq1 as (_ & (_ & C1 & _ & _ & C2) & _).
    destruct (effects_rest _ _ _ _ _ _ _ _ Hef) as (_ & _ & _ & _ & (_ & D1 & _ & _ & D2)). rewrite A1, A2, B, C1, C2, D1, D2, Ea. split; reflexivity. }
  destruct Hterms as [T4 T5]. constructor; [|exact Hh|exact G3|rewrite T4; exact F4|rewrite T5; exact F5].
  intros sd t l Hl. assert (Hcase : sd = o_side o \/ sd = invert_side (o_side o)) by (destruct sd, (o_side o); auto). destruct Hcase as [-> | ->].
  - apply (in_orders _ _ _ _ _ _ Hf3 eq_refl) in Hl. assert (Hin : In (t, l) (all_leaves T3 ++ gone)) by (apply in_or_app; left; apply in_all_leaves; exact Hl).
    apply (Permutation_in _ (Permutation_sym HP)) in Hin. apply in_app_or in Hin as [Hin|Hin].
    + pose proof (ex_put _ _ _ _ _ _ _ _ _ _ _ _ _ Hex) as Hpo. destruct put as [[t' l']|]; [|destruct Hin]. destruct Hin as [E|[]]. injection E as -> ->.
      destruct Hpo as (_ & _ & _ & _ & ->). destruct Hos as (O1 & O2 & O3). unfold lsmall. cbn [lf_tif lf_ts lf_peg_limit lf_client_id lf_owner]. auto.
    + apply (F1 (o_side o) t). apply (in_orders _ _ _ _ _ _ Hf0 eq_refl). apply in_all_leaves. exact Hin.
  - apply (in_orders _ _ _ _ _ _ Hf2 eq_refl) in Hl. rewrite Hlv in Hl. apply residues_in in Hl as (l0 & Hin0 & R).
    assert (G0 : lsmall l0) by (apply (F1 (invert_side (o_side o)) t); apply (in_orders _ _ _ _ _ _ Hf eq_refl); exact Hin0).
    destruct (residue_cases _ _ _ _ R) as [->|(i & q & _ & _ & _ & ->)]; [exact G0|exact G0].
Qed.

(** ** Every other step *)
Lemma position_slots a p : sfine a -> sfine (a_set_pos a p).
Proof. exact (fun H => H). Qed.
Lemma new_account_slots ow d n : sfine (new_account ow d n).
Proof. unfold sfine, new_account. cbn [a_orders]. apply Forall_forall. intros x Hx. apply repeat_spec in Hx. subst. exact slot0_fits. Qed.

Lemma wstep_fine who w db dq w' db' dq' cl ct P : wstep who w db dq w' db' dq' -> Inv w db dq cl ct P ->
  m_seq (w_mkt w') = m_seq (w_mkt w) -> fine w -> fine w'.
Proof.
  intros H HI E [F1 F2 F3 F4 F5]. destruct (wstep_older _ _ _ _ _ _ _ _ _ _ H HI) as (_ & _ & Hsh). destruct (Hsh E) as [Hsb _]. clear Hsh.
  assert (G1 : forall sd t l, In (t, l) (orders w' sd) -> lsmall l) by (intros sd t l Hl; apply (F1 sd t), Hsb, Hl).
  pose proof (rep_sound _ _ (iv_rep _ _ _ _ _ _ HI) (iv_led _ _ _ _ _ _ HI)) as Hs.
  destruct H as [w db dq o oracle taker owner now limit rem w' r Ho Ht Hl Hn H Hw
    |w db dq k1 a oo ex w' l Ha Hoo Hfr H Hw|w db dq rem slot w' H|w db dq k1 a bf qf pen bt qt Ha R1 R2 R3 R4 R5 Hw
    |w db dq bt qt R1 R2|w db dq k1 a referred Ha m' R1 R2 R3 R4 R5 Hw|w db dq R|w db dq k1 owner delegate num Hk1 Hk0 Hw
    |w db dq k1 a d Ha Hw|w db dq].
  - exfalso. assert (Hsc : sound_call w o taker owner) by (apply sound_call_of; [exact Hs|exact Ho|destruct Ht as [Ht|[Ht _]]; auto]).
    destruct (new_order_older _ _ _ _ _ _ _ _ _ _ Hs Hsc H) as (_ & G2 & _). lia.
  - apply book_cancel_inv in H as (b & x & x' & _ & _ & Hx & E2 & ->). constructor; [exact G1|destruct (oo_side oo); exact F2| |destruct (oo_side oo); exact F4|destruct (oo_side oo); exact F5].
    eapply asl_set; [reflexivity| |exact (cancel_slots _ _ _ _ _ E2 (F3 _ _ Hx))]. apply set_book_asl. exact F3.
  - apply consume_one_inv in H as (ev & _ & H). destruct ev as [f|e].
    + destruct (mem_key (fe_maker f) rem); [|subst; constructor; assumption]. destruct H as (a & a' & m' & h' & x & Ha & E2 & Hd & ->).
      destruct (execute_maker_mkt _ _ _ _ _ E2) as (_ & _ & (_ & M1 & _ & _ & M2)).
      constructor; [exact G1|exact (delete_small _ _ _ _ Hd F2)| |cbn; rewrite M1; exact F4|cbn; rewrite M2; exact F5].
      eapply asl_set; [reflexivity|exact F3|exact (execute_maker_slots _ _ _ _ _ E2 (F3 _ _ Ha))].
    + destruct (mem_key (oe_owner e) rem); [|subst; constructor; assumption]. destruct H as (a & a' & h' & x & Ha & E2 & Hd & ->).
      constructor; [exact G1|exact (delete_small _ _ _ _ Hd F2)| |exact F4|exact F5].
      eapply asl_set; [reflexivity|exact F3|exact (cancel_slots _ _ _ _ _ E2 (F3 _ _ Ha))].
  - constructor; [exact G1|exact F2| |exact F4|exact F5]. eapply asl_set; [reflexivity|exact F3|]. exact (F3 _ _ Ha).
  - constructor; [exact G1|exact F2|exact F3|exact F4|exact F5].
  - constructor; [exact G1|exact F2| |exact F4|].
    + eapply asl_set; [reflexivity|exact F3|]. exact (F3 _ _ Ha).
    + destruct R1 as [R1| ->]; [|exact F5]. change (is_u128 (m_fees_to_referrers m')). unfold u128_ok in R1. unfold is_u128. clear - R1. set (z := m_fees_to_referrers m') in *. clearbody z. lia.
  - constructor; [exact G1|exact F2|exact F3|exact F4|exact F5].
  - constructor; [exact G1|exact F2| |exact F4|exact F5]. cbn [w_accts w_set_accts acct_get]. intros k a. destruct (k =? k1); [|apply F3].
    intros E1. injection E1 as <-. exact (new_account_slots owner delegate num).
  - constructor; [exact G1|exact F2| |exact F4|exact F5]. eapply asl_set; [reflexivity|exact F3|]. exact (F3 _ _ Ha).
  - constructor; [exact G1|exact F2|exact F3| |exact F5]. unfold is_i64. change (m_time_expiry (w_mkt (w_set_mkt w (m_set_time_expiry (w_mkt w) (-1))))) with (-1). lia.
Qed.
Lemma wsteps_fine who w db dq w' db' dq' : wsteps who w db dq w' db' dq' -> forall cl ct P, Inv w db dq cl ct P ->
  m_seq (w_mkt w') = m_seq (w_mkt w) -> fine w -> fine w'.
Proof.
  induction 1 as [w db dq|w db dq w1 db1 dq1 w2 db2 dq2 H1 H2 IH]; intros cl ct P HI E F; [exact F|].
  destruct (wstep_older _ _ _ _ _ _ _ _ _ _ H1 HI) as (_ & A2 & _).
  destruct (wstep_inv _ _ _ _ _ _ _ _ _ _ H1 HI) as (P1 & HI1). destruct (wsteps_older _ _ _ _ _ _ _ H2 _ _ _ HI1) as (_ & B2 & _).
  eapply IH; [exact HI1|lia|]. eapply wstep_fine; [exact H1|exact HI|lia|exact F].
Qed.

(** ** Instructions as placements and steps that place nothing *)
Inductive fsteps (who : option Z) : world -> Z -> Z -> world -> Z -> Z -> Prop :=
| fs_nil w db dq : fsteps who w db dq w db dq
| fs_place w db dq o oracle taker owner now limit rem w1 r w2 db2 dq2 :
    sane_order o -> taker = Some owner \/ (taker = None /\ acct_get owner (w_accts w) = None) -> 0 <= limit -> is_time now -> is_address owner -> osmall o ->
    new_order w o oracle taker owner now limit rem = Ok (w1, r) -> taker = who ->
    fsteps who w1 (db + owed_base o taker r) (dq + owed_quote o taker r) w2 db2 dq2 ->
    fsteps who w db dq w2 db2 dq2
| fs_still w db dq w1 db1 dq1 w2 db2 dq2 : wsteps who w db dq w1 db1 dq1 -> m_seq (w_mkt w1) = m_seq (w_mkt w) ->
    fsteps who w1 db1 dq1 w2 db2 dq2 -> fsteps who w db dq w2 db2 dq2.
Lemma fsteps_fine who w db dq w' db' dq' : fsteps who w db dq w' db' dq' -> forall cl ct P, Inv w db dq cl ct P -> fine w -> fine w'.
Proof.
  induction 1 as [w db dq|w db dq o oracle taker owner now limit rem w1 r w2 db2 dq2 Ho Ht Hl Hn Hown Hs E Hw H IH
    |w db dq w1 db1 dq1 w2 db2 dq2 H1 Hm H IH]; intros cl ct P HI F; [exact F| |].
  - pose proof (ws_place who w db dq o oracle taker owner now limit rem w1 r Ho Ht Hl (proj1 Hn) E Hw) as Hst.
    destruct (wstep_inv _ _ _ _ _ _ _ _ _ _ Hst HI) as (P1 & HI1). eapply IH; [exact HI1|].
    exact (new_order_fine _ _ _ _ _ _ _ _ _ _ _ _ _ _ _ _ _ _ _ _ HI HI1 Ho Ht Hs Hn Hown E F).
  - destruct (wsteps_inv _ _ _ _ _ _ _ _ _ H1 _ HI) as (P1 & HI1). eapply IH; [exact HI1|]. exact (wsteps_fine _ _ _ _ _ _ _ H1 _ _ _ HI Hm F).
Qed.
