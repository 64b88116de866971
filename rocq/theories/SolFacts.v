(** What instructions do to the penalty counters, and what is paid for them. *)
From Coq Require Import ZArith List Bool Lia ZifyBool Permutation.
From Verif Require Import Base Nodes OrderTree BookSide Heap Market OpenOrders Order Book Instructions
  BaseFacts HeapFacts SpecBook SpecFees SpecOrder MatchFacts OrderFacts PlaceFacts OrderSpecProofs
  Steps StepFacts TokenFacts SpecLedger SpecEvents Ledger LedgerOps LedgerMoves LedgerPlace LedgerOrder LedgerInv SpecSystem SystemFacts Solvency ConsumeFacts SpecControl ControlFacts LifeFacts IdFacts AuthFacts EndFacts
  Sol SpecSol.
Import ListNotations.
Open Scope Z_scope.

Definition pen (a : ooa) : Z := p_penalty (a_pos a).

(** [who]'s counter changes by [d], every other one stays. *)
Record booked (w w' : world) (who : option Z) (d : Z) : Prop := {
  bo_sum : unpaid w' = unpaid w + d;
  bo_each : forall k, unpaid_by k w' = unpaid_by k w + match who with Some j => if k =? j then d else 0 | None => 0 end }.
Definition calm (w w' : world) : Prop := booked w w' None 0.

Lemma unpaid_cons k a l : fold_right Z.add 0 (map (fun x : Z * ooa => p_penalty (a_pos (snd x))) ((k, a) :: l)) =
  pen a + fold_right Z.add 0 (map (fun x : Z * ooa => p_penalty (a_pos (snd x))) l).
Proof. reflexivity. Qed.
Lemma unpaid_set k a a' l : acct_get k l = Some a ->
  fold_right Z.add 0 (map (fun x : Z * ooa => p_penalty (a_pos (snd x))) (acct_set k a' l)) =
  fold_right Z.add 0 (map (fun x : Z * ooa => p_penalty (a_pos (snd x))) l) + (pen a' - pen a).
Proof.
  induction l as [|[j b] l IH]; intros G; [discriminate G|]. cbn [acct_get acct_set] in *. destruct (k =? j).
  - injection G as ->. rewrite !unpaid_cons. lia.
  - rewrite !unpaid_cons, IH by exact G. lia.
Qed.
Lemma calm_same w w' : w_accts w' = w_accts w -> calm w w'.
Proof. intros E. split; unfold unpaid, unpaid_by; rewrite E; [lia|intros k; lia]. Qed.
Lemma booked_set w w' k a a' d : acct_get k (w_accts w) = Some a -> w_accts w' = acct_set k a' (w_accts w) ->
  pen a' = pen a + d -> booked w w' (Some k) d.
Proof.
  intros G E P. split; unfold unpaid, unpaid_by; rewrite E.
  - rewrite (unpaid_set _ _ _ _ G). lia.
  - intros j. rewrite acct_get_set, G. destruct (Z.eqb_spec j k) as [Ej|Ej]; [subst j; rewrite G; unfold pen in P; cbn [option_map]; lia|lia].
Qed.
Lemma calm_set w w' k a a' : acct_get k (w_accts w) = Some a -> w_accts w' = acct_set k a' (w_accts w) ->
  pen a' = pen a -> calm w w'.
Proof.
  intros G E P. destruct (booked_set w w' k a a' 0 G E ltac:(lia)) as [B1 B2]. split; [exact B1|]. intros j. rewrite B2. destruct (j =? k); reflexivity.
Qed.
Lemma booked_after w w1 w2 who d : calm w w1 -> booked w1 w2 who d -> booked w w2 who d.
Proof. intros [A1 A2] [B1 B2]. split; [lia|]. intros k. rewrite B2, A2. lia. Qed.
Lemma calm_trans w w1 w2 : calm w w1 -> calm w1 w2 -> calm w w2.
Proof. apply booked_after. Qed.
Lemma calm_refl w : calm w w. Proof. apply calm_same. reflexivity. Qed.

(** ** Positions *)
Lemma remove_order_pen a slot q p a' : remove_order a slot q p = Ok a' -> pen a' = pen a.
Proof.
  unfold remove_order. intros H. apply bind_ok in H as (oo & _ & H). apply bind_ok in H as (u & _ & H). cbv zeta in H.
  apply bind_ok in H as (p' & E & H). injection H as <-.
  destruct (oo_side oo); repeat (apply bind_ok in E as (? & _ & E)); injection E as <-; reflexivity.
Qed.
Lemma cancel_pen a slot q m a' : ooa_cancel_order a slot q m = Ok a' -> pen a' = pen a.
Proof.
  unfold ooa_cancel_order. intros H. apply bind_ok in H as (oo & _ & H). cbv zeta in H.
  do 4 (apply bind_ok in H as (? & _ & H)).
  apply bind_ok in H as (p' & E & H). apply remove_order_pen in H. rewrite H.
  destruct (oo_side oo); repeat (apply bind_ok in E as (? & _ & E)); injection E as <-; reflexivity.
Qed.
Lemma execute_maker_pen a m f a' m' : execute_maker a m f = Ok (a', m') -> pen a' = pen a.
Proof.
  unfold execute_maker. intros H. cbv zeta in H. do 4 (apply bind_ok in H as (? & _ & H)).
  apply bind_ok in H as ([[lm ab] lp] & _ & H). apply bind_ok in H as (p1 & P & H).
  assert (E1 : p_penalty p1 = pen a).
  { destruct (invert_side (fe_taker_side f)); repeat (apply bind_ok in P as (? & _ & P)); injection P as <-; reflexivity. }
  do 5 (apply bind_ok in H as (? & _ & H)). apply bind_ok in H as (a2 & E & H). apply bind_ok in H as (? & _ & H). injection H as <- _.
  rewrite <- E1. destruct (fe_maker_out f).
  - apply remove_order_pen in E. rewrite E. reflexivity.
  - destruct (invert_side (fe_taker_side f)); repeat (apply bind_ok in E as (? & _ & E)); injection E as <-; reflexivity.
Qed.
Lemma execute_taker_pen a m s b q tf ra a' m' : execute_taker a m s b q tf ra = Ok (a', m') -> pen a' = pen a.
Proof.
  unfold execute_taker. intros H. cbv zeta in H. apply bind_ok in H as (p1 & P & H). do 3 (apply bind_ok in H as (? & _ & H)).
  injection H as <- <-. destruct s; repeat (apply bind_ok in P as (? & _ & P)); injection P as <-; reflexivity.
Qed.

(** ** An order *)
Lemma effect_calm o tk owner rem now w a w' : effect o tk owner rem now w a w' -> calm w w'.
Proof.
  intros [w1 i q a1 a' m' _ G E|w1 i q h _|w1 i w2 H|w1 i a1 a' _ G E].
  - eapply calm_set; [exact G|reflexivity|exact (execute_maker_pen _ _ _ _ _ E)].
  - apply calm_same. reflexivity.
  - destruct H as [w1 a1 a' _ G E|w1 h _].
    + eapply calm_set; [exact G|reflexivity|exact (cancel_pen _ _ _ _ _ E)].
    + apply calm_same. reflexivity.
  - eapply calm_set; [exact G|reflexivity|exact (cancel_pen _ _ _ _ _ E)].
Qed.
Lemma effects_calm o tk owner rem now w acts w' : effects o tk owner rem now w acts w' -> calm w w'.
Proof. induction 1 as [|w a w1 r w2 H _ IH]; [apply calm_refl|]. exact (calm_trans _ _ _ (effect_calm _ _ _ _ _ _ _ _ H) IH). Qed.

Lemma settle_taker_calm o taker maxq s w' bt qt tf ra rq : settle_taker o taker maxq s = Ok (w', bt, qt, tf, ra, rq) -> calm (ms_w s) w'.
Proof.
  intros H. unfold settle_taker in H. cbv zeta in H.
  do 6 (apply bind_ok in H as (? & _ & H)). apply bind_ok in H as ([[w1 f1] r1] & E & H).
  do 5 (apply bind_ok in H as (? & _ & H)). injection H as <- _ _ _ _ _.
  match type of E with (if ?c then _ else _) = _ => destruct c end; [|injection E as <- _ _; apply calm_refl].
  do 2 (apply bind_ok in E as (? & _ & E)). apply bind_ok in E as ([[w2 f2] r2] & E1 & E).
  assert (U2 : calm (ms_w s) w2).
  { match type of E1 with (if ?c then _ else _) = _ => destruct c end; [|injection E1 as <- _ _; apply calm_refl].
    do 3 (apply bind_ok in E1 as (? & _ & E1)). injection E1 as <- _ _. apply calm_same. reflexivity. }
  apply bind_ok in E as (w3 & E2 & E). apply bind_ok in E as (? & _ & E). injection E as <- _ _.
  refine (calm_trans _ _ _ U2 _). destruct taker as [t|].
  - apply bind_ok in E2 as (a & A & E2). apply acct_load_ok in A. apply bind_ok in E2 as ([a' m'] & E3 & E2). injection E2 as <-.
    eapply calm_set; [exact A|reflexivity|exact (execute_taker_pen _ _ _ _ _ _ _ _ _ E3)].
  - apply bind_ok in E2 as (tv & _ & E2). injection E2 as <-. apply calm_same. reflexivity.
Qed.

Lemma process_out_calm w tk owner rem ev w' : process_out_event w tk owner rem ev = Ok w' -> calm w w'.
Proof.
  intros H.
  assert (C : forall k a a', acct_get k (w_accts w) = Some a -> ooa_cancel_order a (oe_slot ev) (oe_qty ev) (w_mkt w) = Ok a' -> calm w (w_set_acct w k a')).
  { intros k a a' A E. eapply calm_set; [exact A|reflexivity|exact (cancel_pen _ _ _ _ _ E)]. }
  assert (L : forall t k a, load_remaining w t k = Ok a -> acct_get k (w_accts w) = Some a).
  { intros t k a G. unfold load_remaining in G. destruct (is_taker t k); [discriminate G|]. apply acct_load_ok in G. exact G. }
  unfold process_out_event in H. destruct tk as [t|].
  - destruct (owner =? oe_owner ev); [|destruct (mem_key _ _)].
    + apply bind_ok in H as (a & A & H). apply acct_load_ok in A. apply bind_ok in H as (a' & E & H). injection H as <-. exact (C _ _ _ A E).
    + apply bind_ok in H as (a & A & H). apply L in A. apply bind_ok in H as (a' & E & H). injection H as <-. exact (C _ _ _ A E).
    + apply bind_ok in H as (h & E & H). injection H as <-. apply calm_same. reflexivity.
  - destruct (mem_key _ _).
    + apply bind_ok in H as (a & A & H). apply L in A. apply bind_ok in H as (a' & E & H). injection H as <-. exact (C _ _ _ A E).
    + apply bind_ok in H as (h & E & H). injection H as <-. apply calm_same. reflexivity.
Qed.
Lemma set_book_calm w s b : calm w (w_set_book w s b).
Proof. apply calm_same. destruct s; reflexivity. Qed.

Lemma post_order_calm w o taker owner rem oracle now id pl price qty target w' pb pq mf :
  post_order w o taker owner rem oracle now id pl price qty target = Ok (w', pb, pq, mf) -> calm w w'.
Proof.
  intros H. unfold post_order in H. cbv zeta in H. do 6 (apply bind_ok in H as (? & _ & H)).
  apply bind_ok in H as ([w1 f1] & E1 & H). apply bind_ok in H as ([b1 ex] & _ & H). apply bind_ok in H as (w3 & E3 & H).
  apply bind_ok in H as (w4 & E4 & H). apply bind_ok in H as (a & A & H). apply acct_load_ok in A. apply bind_ok in H as (? & _ & H).
  apply bind_ok in H as ([[b3 ?] ?] & _ & H). apply bind_ok in H as (a' & E5 & H). injection H as <- _ _ _.
  assert (U1 : calm w w1).
  { destruct (o_side o); [|injection E1 as <- _; apply calm_refl].
    do 2 (apply bind_ok in E1 as (? & _ & E1)). apply bind_ok in E1 as (b & B & E1). apply acct_load_ok in B. apply bind_ok in E1 as (l & _ & E1). injection E1 as <- _.
    eapply calm_set; [exact B|reflexivity|reflexivity]. }
  assert (U3 : calm w w3).
  { refine (calm_trans _ _ _ U1 _). destruct ex; [apply process_out_calm in E3; exact (calm_trans _ _ _ (set_book_calm _ _ _) E3)|injection E3 as <-; apply set_book_calm]. }
  assert (U4 : calm w w4).
  { refine (calm_trans _ _ _ U3 _). destruct (is_full _); [|injection E4 as <-; apply calm_refl]. apply bind_ok in E4 as ([b2 ow] & _ & E4). apply bind_ok in E4 as ([wo wp] & _ & E4).
    apply bind_ok in E4 as (? & _ & E4). apply process_out_calm in E4. exact (calm_trans _ _ _ (set_book_calm _ _ _) E4). }
  refine (calm_trans _ _ _ U4 (calm_trans _ _ _ (set_book_calm w4 (o_side o) b3) _)).
  match type of A with acct_get ?k _ = _ => assert (A3 : acct_get k (w_accts (w_set_book w4 (o_side o) b3)) = Some a) by (destruct (o_side o); exact A) end.
  eapply calm_set; [exact A3|reflexivity|].
  unfold add_order in E5. cbv zeta in E5. apply bind_ok in E5 as (p' & P & E5). apply bind_ok in E5 as (? & _ & E5). injection E5 as <-.
  destruct (o_side o); repeat (apply bind_ok in P as (? & _ & P)); injection P as <-; reflexivity.
Qed.

Lemma new_order_calm w o oracle taker owner now limit rem w' r : sound_call w o taker owner ->
  new_order w o oracle taker owner now limit rem = Ok (w', r) -> calm w w'.
Proof.
  intros Hsc H. pose proof Hsc as [Hc Hsd Hso Htk]. pose proof Hso as [Hb0 Hq0 _].
  destruct (sc_other_fits _ _ _ _ Hsc) as (T & Hf & Hage).
  destruct (new_order_inv _ _ _ _ _ _ _ _ _ _ _ Hf Htk Hc Hb0 Hq0 H)
    as (price & pd & maxq & acts & ms & lf & w2 & bt & qt & tf & ra & rq & mf & b2 & T2 & Hpl & Hfin).
  destruct (placed_numbers _ _ _ _ _ _ _ _ _ _ _ _ _ _ _ _ _ _ _ _ _ _ _ _ Hsc Hf Hpl)
    as (_ & _ & _ & _ & _ & _ & _ & _ & _ & _ & _ & _ & _ & _ & _ & _ & Hef & _).
  pose proof (pc_settle _ _ _ _ _ _ _ _ _ _ _ _ _ _ _ _ _ _ _ _ _ _ _ _ Hpl) as Hst.
  apply effects_calm in Hef. apply settle_taker_calm in Hst.
  pose proof (calm_trans _ _ _ (calm_trans _ _ _ Hef Hst) (set_book_calm w2 (invert_side (o_side o)) b2)) as U.
  assert (U0 : calm w (w_set_book w2 (invert_side (o_side o)) b2)).
  { destruct U as [A1 A2]. split; [exact A1|exact A2]. }
  destruct Hfin as [Hno|t w4 pb pq mfees Hpos Htg Hpeg Hpost].
  - exact U0.
  - apply post_order_calm in Hpost. exact (calm_trans _ _ _ U0 Hpost).
Qed.

(** ** Cancelling and delivering *)
Lemma book_cancel_calm w k id s t ex w' l : book_cancel_order w k id s t ex = Ok (w', l) -> calm w w' /\ w_heap w' = w_heap w.
Proof.
  intros E. apply book_cancel_inv in E as (b & a1 & a' & _ & _ & A1 & E & ->). split; [|destruct s; reflexivity].
  assert (A2 : acct_get k (w_accts (w_set_book w s b)) = Some a1) by (destruct s; exact A1).
  refine (calm_trans _ _ _ (set_book_calm w s b) _). eapply calm_set; [exact A2|reflexivity|exact (cancel_pen _ _ _ _ _ E)].
Qed.
Lemma consume_one_calm w rem slot w' : consume_one w rem slot = Ok w' -> calm w w'.
Proof.
  intros E. apply consume_one_inv in E as (ev & _ & E). destruct ev as [f|x].
  - destruct (mem_key _ _); [|subst; apply calm_refl]. destruct E as (a & a' & m' & h' & y & A & E & _ & ->).
    eapply calm_set; [exact A|reflexivity|exact (execute_maker_pen _ _ _ _ _ E)].
  - destruct (mem_key _ _); [|subst; apply calm_refl]. destruct E as (a & a' & h' & y & A & E & _ & ->).
    eapply calm_set; [exact A|reflexivity|exact (cancel_pen _ _ _ _ _ E)].
Qed.
Lemma consume_loop_calm ss : forall w rem w', consume_loop w rem ss = Ok w' -> calm w w'.
Proof.
  induction ss as [|a ss IH]; intros w0 rem w' E; cbn [consume_loop] in E; [injection E as <-; apply calm_refl|].
  apply bind_ok in E as (w1 & E1 & E). exact (calm_trans _ _ _ (consume_one_calm _ _ _ _ E1) (IH _ _ _ E)).
Qed.

Lemma cancel_all_calm n : forall i w k limit total so co w' q,
  cancel_all_loop n i w k limit total so co = Ok (w', q) -> calm w w'.
Proof.
  induction n as [|n IH]; intros i w k limit total so co w' q H; cbn [cancel_all_loop] in H.
  - injection H as <- _. apply calm_refl.
  - apply bind_ok in H as (a & Ea & H). apply bind_ok in H as (oo & Eo & H). cbv zeta in H.
    destruct (oo_free oo) eqn:Efr; [eapply IH; exact H|].
    destruct (match so with Some s => negb (side_eqb s (oo_side oo)) | None => false end); [eapply IH; exact H|].
    destruct (match co with Some c => negb (c =? oo_client_id oo) | None => false end); [eapply IH; exact H|].
    destruct (limit =? 0); [injection H as <- _; apply calm_refl|].
    destruct (book_cancel_order w k (oo_id oo) (oo_side oo) (oo_tree oo) None) as [[w1 l]|e] eqn:Ec.
    + apply bind_ok in H as (tot & _ & H). apply book_cancel_calm in Ec as [E1 E2]. apply IH in H. exact (calm_trans _ _ _ E1 H).
    + destruct e; try discriminate H. eapply IH; exact H.
Qed.
Lemma cancel_orders_calm0 w k limit so co w' q : cancel_all_orders w k limit so co = Ok (w', q) -> calm w w'.
Proof. unfold cancel_all_orders. apply cancel_all_calm. Qed.
Lemma cancel_orders_calm w k limit so co w' q : cancel_all_orders w k limit so co = Ok (w', q) -> calm w w' /\ w_heap w' = w_heap w.
Proof. intros H. exact (conj (cancel_orders_calm0 _ _ _ _ _ _ _ H) (proj2 (cancel_orders_mkt _ _ _ _ _ _ _ H))). Qed.

(** ** Instructions *)
(** The counter of events is the number of events. *)
Lemma counted s : reachable s -> h_count (w_heap (s_w s)) = Z.of_nat (length (waiting (s_w s))).
Proof.
  intros R. destruct (reachable_inv _ R) as (cl & ct & P & HI). destruct (rp_heap _ _ (iv_rep _ _ _ _ _ _ HI)) as (L & Hh & _).
  unfold waiting, queue_of. rewrite (heap_iter_rep _ _ Hh), map_length. destruct Hh as (F & Hh). exact (hr_count _ _ _ Hh).
Qed.
Definition grows (h h' : heap) : Z := if h_count h <? h_count h' then 1 else 0.
Lemma grows_same h : grows h h = 0. Proof. unfold grows. rewrite Z.ltb_irrefl. reflexivity. Qed.
Lemma litters_grows e s i s' out : reachable s -> exec e s i = Ok (s', out) ->
  litters s i s' = if sends_orders i then grows (w_heap (s_w s)) (w_heap (s_w s')) else 0.
Proof.
  intros R H. pose proof (counted s R) as C1. pose proof (counted s' (reach_step _ _ _ _ _ R H)) as C2.
  unfold litters, grows. rewrite C1, C2. destruct (sends_orders i); cbn [andb]; [|reflexivity].
  destruct (Nat.ltb_spec (length (waiting (s_w s))) (length (waiting (s_w s')))); destruct (Z.ltb_spec (Z.of_nat (length (waiting (s_w s)))) (Z.of_nat (length (waiting (s_w s'))))); lia.
Qed.

Lemma lock_booked w k s r grew w' d : lock_funds w k s r grew = Ok (w', d) ->
  booked w w' (Some k) (if grew then 1 else 0) /\ w_heap w' = w_heap w.
Proof.
  intros H. unfold lock_funds in H. apply bind_ok in H as (a & Ea & H). apply acct_load_ok in Ea. cbv zeta in H.
  apply bind_ok in H as ([[m' p'] dd] & E & H). apply bind_ok in H as (p'' & E2 & H). injection H as <- _.
  split; [|reflexivity].
  assert (E1 : p_penalty p' = pen a).
  { destruct s; repeat (apply bind_ok in E as (? & _ & E)); injection E as _ <- _; reflexivity. }
  eapply booked_set; [exact Ea|reflexivity|]. destruct grew.
  - apply bind_ok in E2 as (n & E2 & E3). apply chk_u64_ok in E2 as [-> _]. injection E3 as <-. unfold pen in *. cbn. lia.
  - injection E2 as <-. unfold pen in *. cbn. lia.
Qed.

(** What the rules say happens to the counters. *)
Definition change (s : sys) (i : instr) (s' : sys) : option Z * Z :=
  match orders_for i, settled_by i with
  | Some k, _ => (Some k, grows (w_heap (s_w s)) (w_heap (s_w s')))
  | None, Some k => (Some k, - unpaid_by k (s_w s))
  | None, None => (None, 0)
  end.
Definition charged (s : sys) (i : instr) (s' : sys) : Prop := booked (s_w s) (s_w s') (fst (change s i s')) (snd (change s i s')).
Lemma booked_none w w' k : calm w w' -> booked w w' (Some k) 0.
Proof. intros [A B]. split; [exact A|]. intros j. rewrite B. destruct (j =? k); reflexivity. Qed.

Lemma place_booked e s x o limit s' id : world_sound (s_w s) -> params_sane (o_params o) ->
  place_order_ix e s x o limit = Ok (s', id) -> booked (s_w s) (s_w s') (Some (px_acct x)) (grows (w_heap (s_w s)) (w_heap (s_w s'))).
Proof.
  intros Hs Hp H. apply place_ix_inv in H as (Hb & Hq & _ & _ & oracle & w1 & r & w2 & d & t & _ & _ & En & Ek & _ & -> & _).
  apply lock_booked in Ek as [Ek Eh]. cbn [s_w]. rewrite Eh.
  assert (Hsc : sound_call (s_w s) o (Some (px_acct x)) (px_acct x)).
  { apply sound_call_of; [exact Hs| |left; reflexivity]. constructor; assumption. }
  exact (booked_after _ _ _ _ _ (new_order_calm _ _ _ _ _ _ _ _ _ _ Hsc En) Ek).
Qed.
Lemma multi_loop_calm os : forall w x ub uq oracle now limit ba qa w' ba' qa' ids,
  world_sound w -> Forall (fun o => params_sane (o_params o)) os ->
  multi_loop w x ub uq oracle now limit os ba qa = Ok (w', ba', qa', ids) -> calm w w'.
Proof.
  induction os as [|o r IH]; intros w x ub uq oracle now limit ba qa w' ba' qa' ids Hs Ho H; cbn [multi_loop] in H.
  - injection H as <- <- <- _. apply calm_refl.
  - apply bind_ok in H as ([[[w1 b1] q1] i1] & E & H). inversion Ho as [|o0 r0 Ho1 Ho2]; subst.
    apply bind_ok in H as ([[[w2 b2] q2] i2] & E2 & H). injection H as <- <- <- _.
    destruct (multi_one_place _ _ _ _ _ _ _ _ _ _ _ _ _ _ Hs Ho1 E) as (o' & r' & Go & _ & En & _ & _ & _).
    assert (Hsc : sound_call w o' (Some (mx_acct x)) (mx_acct x)) by (apply sound_call_of; [exact Hs|exact Go|left; reflexivity]).
    apply IH in E2; [|eapply new_order_sound; [exact Hsc|exact En]|exact Ho2].
    exact (calm_trans _ _ _ (new_order_calm _ _ _ _ _ _ _ _ _ _ Hsc En) E2).
Qed.
Lemma multi_booked e s x cancel os limit s' ids : world_sound (s_w s) -> Forall (fun o => params_sane (o_params o)) os ->
  multi_ix e s x cancel os limit = Ok (s', ids) -> booked (s_w s) (s_w s') (Some (mx_acct x)) (grows (w_heap (s_w s)) (w_heap (s_w s'))).
Proof.
  intros Hs Hp H. unfold multi_ix in H. cbv zeta in H. do 3 (apply bind_ok in H as (? & _ & H)). apply bind_ok in H as (w0 & E0 & H).
  do 2 (apply bind_ok in H as (? & _ & H)). apply bind_ok in H as ([[[w1 ba] qa] is] & E1 & H). apply bind_ok in H as (a & A & H). apply acct_load_ok in A. cbv zeta in H.
  do 6 (apply bind_ok in H as (? & _ & H)). apply bind_ok in H as (p2 & Ep & H). do 2 (apply bind_ok in H as (? & _ & H)). injection H as <- _. cbn [s_w].
  assert (G0 : calm (s_w s) w0 /\ world_sound w0).
  { destruct cancel; [|injection E0 as <-; split; [apply calm_refl|exact Hs]]. apply bind_ok in E0 as ([w' q] & E0 & E0'). injection E0' as <-.
    split; [exact (proj1 (cancel_orders_calm _ _ _ _ _ _ _ E0))|]. exact (wsteps_sound _ _ _ _ _ _ _ (cancel_orders_steps _ _ _ _ _ _ _ E0) Hs). }
  destruct G0 as [G0 Hs0]. apply multi_loop_calm in E1; [|exact Hs0|exact Hp].
  refine (booked_after _ _ _ _ _ (calm_trans _ _ _ G0 E1) _).
  eapply booked_set; [exact A|reflexivity|]. change (w_heap (w_set_acct _ _ _)) with (w_heap w1). unfold grows.
  destruct (h_count (w_heap (s_w s)) <? h_count (w_heap w1)).
  - apply bind_ok in Ep as (n & Ec & Ep). apply chk_u64_ok in Ec as [-> _]. injection Ep as <-. reflexivity.
  - injection Ep as <-. unfold pen. cbn. lia.
Qed.
Lemma edit_booked e s x cid ex o limit s' id : world_sound (s_w s) -> params_sane (o_params o) ->
  edit_order_ix e s x cid ex o limit = Ok (s', id) -> booked (s_w s) (s_w s') (Some (px_acct x)) (grows (w_heap (s_w s)) (w_heap (s_w s'))).
Proof.
  intros Hs Hps H. unfold edit_order_ix in H. apply bind_ok in H as (u1 & _ & H). apply bind_ok in H as ([w q] & E & H). cbv zeta in H.
  destruct (cancel_orders_calm _ _ _ _ _ _ _ E) as [Ec Eh].
  apply bind_ok in H as (f & _ & H).
  match type of H with (if ?c then _ else _) = _ => destruct c end.
  - apply bind_ok in H as (mb & _ & H). apply place_booked in H; [|exact (wsteps_sound _ _ _ _ _ _ _ (cancel_orders_steps _ _ _ _ _ _ _ E) Hs)|exact Hps].
    cbn [s_set_w s_w] in H. rewrite Eh in H. exact (booked_after _ _ _ _ _ Ec H).
  - injection H as <- _. cbn [s_set_w s_w]. rewrite Eh, grows_same. apply booked_none. exact Ec.
Qed.
Lemma take_calm e s x o limit s' : world_sound (s_w s) -> params_sane (o_params o) -> place_take_ix e s x o limit = Ok s' -> calm (s_w s) (s_w s').
Proof.
  intros Hs Hps E. unfold place_take_ix in E. cbv zeta in E. apply bind_ok in E as (u1 & R1 & E). apply bind_ok in E as (u2 & R2 & E). apply require_ok in R1, R2.
  do 4 (apply bind_ok in E as (? & _ & E)). apply bind_ok in E as ([w1 r] & En & E).
  assert (Hsc : sound_call (s_w s) o None (tx_signer x)).
  { apply sound_call_of; [exact Hs| |right; reflexivity]. constructor; [lia|lia|exact Hps]. }
  apply new_order_calm in En; [|exact Hsc]. apply bind_ok in E as (reb & _ & E). refine (calm_trans _ _ _ En _).
  destruct (o_side o); do 5 (apply bind_ok in E as (? & _ & E)); injection E as <-; apply calm_same; reflexivity.
Qed.
Lemma deposit_calm e s u k ub uq b q s' : deposit_ix e s u k ub uq b q = Ok s' -> calm (s_w s) (s_w s').
Proof.
  intros H. unfold deposit_ix in H. cbv zeta in H. do 2 (apply bind_ok in H as (? & _ & H)). apply bind_ok in H as (a & A & H). apply acct_load_ok in A.
  do 7 (apply bind_ok in H as (? & _ & H)). injection H as <-. eapply calm_set; [exact A|reflexivity|reflexivity].
Qed.
Lemma settle_booked s k ub uq ref s' : settle_core s k ub uq ref = Ok s' -> booked (s_w s) (s_w s') (Some k) (- unpaid_by k (s_w s)).
Proof.
  intros H. apply settle_inv in H as (a & t0 & t1 & t2 & Ha & H). cbv zeta in H. destruct H as (_ & _ & _ & _ & ->). cbn [s_w].
  eapply booked_set; [exact Ha|reflexivity|]. unfold unpaid_by. rewrite Ha. unfold pen. cbn. lia.
Qed.

Lemma unpaid_del k l : fold_right Z.add 0 (map (fun x : Z * ooa => p_penalty (a_pos (snd x))) (acct_del k l)) =
  fold_right Z.add 0 (map (fun x : Z * ooa => p_penalty (a_pos (snd x))) l) - match acct_get k l with Some a => pen a | None => 0 end.
Proof.
  induction l as [|[j b] l IH]; [reflexivity|]. cbn [acct_get acct_del]. destruct (k =? j).
  - rewrite unpaid_cons. lia.
  - rewrite !unpaid_cons, IH. lia.
Qed.
Lemma close_calm e s u k s' out : reachable s -> exec e s (ICloseAccount u k) = Ok (s', out) -> calm (s_w s) (s_w s').
Proof.
  intros R H. pose proof H as H0. unfold exec in H. destruct (s_closed s && needs_market _); [discriminate H|]. unfold exec_open in H. cbv zeta in H. unfold lift_w in H.
  apply bind_ok in H as (w & E & H). injection H as <- _. unfold close_account_ix in E. apply bind_ok in E as (a & A & E). apply acct_load_ok in A.
  apply bind_ok in E as (? & _ & E). apply bind_ok in E as (? & P & E). apply require_ok in P. injection E as <-.
  destruct (close_account_ok _ _ _ _ _ _ _ R H0 A) as (_ & _ & _ & D1 & D2). cbn [s_set_w s_w w_set_accts w_accts] in D1, D2 |- *.
  assert (Z0 : p_penalty (a_pos a) = 0) by (unfold position_is_empty in P; repeat (apply andb_prop in P; destruct P as [P ?]); lia).
  split.
  - unfold unpaid. cbn [w_set_accts w_accts]. rewrite unpaid_del, A. unfold pen. lia.
  - intros j. unfold unpaid_by. cbn [w_set_accts w_accts]. destruct (Z.eq_dec j k) as [->|N]; [rewrite D1, A; lia|rewrite (D2 _ N); lia].
Qed.

Lemma exec_charged e s i s' out : reachable s -> exec e s i = Ok (s', out) -> charged s i s'.
Proof.
  intros R H. pose proof (reachable_sound _ R) as Hs. unfold charged.
  destruct (is_placing i) eqn:Hp.
  - apply exec_placing in H; [|exact Hp].
    destruct H as [i _ N1 N2|i x o limit s' id Hi _ Hps _ H|i x cid ex o limit s' id Hi _ Hps _ H|x g o limit s' _ _ Hps _ E|x cancel t bids asks limit os s' ids _ _ Hps _ H].
    + destruct i; try discriminate Hp; try (exfalso; eapply N1; reflexivity); try (exfalso; eapply N2; reflexivity);
        unfold change; cbn [orders_for fst snd]; rewrite grows_same; apply booked_none; apply calm_refl.
    + apply place_booked in H; [|exact Hs|exact Hps]. destruct Hi as [[g ->]|[g ->]]; exact H.
    + apply edit_booked in H; [|exact Hs|exact Hps]. destruct Hi as [[g ->]|[g ->]]; exact H.
    + exact (take_calm _ _ _ _ _ _ Hs Hps E).
    + exact (multi_booked _ _ _ _ _ _ _ _ Hs Hps H).
  - pose proof H as H0. unfold exec in H. destruct (s_closed s && needs_market i); [discriminate H|]. unfold exec_open in H. cbv zeta in H.
    destruct i as [| | | | | |u k' id|u k' c|u k' sd l|u l r|u l r|u k' ub uq b q|u k' ub uq b q|u k' ub uq ref|u k' ub uq ref|u r
      |k' ow dl n|u k'|u k' d|u|u k' l|u|au f t n|t n|k0 mi ow0|au k0 ow0|au k0 n|au k0]; try discriminate Hp; unfold lift_w, lift_s in H;
      unfold change; cbn [orders_for settled_by fst snd].
    + apply bind_ok in H as (w & E & H). injection H as <- _. cbn [s_set_w s_w].
      unfold cancel_order_ix in E. do 3 (apply bind_ok in E as (? & _ & E)). destruct (find_order_with_order_id _ _); [|discriminate].
      apply bind_ok in E as ([w1 l] & E & E'). injection E' as <-. exact (proj1 (book_cancel_calm _ _ _ _ _ _ _ _ E)).
    + do 2 (apply bind_ok in H as (? & _ & H)). apply bind_ok in H as ([w q] & E & H). injection H as <- _. cbn [s_set_w s_w].
      exact (proj1 (cancel_orders_calm _ _ _ _ _ _ _ E)).
    + do 2 (apply bind_ok in H as (? & _ & H)). apply bind_ok in H as ([w q] & E & H). injection H as <- _. cbn [s_set_w s_w].
      exact (proj1 (cancel_orders_calm _ _ _ _ _ _ _ E)).
    + do 2 (apply bind_ok in H as (? & _ & H)). apply bind_ok in H as (w & E & H). injection H as <- _. cbn [s_set_w s_w].
      unfold consume_events_ix in E. apply bind_ok in E as (ss & _ & E). exact (consume_loop_calm _ _ _ _ E).
    + do 2 (apply bind_ok in H as (? & _ & H)). apply bind_ok in H as (w & E & H). injection H as <- _. cbn [s_set_w s_w].
      unfold consume_events_ix in E. apply bind_ok in E as (ss & _ & E). exact (consume_loop_calm _ _ _ _ E).
    + do 3 (apply bind_ok in H as (? & _ & H)). apply bind_ok in H as (s1 & E & H). injection H as <- _. exact (deposit_calm _ _ _ _ _ _ _ _ _ E).
    + do 3 (apply bind_ok in H as (? & _ & H)). apply bind_ok in H as (s1 & E & H). injection H as <- _. unfold refill_ix in E.
      do 3 (apply bind_ok in E as (? & _ & E)). exact (deposit_calm _ _ _ _ _ _ _ _ _ E).
    + apply bind_ok in H as (s1 & E & H). injection H as <- _. unfold settle_funds_ix in E. do 7 (apply bind_ok in E as (? & _ & E)).
      exact (settle_booked _ _ _ _ _ _ E).
    + apply bind_ok in H as (s1 & E & H). injection H as <- _. unfold settle_funds_expired_ix in E. do 8 (apply bind_ok in E as (? & _ & E)).
      exact (settle_booked _ _ _ _ _ _ E).
    + apply bind_ok in H as (s1 & E & H). injection H as <- _. unfold sweep_fees_ix in E. cbv zeta in E. do 3 (apply bind_ok in E as (? & _ & E)).
      apply bind_ok in E as (t1 & T & E). injection E as <-. apply calm_same. reflexivity.
    + apply bind_ok in H as (w & E & H). injection H as <- _. unfold create_account_ix in E. apply bind_ok in E as (? & G & E). apply require_ok in G.
      apply bind_ok in E as (? & _ & E). injection E as <-. cbn [s_set_w s_w]. split.
      * unfold unpaid. cbn [w_set_accts w_accts]. rewrite unpaid_cons. unfold pen. cbn [a_pos position0 p_penalty]. lia.
      * intros j. unfold unpaid_by. cbn [w_set_accts w_accts acct_get]. destruct (Z.eqb_spec j k') as [Ej|Ej]; [subst j|lia].
        destruct (acct_get k' (w_accts (s_w s))); [discriminate G|reflexivity].
    + exact (close_calm _ _ _ _ _ _ R H0).
    + apply bind_ok in H as (w & E & H). injection H as <- _. unfold set_delegate_ix in E. apply bind_ok in E as (a & A & E). apply acct_load_ok in A.
      apply bind_ok in E as (? & _ & E). injection E as <-. eapply calm_set; [exact A|reflexivity|reflexivity].
    + apply bind_ok in H as (w & E & H). injection H as <- _. unfold set_market_expired_ix in E. do 2 (apply bind_ok in E as (? & _ & E)). injection E as <-. apply calm_same. reflexivity.
    + apply bind_ok in H as (? & _ & H). apply bind_ok in H as (w & E & H). injection H as <- _. unfold prune_orders_ix in E. do 3 (apply bind_ok in E as (? & _ & E)).
      apply bind_ok in E as ([w1 q] & E & E'). injection E' as <-. cbn [s_set_w s_w]. exact (proj1 (cancel_orders_calm _ _ _ _ _ _ _ E)).
    + apply bind_ok in H as (w & _ & H). injection H as <- _. apply calm_refl.
    + apply bind_ok in H as (? & _ & H). apply bind_ok in H as (t1 & T & H). injection H as <- _. apply calm_refl.
    + do 3 (apply bind_ok in H as (? & _ & H)). injection H as <- _. apply calm_refl.
    + do 1 (apply bind_ok in H as (? & _ & H)). injection H as <- _. apply calm_refl.
    + do 3 (apply bind_ok in H as (? & _ & H)). injection H as <- _. apply calm_refl.
    + do 5 (apply bind_ok in H as (? & _ & H)). injection H as <- _. apply calm_refl.
    + do 4 (apply bind_ok in H as (? & _ & H)). injection H as <- _. apply calm_refl.
Qed.
