(** Where makers pay no fee, no account has maker fees locked. *)
From Coq Require Import ZArith List Bool Lia ZifyBool Permutation.
From Verif Require Import Base Nodes OrderTree BookSide Heap Market OpenOrders Order Book Instructions
  BaseFacts HeapFacts SpecBook SpecFees SpecOrder MatchFacts OrderFacts PlaceFacts OrderSpecProofs
  Steps StepFacts TokenFacts SpecLedger SpecEvents Ledger LedgerOps LedgerMoves LedgerPlace LedgerOrder LedgerInv SpecSystem SystemFacts Solvency SpecControl ControlFacts LifeFacts IdFacts AuthFacts EndFacts SpecMore FeeGap SpecWind.
Import ListNotations.
Open Scope Z_scope.

(** What is locked for fees by account [a]. *)
Definition locked (a : ooa) : Z := p_locked_fees (a_pos a).
Record unlocked (w : world) : Prop := {
  ul_fee : maker_fee (w_mkt w) <= 0;
  ul_none : forall k a, acct_get k (w_accts w) = Some a -> locked a = 0 }.

Lemma unlocked_same w w' : unlocked w -> m_cfg (w_mkt w') = m_cfg (w_mkt w) -> w_accts w' = w_accts w -> unlocked w'.
Proof. intros [H1 H2] E1 E2. split; [unfold maker_fee in *; rewrite E1; exact H1|rewrite E2; exact H2]. Qed.
Lemma unlocked_set w w' k v : unlocked w -> m_cfg (w_mkt w') = m_cfg (w_mkt w) ->
  w_accts w' = acct_set k v (w_accts w) -> locked v = 0 -> unlocked w'.
Proof.
  intros [H1 H2] E1 E2 E3. split; [unfold maker_fee in *; rewrite E1; exact H1|]. rewrite E2. intros k' a G.
  rewrite acct_get_set in G. destruct (k' =? k); [|exact (H2 _ _ G)]. destruct (acct_get k (w_accts w)); [|discriminate G].
  injection G as <-. exact E3.
Qed.

Lemma remove_order_locked a slot q p a' : remove_order a slot q p = Ok a' -> locked a' = locked a.
Proof.
  unfold remove_order. intros H. apply bind_ok in H as (oo & _ & H). apply bind_ok in H as (u & _ & H). cbv zeta in H.
  apply bind_ok in H as (p' & E & H). injection H as <-.
  destruct (oo_side oo); repeat (apply bind_ok in E as (? & _ & E)); injection E as <-; reflexivity.
Qed.
Lemma no_fees_ceil t m n f : maker_fee m <= 0 -> maker_fees_ceil t m n = Ok f -> f = 0.
Proof. unfold maker_fees_ceil. intros H. replace (0 <? maker_fee m) with false by lia. congruence. Qed.
Lemma no_fees_floor m n f : maker_fee m <= 0 -> maker_fees_floor m n = Ok f -> f = 0.
Proof. unfold maker_fees_floor. intros H. replace (0 <? maker_fee m) with false by lia. congruence. Qed.

Lemma cancel_locked a slot q m a' : maker_fee m <= 0 -> ooa_cancel_order a slot q m = Ok a' -> locked a' = locked a.
Proof.
  unfold ooa_cancel_order. intros Hm H. apply bind_ok in H as (oo & _ & H). cbv zeta in H.
  do 3 (apply bind_ok in H as (? & _ & H)). apply bind_ok in H as (f & F & H). apply (no_fees_ceil _ _ _ _ Hm) in F as ->.
  apply bind_ok in H as (p' & E & H). apply remove_order_locked in H. rewrite H. destruct (oo_side oo).
  - do 2 (apply bind_ok in E as (? & _ & E)). apply bind_ok in E as (l & L & E). apply chk_u64_ok in L as [-> _]. injection E as <-.
    unfold locked. cbn. lia.
  - apply bind_ok in E as (? & _ & E). injection E as <-. reflexivity.
Qed.
Lemma execute_maker_locked a m f a' m' : maker_fee m <= 0 -> execute_maker a m f = Ok (a', m') -> locked a' = locked a.
Proof.
  unfold execute_maker. intros Hm H. cbv zeta in H.
  do 2 (apply bind_ok in H as (? & _ & H)). apply bind_ok in H as (mf & F & H). apply bind_ok in H as (mr & _ & H).
  assert (mf = 0) as ->.
  { destruct (fe_maker f =? fe_taker f); [injection F as <-; reflexivity|]. exact (no_fees_floor _ _ _ Hm F). }
  apply bind_ok in H as ([[lm ab] lp] & L & H).
  assert (lm = 0) as ->.
  { match type of L with (if ?c then _ else _) = _ => destruct c end; [|injection L as <- _ _; reflexivity].
    do 3 (apply bind_ok in L as (? & _ & L)). apply bind_ok in L as (fl & G & L). apply (no_fees_floor _ _ _ Hm) in G as ->.
    do 2 (apply bind_ok in L as (? & _ & L)). injection L as <- _ _. reflexivity. }
  apply bind_ok in H as (p1 & P & H).
  assert (E1 : p_locked_fees p1 = locked a).
  { destruct (invert_side (fe_taker_side f)).
    - do 4 (apply bind_ok in P as (? & _ & P)). apply bind_ok in P as (l & G & P). apply chk_u64_ok in G as [-> _]. injection P as <-.
      unfold locked. cbn. lia.
    - do 3 (apply bind_ok in P as (? & _ & P)). injection P as <-. reflexivity. }
  do 5 (apply bind_ok in H as (? & _ & H)). apply bind_ok in H as (a2 & E & H). apply bind_ok in H as (? & _ & H). injection H as <- _.
  rewrite <- E1. destruct (fe_maker_out f).
  - apply remove_order_locked in E. rewrite E. reflexivity.
  - destruct (invert_side (fe_taker_side f)); repeat (apply bind_ok in E as (? & _ & E)); injection E as <-; reflexivity.
Qed.
Lemma execute_taker_locked a m s b q tf ra a' m' : execute_taker a m s b q tf ra = Ok (a', m') -> locked a' = locked a /\ m_cfg m' = m_cfg m.
Proof.
  unfold execute_taker. intros H. cbv zeta in H. apply bind_ok in H as (p1 & P & H). do 3 (apply bind_ok in H as (? & _ & H)).
  injection H as <- <-. split; [|reflexivity]. destruct s; repeat (apply bind_ok in P as (? & _ & P)); injection P as <-; reflexivity.
Qed.

Lemma effect_unlocked o tk owner rem now w a w' : effect o tk owner rem now w a w' -> unlocked w -> unlocked w'.
Proof.
  intros [w1 i q a1 a' m' _ G E|w1 i q h _|w1 i w2 H|w1 i a1 a' _ G E] U.
  - pose proof (execute_maker_locked _ _ _ _ _ (ul_fee _ U) E) as L. rewrite (ul_none _ U _ _ G) in L.
    eapply unlocked_set; [exact U|exact (proj1 (execute_maker_mkt _ _ _ _ _ E))|reflexivity|exact L].
  - eapply unlocked_same; [exact U|reflexivity|reflexivity].
  - destruct H as [w1 a1 a' _ G E|w1 h _].
    + pose proof (cancel_locked _ _ _ _ _ (ul_fee _ U) E) as L. rewrite (ul_none _ U _ _ G) in L.
      eapply unlocked_set; [exact U|reflexivity|reflexivity|exact L].
    + eapply unlocked_same; [exact U|reflexivity|reflexivity].
  - pose proof (cancel_locked _ _ _ _ _ (ul_fee _ U) E) as L. rewrite (ul_none _ U _ _ G) in L.
    eapply unlocked_set; [exact U|reflexivity|reflexivity|exact L].
Qed.
Lemma effects_unlocked o tk owner rem now w acts w' : effects o tk owner rem now w acts w' -> unlocked w -> unlocked w'.
Proof. induction 1 as [|w a w1 r w2 H _ IH]; intros U; [exact U|]. exact (IH (effect_unlocked _ _ _ _ _ _ _ _ H U)). Qed.

Lemma settle_taker_unlocked o taker maxq s w' bt qt tf ra rq : settle_taker o taker maxq s = Ok (w', bt, qt, tf, ra, rq) ->
  unlocked (ms_w s) -> unlocked w'.
Proof.
  intros H U. unfold settle_taker in H. cbv zeta in H.
  do 6 (apply bind_ok in H as (? & _ & H)). apply bind_ok in H as ([[w1 f1] r1] & E & H).
  do 5 (apply bind_ok in H as (? & _ & H)). injection H as <- _ _ _ _ _.
  match type of E with (if ?c then _ else _) = _ => destruct c end; [|injection E as <- _ _; exact U].
  do 2 (apply bind_ok in E as (? & _ & E)). apply bind_ok in E as ([[w2 f2] r2] & E1 & E).
  assert (U2 : unlocked w2).
  { match type of E1 with (if ?c then _ else _) = _ => destruct c end; [|injection E1 as <- _ _; exact U].
    do 3 (apply bind_ok in E1 as (? & _ & E1)). injection E1 as <- _ _. eapply unlocked_same; [exact U|reflexivity|reflexivity]. }
  apply bind_ok in E as (w3 & E2 & E). apply bind_ok in E as (? & _ & E). injection E as <- _ _.
  destruct taker as [t|].
  - apply bind_ok in E2 as (a & A & E2). apply acct_load_ok in A. apply bind_ok in E2 as ([a' m'] & E3 & E2). injection E2 as <-.
    apply execute_taker_locked in E3 as [L C]. rewrite (ul_none _ U2 _ _ A) in L.
    eapply unlocked_set; [exact U2|exact C|reflexivity|exact L].
  - apply bind_ok in E2 as (tv & _ & E2). injection E2 as <-. eapply unlocked_same; [exact U2|reflexivity|reflexivity].
Qed.

Lemma process_out_unlocked w tk owner rem ev w' : process_out_event w tk owner rem ev = Ok w' -> unlocked w -> unlocked w'.
Proof.
  intros H U.
  assert (Q : forall h, push_back (w_heap w) (EOut ev) = Ok h -> unlocked (w_set_heap w h)).
  { intros h _. eapply unlocked_same; [exact U|reflexivity|reflexivity]. }
  assert (C : forall k a a', acct_get k (w_accts w) = Some a -> ooa_cancel_order a (oe_slot ev) (oe_qty ev) (w_mkt w) = Ok a' -> unlocked (w_set_acct w k a')).
  { intros k a a' A E. pose proof (cancel_locked _ _ _ _ _ (ul_fee _ U) E) as L. rewrite (ul_none _ U _ _ A) in L.
    eapply unlocked_set; [exact U|reflexivity|reflexivity|exact L]. }
  assert (L : forall t k a, load_remaining w t k = Ok a -> acct_get k (w_accts w) = Some a).
  { intros t k a G. unfold load_remaining in G. destruct (is_taker t k); [discriminate G|]. apply acct_load_ok in G. exact G. }
  unfold process_out_event in H. destruct tk as [t|].
  - destruct (owner =? oe_owner ev); [|destruct (mem_key _ _)].
    + apply bind_ok in H as (a & A & H). apply acct_load_ok in A. apply bind_ok in H as (a' & E & H). injection H as <-. exact (C _ _ _ A E).
    + apply bind_ok in H as (a & A & H). apply L in A. apply bind_ok in H as (a' & E & H). injection H as <-. exact (C _ _ _ A E).
    + apply bind_ok in H as (h & E & H). injection H as <-. exact (Q _ E).
  - destruct (mem_key _ _).
    + apply bind_ok in H as (a & A & H). apply L in A. apply bind_ok in H as (a' & E & H). injection H as <-. exact (C _ _ _ A E).
    + apply bind_ok in H as (h & E & H). injection H as <-. exact (Q _ E).
Qed.
Lemma set_book_unlocked w s b : unlocked w -> unlocked (w_set_book w s b).
Proof. intros U. eapply unlocked_same; [exact U|rewrite w_set_book_mkt; reflexivity|destruct s; reflexivity]. Qed.

Lemma post_order_unlocked w o taker owner rem oracle now id pl price qty target w' pb pq mf :
  post_order w o taker owner rem oracle now id pl price qty target = Ok (w', pb, pq, mf) -> unlocked w -> unlocked w'.
Proof.
  intros H U. unfold post_order in H. cbv zeta in H. do 6 (apply bind_ok in H as (? & _ & H)).
  apply bind_ok in H as ([w1 f1] & E1 & H). apply bind_ok in H as ([b1 ex] & _ & H). apply bind_ok in H as (w3 & E3 & H).
  apply bind_ok in H as (w4 & E4 & H). apply bind_ok in H as (a & A & H). apply acct_load_ok in A. apply bind_ok in H as (? & _ & H).
  apply bind_ok in H as ([[b3 ?] ?] & _ & H). apply bind_ok in H as (a' & E5 & H). injection H as <- _ _ _.
  assert (U1 : unlocked w1).
  { destruct (o_side o); [|injection E1 as <- _; exact U].
    apply bind_ok in E1 as (f & F & E1). apply (no_fees_ceil _ _ _ _ (ul_fee _ U)) in F as ->. apply bind_ok in E1 as (f' & F & E1). apply chk_u64_ok in F as [-> _].
    apply bind_ok in E1 as (b & B & E1). apply acct_load_ok in B. apply bind_ok in E1 as (l & L & E1). apply chk_u64_ok in L as [-> _]. injection E1 as <- _.
    eapply unlocked_set; [exact U|reflexivity|reflexivity|]. pose proof (ul_none _ U _ _ B) as Z. unfold locked in *. cbn. lia. }
  assert (U3 : unlocked w3).
  { destruct ex; [apply process_out_unlocked in E3; [exact E3|]|injection E3 as <-]; apply set_book_unlocked; exact U1. }
  assert (U4 : unlocked w4).
  { destruct (is_full _); [|injection E4 as <-; exact U3]. apply bind_ok in E4 as ([b2 ow] & _ & E4). apply bind_ok in E4 as ([wo wp] & _ & E4).
    apply bind_ok in E4 as (? & _ & E4). apply process_out_unlocked in E4; [exact E4|]. apply set_book_unlocked. exact U3. }
  eapply unlocked_set; [apply (set_book_unlocked w4 (o_side o) b3); exact U4|reflexivity|reflexivity|].
  unfold add_order in E5. cbv zeta in E5. apply bind_ok in E5 as (p' & P & E5). apply bind_ok in E5 as (? & _ & E5). injection E5 as <-.
  rewrite <- (ul_none _ U4 _ _ A). destruct (o_side o); repeat (apply bind_ok in P as (? & _ & P)); injection P as <-; reflexivity.
Qed.

Lemma new_order_unlocked w o oracle taker owner now limit rem w' r : sound_call w o taker owner ->
  new_order w o oracle taker owner now limit rem = Ok (w', r) -> unlocked w -> unlocked w'.
Proof.
  intros Hsc H U. pose proof Hsc as [Hc Hsd Hso Htk]. pose proof Hso as [Hb0 Hq0 _].
  destruct (sc_other_fits _ _ _ _ Hsc) as (T & Hf & Hage).
  destruct (new_order_inv _ _ _ _ _ _ _ _ _ _ _ Hf Htk Hc Hb0 Hq0 H)
    as (price & pd & maxq & acts & ms & lf & w2 & bt & qt & tf & ra & rq & mf & b2 & T2 & Hpl & Hfin).
  destruct (placed_numbers _ _ _ _ _ _ _ _ _ _ _ _ _ _ _ _ _ _ _ _ _ _ _ _ Hsc Hf Hpl)
    as (_ & _ & _ & _ & _ & _ & _ & _ & _ & _ & _ & _ & _ & _ & _ & _ & Hef & _).
  pose proof (pc_settle _ _ _ _ _ _ _ _ _ _ _ _ _ _ _ _ _ _ _ _ _ _ _ _ Hpl) as Hst.
  apply effects_unlocked in Hef; [|eapply unlocked_same; [exact U|reflexivity|reflexivity]].
  apply settle_taker_unlocked in Hst; [|exact Hef].
  destruct Hfin as [Hno|t w4 pb pq mfees Hpos Htg Hpeg Hpost].
  - apply set_book_unlocked. exact Hst.
  - apply post_order_unlocked in Hpost; [exact Hpost|]. apply set_book_unlocked. exact Hst.
Qed.

Lemma wstep_unlocked who w db dq w' db' dq' : wstep who w db dq w' db' dq' -> world_sound w -> unlocked w -> unlocked w'.
Proof.
  intros H Hs U.
  destruct H as [w db dq o oracle taker owner now limit rem w' r Ho Ht Hl Hn E _|w db dq k a oo ex w' l A _ _ E _|w db dq rem slot w' E
    |w db dq k a bf qf pen bt qt A _ _ _ _ _ _|w db dq bt qt _ _|w db dq k a referred A m' _ _ _ _ _ _|w db dq _|w db dq k owner delegate num A _ _
    |w db dq k a d A _|w db dq].
  - assert (Hsc : sound_call w o taker owner) by (apply sound_call_of; [exact Hs|exact Ho|]; destruct Ht as [Ht|[Ht _]]; [left|right]; exact Ht).
    exact (new_order_unlocked _ _ _ _ _ _ _ _ _ _ Hsc E U).
  - apply book_cancel_inv in E as (b & a1 & a' & _ & _ & A1 & E & ->). pose proof (cancel_locked _ _ _ _ _ (ul_fee _ U) E) as L. rewrite (ul_none _ U _ _ A1) in L.
    eapply unlocked_set; [apply (set_book_unlocked w (oo_side oo) b); exact U|reflexivity|reflexivity|exact L].
  - apply consume_one_inv in E as (ev & _ & E). destruct ev as [f|x].
    + destruct (mem_key _ _); [|subst; exact U]. destruct E as (a & a' & m' & h' & y & A & E & _ & ->).
      pose proof (execute_maker_locked _ _ _ _ _ (ul_fee _ U) E) as L. rewrite (ul_none _ U _ _ A) in L.
      eapply unlocked_set; [exact U|exact (proj1 (execute_maker_mkt _ _ _ _ _ E))|reflexivity|exact L].
    + destruct (mem_key _ _); [|subst; exact U]. destruct E as (a & a' & h' & y & A & E & _ & ->).
      pose proof (cancel_locked _ _ _ _ _ (ul_fee _ U) E) as L. rewrite (ul_none _ U _ _ A) in L.
      eapply unlocked_set; [exact U|reflexivity|reflexivity|exact L].
  - eapply unlocked_set; [exact U|reflexivity|reflexivity|exact (ul_none _ U _ _ A)].
  - eapply unlocked_same; [exact U|reflexivity|reflexivity].
  - eapply unlocked_set; [exact U|reflexivity|reflexivity|]. unfold locked. cbn [a_set_pos a_pos settled_pos p_locked_fees].
    pose proof (ul_none _ U _ _ A) as L. unfold locked in L. rewrite L. destruct (round_now _ _); reflexivity.
  - eapply unlocked_same; [exact U|reflexivity|reflexivity].
  - destruct U as [U1 U2]. split; [exact U1|]. intros k' a. cbn [w_set_accts w_accts acct_get]. destruct (k' =? k); [|apply U2].
    intros G. injection G as <-. reflexivity.
  - eapply unlocked_set; [exact U|reflexivity|reflexivity|exact (ul_none _ U _ _ A)].
  - eapply unlocked_same; [exact U|reflexivity|reflexivity].
Qed.
Lemma wsteps_unlocked who w db dq w' db' dq' : wsteps who w db dq w' db' dq' -> world_sound w -> unlocked w -> unlocked w'.
Proof.
  induction 1 as [|w db dq w1 db1 dq1 w2 db2 dq2 H _ IH]; intros Hs U; [exact U|].
  apply IH; [exact (wstep_sound _ _ _ _ _ _ _ H Hs)|exact (wstep_unlocked _ _ _ _ _ _ _ H Hs U)].
Qed.


(** ** The terms of a market *)
Lemma ages_refl m : ages m m.
Proof. split; try reflexivity; try apply Z.le_refl. left; reflexivity. Qed.
Lemma ages_eq m m' : m' = m -> ages m m'.
Proof. intros ->. apply ages_refl. Qed.
Lemma ages_trans m1 m2 m3 : ages m1 m2 -> ages m2 m3 -> ages m1 m3.
Proof. intros [A1 A2 A3 A4 A5 A6 A7] [B1 B2 B3 B4 B5 B6 B7]. split; try lia. exact (eq_trans B1 A1). Qed.


Lemma as_u64_nonneg z : 0 <= as_u64 z.
Proof. unfold as_u64, two64. pose proof (Z.mod_pos_bound z 18446744073709551616). lia. Qed.
Lemma floor_nonneg m a v : maker_fees_floor m a = Ok v -> 0 <= v.
Proof.
  unfold maker_fees_floor, unsigned_maker_fees_floor. destruct (0 <? maker_fee m); intros H; [|injection H as <-; lia].
  do 2 (apply bind_ok in H as (? & _ & H)). apply chk_u64_ok in H as [-> H]. lia.
Qed.
Lemma execute_maker_ages a m f a' m' : execute_maker a m f = Ok (a', m') -> ages m m'.
Proof.
  unfold execute_maker. intros H. cbv zeta in H.
  do 2 (apply bind_ok in H as (? & _ & H)). apply bind_ok in H as (mf & F & H).
  assert (Hmf : 0 <= mf) by (destruct (fe_maker f =? fe_taker f); [injection F as <-; lia|exact (floor_nonneg _ _ _ F)]).
  apply bind_ok in H as (mr & _ & H).
  apply bind_ok in H as ([[lm ab] lp] & _ & H). apply bind_ok in H as (p1 & _ & H). apply bind_ok in H as (mv & _ & H).
  apply bind_ok in H as (rb & _ & H). apply bind_ok in H as (r2 & E1 & H).
  apply bind_ok in H as (mmv & E & H). apply chk_u128_ok in E as [-> _]. apply bind_ok in H as (mfa & E2 & H). apply chk_u128_ok in E2 as [-> _].
  do 2 (apply bind_ok in H as (? & _ & H)). injection H as _ <-.
  match goal with |- context [as_u64 ?z] => pose proof (as_u64_nonneg z) end.
  split; cbn [m_cfg m_seq m_fees_accrued m_fees_to_referrers m_maker_volume m_taker_volume_wo_oo m_time_expiry m_set_fees_accrued m_set_maker_volume m_set_rebates_accrued]; try lia; try reflexivity.
Qed.
Lemma effect_ages o tk owner rem now w a w' : effect o tk owner rem now w a w' -> ages (w_mkt w) (w_mkt w').
Proof.
  intros [w1 i q a1 a' m' _ _ E|w1 i q h _|w1 i w2 H|w1 i a1 a' _ _ _]; try apply ages_refl.
  - exact (execute_maker_ages _ _ _ _ _ E).
  - apply ages_eq. exact (proj2 (drop_effect_rest _ _ _ _ _ _ _ H)).
Qed.
Lemma effects_ages o tk owner rem now w acts w' : effects o tk owner rem now w acts w' -> ages (w_mkt w) (w_mkt w').
Proof. induction 1 as [|w a w1 r w2 H _ IH]; [apply ages_refl|]. exact (ages_trans _ _ _ (effect_ages _ _ _ _ _ _ _ _ H) IH). Qed.

Lemma settle_taker_ages o taker maxq s w' bt qt tf ra rq : settle_taker o taker maxq s = Ok (w', bt, qt, tf, ra, rq) ->
  ages (w_mkt (ms_w s)) (w_mkt w').
Proof.
  intros H. unfold settle_taker in H. cbv zeta in H.
  do 6 (apply bind_ok in H as (? & _ & H)). apply bind_ok in H as ([[w1 f1] r1] & E & H).
  do 5 (apply bind_ok in H as (? & _ & H)). injection H as <- _ _ _ _ _.
  match type of E with (if ?c then _ else _) = _ => destruct c end; [|injection E as <- _ _; apply ages_refl].
  do 2 (apply bind_ok in E as (? & _ & E)). apply bind_ok in E as ([[w2 f2] r2] & E1 & E).
  assert (U2 : ages (w_mkt (ms_w s)) (w_mkt w2)).
  { match type of E1 with (if ?c then _ else _) = _ => destruct c end; [|injection E1 as <- _ _; apply ages_refl].
    apply bind_ok in E1 as (? & _ & E1). apply bind_ok in E1 as (r & R & E1). apply chk_u64_ok in R as [-> R]. apply bind_ok in E1 as (fa & F & E1). apply chk_u128_ok in F as [-> _].
    injection E1 as <- _ _. split; cbn; try lia; try reflexivity. }
  apply bind_ok in E as (w3 & E2 & E). apply bind_ok in E as (? & _ & E). injection E as <- _ _.
  eapply ages_trans; [exact U2|]. destruct taker as [t|].
  - apply bind_ok in E2 as (a & A & E2). apply bind_ok in E2 as ([a' m'] & E3 & E2). injection E2 as <-.
    unfold execute_taker in E3. cbv zeta in E3. do 4 (apply bind_ok in E3 as (? & _ & E3)). injection E3 as _ <-.
    split; cbn; try lia; try reflexivity.
  - apply bind_ok in E2 as (tv & E3 & E2). apply chk_u128_ok in E3 as [-> _]. injection E2 as <-.
    match goal with |- context [as_u64 ?z] => pose proof (as_u64_nonneg z) end.
    split; cbn [w_mkt w_set_mkt m_cfg m_seq m_fees_accrued m_fees_to_referrers m_maker_volume m_taker_volume_wo_oo m_time_expiry m_set_taker_volume_wo_oo]; try lia; try reflexivity.
Qed.
Lemma new_order_ages w o oracle taker owner now limit rem w' r : sound_call w o taker owner ->
  new_order w o oracle taker owner now limit rem = Ok (w', r) -> ages (w_mkt w) (w_mkt w').
Proof.
  intros Hsc H. pose proof Hsc as [Hc Hsd Hso Htk]. pose proof Hso as [Hb0 Hq0 _].
  destruct (sc_other_fits _ _ _ _ Hsc) as (T & Hf & Hage).
  destruct (new_order_inv _ _ _ _ _ _ _ _ _ _ _ Hf Htk Hc Hb0 Hq0 H)
    as (price & pd & maxq & acts & ms & lf & w2 & bt & qt & tf & ra & rq & mf & b2 & T2 & Hpl & Hfin).
  destruct (placed_numbers _ _ _ _ _ _ _ _ _ _ _ _ _ _ _ _ _ _ _ _ _ _ _ _ Hsc Hf Hpl)
    as (_ & _ & _ & _ & _ & _ & _ & _ & _ & _ & _ & _ & _ & _ & _ & _ & Hef & _).
  pose proof (pc_settle _ _ _ _ _ _ _ _ _ _ _ _ _ _ _ _ _ _ _ _ _ _ _ _ Hpl) as Hst.
  apply effects_ages in Hef. apply settle_taker_ages in Hst.
  assert (G : ages (w_mkt w) (w_mkt w2)).
  { eapply ages_trans; [|exact Hst]. eapply ages_trans; [|exact Hef]. split; cbn; try lia; try reflexivity. }
  destruct Hfin as [Hno|t w4 pb pq mfees Hpos Htg Hpeg Hpost].
  - rewrite w_set_book_mkt. exact G.
  - apply post_order_mkt in Hpost. rewrite w_set_book_mkt in Hpost. rewrite Hpost. exact G.
Qed.
Lemma wstep_ages who w db dq w' db' dq' cl ct P : wstep who w db dq w' db' dq' -> Inv w db dq cl ct P -> ages (w_mkt w) (w_mkt w').
Proof.
  intros H HI. pose proof (rep_sound _ _ (iv_rep _ _ _ _ _ _ HI) (iv_led _ _ _ _ _ _ HI)) as Hs.
  destruct H as [w db dq o oracle taker owner now limit rem w' r Ho Ht Hl Hn E _|w db dq k a oo ex w' l A _ _ E _|w db dq rem slot w' E
    |w db dq k a bf qf pen bt qt A _ _ _ _ _ _|w db dq bt qt _ _|w db dq k a referred A m' _ _ _ _ _ _|w db dq _|w db dq k owner delegate num A _ _
    |w db dq k a d A _|w db dq].
  - assert (Hsc : sound_call w o taker owner) by (apply sound_call_of; [exact Hs|exact Ho|]; destruct Ht as [Ht|[Ht _]]; [left|right]; exact Ht).
    exact (new_order_ages _ _ _ _ _ _ _ _ _ _ Hsc E).
  - apply book_cancel_mkt in E as [E _]. exact (ages_eq _ _ E).
  - apply consume_one_inv in E as (ev & _ & E). destruct ev as [f|x].
    + destruct (mem_key _ _); [|subst; apply ages_refl]. destruct E as (a & a' & m' & h' & y & A & E & _ & ->). exact (execute_maker_ages _ _ _ _ _ E).
    + destruct (mem_key _ _); [|subst; apply ages_refl]. destruct E as (a & a' & h' & y & A & E & _ & ->). apply ages_refl.
  - split; cbn; try lia; try reflexivity.
  - split; cbn; try lia; try reflexivity.
  - destruct (ac_pos _ _ _ _ (ld_acct _ _ _ (iv_led _ _ _ _ _ _ HI) _ _ A)) as [_ _ P3 P4 _ _ _ _]. unfold u64_ok in *.
    assert (0 <= round_off (w_mkt w) (a_pos a)) by (unfold round_off; destruct (round_now _ _); lia).
    split; cbn [w_mkt w_set_acct w_set_accts w_set_mkt m' settled_mkt m_cfg m_seq m_fees_accrued m_fees_to_referrers m_maker_volume m_taker_volume_wo_oo m_time_expiry];
      try lia; try reflexivity; destruct referred; lia.
  - split; cbn; try lia; try reflexivity.
  - apply ages_refl.
  - apply ages_refl.
  - split; cbn; try lia; try reflexivity.
Qed.
Lemma wsteps_ages who w db dq w' db' dq' cl ct : wsteps who w db dq w' db' dq' -> forall P, Inv w db dq cl ct P -> ages (w_mkt w) (w_mkt w').
Proof.
  induction 1 as [|w db dq w1 db1 dq1 w2 db2 dq2 H _ IH]; intros P HI; [apply ages_refl|].
  pose proof (wstep_ages _ _ _ _ _ _ _ _ _ _ H HI) as G. destruct (wstep_inv _ _ _ _ _ _ _ _ _ _ H HI) as (P1 & G1).
  exact (ages_trans _ _ _ G (IH _ G1)).
Qed.
Lemma exec_ages e s i s' out : reachable s -> exec e s i = Ok (s', out) -> ages (w_mkt (s_w s)) (w_mkt (s_w s')).
Proof.
  intros R H. pose proof (exec_steps _ _ _ _ _ (reachable_sound _ R) H) as Hst. destruct (reachable_inv _ R) as (cl & ct & P & HI).
  destruct i; try exact (wsteps_ages _ _ _ _ _ _ _ _ _ Hst _ HI). destruct Hst as (a & _ & _ & E). rewrite E. apply ages_refl.
Qed.

Lemma reachable_unlocked s : reachable s -> maker_fee (w_mkt (s_w s)) <= 0 -> unlocked (s_w s).
Proof.
  induction 1 as [now t c te s H|e s i s' out R IH H].
  - unfold create_market_ix in H. cbv zeta in H. repeat (apply bind_ok in H as (? & _ & H)). injection H as <-. intros Hm. split; [exact Hm|intros k a G; discriminate G].
  - intros Hm. unfold maker_fee in Hm. rewrite (ag_cfg _ _ (exec_ages _ _ _ _ _ R H)) in Hm. specialize (IH Hm).
    pose proof (reachable_sound _ R) as Hs. pose proof (exec_steps _ _ _ _ _ Hs H) as Hst.
    destruct i as [| | | | | | | | | | | | | | | | |u k| | | | | | | | | | ]; try exact (wsteps_unlocked _ _ _ _ _ _ _ Hst Hs IH).
    destruct Hst as (a & A & _ & E). destruct (close_account_ok _ _ _ _ _ _ _ R H A) as (_ & _ & _ & N1 & N2).
    split; [rewrite E; exact (ul_fee _ IH)|]. intros k' b G. destruct (Z.eq_dec k' k) as [->|N]; [congruence|]. rewrite (N2 _ N) in G. exact (ul_none _ IH _ _ G).
Qed.

(** Only the closing admin changes the expiry time. *)
Definition until (w : world) : Z := m_time_expiry (w_mkt w).
Lemma until_mkt w w' : w_mkt w' = w_mkt w -> until w' = until w.
Proof. unfold until. intros ->. reflexivity. Qed.
Lemma new_order_until w o oracle taker owner now limit rem w' r : sound_call w o taker owner ->
  new_order w o oracle taker owner now limit rem = Ok (w', r) -> until w' = until w.
Proof. intros Hsc H. apply (new_order_terms _ _ _ _ _ _ _ _ _ _ Hsc H). Qed.
Lemma lock_funds_until w k s r grew w' d : lock_funds w k s r grew = Ok (w', d) -> until w' = until w.
Proof.
  intros H. apply lock_funds_inv in H as (a & m' & p' & _ & (_ & _ & pen & _ & Hp) & ->).
  destruct s; destruct Hp as [-> _]; reflexivity.
Qed.
Lemma place_ix_until e s x o limit s' id : world_sound (s_w s) -> params_sane (o_params o) ->
  place_order_ix e s x o limit = Ok (s', id) -> until (s_w s') = until (s_w s).
Proof.
  intros Hs Hp H. apply place_ix_inv in H as (Hb & Hq & _ & _ & oracle & w1 & r & w2 & d & t & _ & _ & En & Ek & _ & -> & _).
  apply lock_funds_until in Ek. cbn [s_w]. rewrite Ek.
  assert (Hsc : sound_call (s_w s) o (Some (px_acct x)) (px_acct x)).
  { apply sound_call_of; [exact Hs| |left; reflexivity]. constructor; assumption. }
  exact (new_order_until _ _ _ _ _ _ _ _ _ _ Hsc En).
Qed.
Lemma multi_loop_until os : forall w x ub uq oracle now limit ba qa w' ba' qa' ids,
  world_sound w -> Forall (fun o => params_sane (o_params o)) os ->
  multi_loop w x ub uq oracle now limit os ba qa = Ok (w', ba', qa', ids) -> until w' = until w.
Proof.
  induction os as [|o r IH]; intros w x ub uq oracle now limit ba qa w' ba' qa' ids Hs Ho H; cbn [multi_loop] in H.
  - injection H as <- <- <- _. reflexivity.
  - apply bind_ok in H as ([[[w1 b1] q1] i1] & E & H). inversion Ho as [|o0 r0 Ho1 Ho2]; subst.
    apply bind_ok in H as ([[[w2 b2] q2] i2] & E2 & H). injection H as <- <- <- _.
    destruct (multi_one_place _ _ _ _ _ _ _ _ _ _ _ _ _ _ Hs Ho1 E) as (o' & r' & Go & _ & En & _ & _ & _).
    assert (Hsc : sound_call w o' (Some (mx_acct x)) (mx_acct x)) by (apply sound_call_of; [exact Hs|exact Go|left; reflexivity]).
    apply IH in E2; [|eapply new_order_sound; [exact Hsc|exact En]|exact Ho2].
    rewrite E2. exact (new_order_until _ _ _ _ _ _ _ _ _ _ Hsc En).
Qed.
Lemma consume_until ss : forall w rem w', consume_loop w rem ss = Ok w' -> until w' = until w.
Proof.
  induction ss as [|a ss IH]; intros w0 rem w' E; cbn [consume_loop] in E; [injection E as <-; reflexivity|].
  apply bind_ok in E as (w1 & E1 & E). rewrite (IH _ _ _ E). apply consume_one_terms in E1. apply E1.
Qed.
Lemma deposit_until e s u k ub uq b q s' : deposit_ix e s u k ub uq b q = Ok s' -> until (s_w s') = until (s_w s).
Proof. intros H. unfold deposit_ix in H. cbv zeta in H. do 10 (apply bind_ok in H as (? & _ & H)). injection H as <-. reflexivity. Qed.
Lemma settle_until s k ub uq ref s' : settle_core s k ub uq ref = Ok s' -> until (s_w s') = until (s_w s).
Proof. intros H. apply settle_inv in H as (a & t0 & t1 & t2 & Ha & H). cbv zeta in H. destruct H as (_ & _ & _ & _ & ->). reflexivity. Qed.
Lemma multi_until e s x cancel os limit s' ids : world_sound (s_w s) -> Forall (fun o => params_sane (o_params o)) os ->
  multi_ix e s x cancel os limit = Ok (s', ids) -> until (s_w s') = until (s_w s).
Proof.
  intros Hs Hp H. unfold multi_ix in H. cbv zeta in H. do 3 (apply bind_ok in H as (? & _ & H)). apply bind_ok in H as (w0 & E0 & H).
  do 2 (apply bind_ok in H as (? & _ & H)). apply bind_ok in H as ([[[w1 ba] qa] is] & E1 & H). apply bind_ok in H as (a & _ & H). cbv zeta in H.
  do 9 (apply bind_ok in H as (? & _ & H)). injection H as <- _. cbn [s_w].
  assert (G0 : until w0 = until (s_w s) /\ world_sound w0).
  { destruct cancel; [|injection E0 as <-; split; [reflexivity|exact Hs]]. apply bind_ok in E0 as ([w' q] & E0 & E0'). injection E0' as <-.
    split; [apply until_mkt; exact (proj1 (cancel_orders_mkt _ _ _ _ _ _ _ E0))|]. exact (wsteps_sound _ _ _ _ _ _ _ (cancel_orders_steps _ _ _ _ _ _ _ E0) Hs). }
  destruct G0 as [G0 Hs0]. apply multi_loop_until in E1; [|exact Hs0|exact Hp].
  unfold until in *. exact (eq_trans E1 G0).
Qed.
Definition sets_expired (i : instr) : bool := match i with ISetExpired _ => true | _ => false end.
Lemma exec_until e s i s' out : reachable s -> exec e s i = Ok (s', out) -> sets_expired i = false -> until (s_w s') = until (s_w s).
Proof.
  intros Hr H Ht. pose proof (reachable_sound _ Hr) as Hs.
  destruct (is_placing i) eqn:Hp.
  - apply exec_placing in H; [|exact Hp].
    destruct H as [i _ _ _|i x o limit s' id Hi _ Hps _ H|i x cid ex o limit s' id Hi _ Hps _ H|x g o limit s' _ _ Hps _ E|x cancel t bids asks limit os s' ids _ _ Hps _ H].
    + reflexivity.
    + exact (place_ix_until _ _ _ _ _ _ _ Hs Hps H).
    + unfold edit_order_ix in H. apply bind_ok in H as (u1 & _ & H). apply bind_ok in H as ([w q] & E & H). cbv zeta in H.
      pose proof (proj1 (cancel_orders_mkt _ _ _ _ _ _ _ E)) as Em.
      apply bind_ok in H as (f & _ & H).
      match type of H with (if ?c then _ else _) = _ => destruct c end.
      * apply bind_ok in H as (mb & _ & H). apply place_ix_until in H; [|exact (wsteps_sound _ _ _ _ _ _ _ (cancel_orders_steps _ _ _ _ _ _ _ E) Hs)|exact Hps].
        cbn [s_set_w s_w] in H. rewrite H. apply until_mkt. exact Em.
      * injection H as <- _. cbn [s_set_w s_w]. apply until_mkt. exact Em.
    + unfold place_take_ix in E. cbv zeta in E. apply bind_ok in E as (u1 & R1 & E). apply bind_ok in E as (u2 & R2 & E). apply require_ok in R1, R2.
      do 4 (apply bind_ok in E as (? & _ & E)). apply bind_ok in E as ([w1 r] & En & E).
      assert (Hsc : sound_call (s_w s) o None (tx_signer x)).
      { apply sound_call_of; [exact Hs| |right; reflexivity]. constructor; [lia|lia|exact Hps]. }
      apply new_order_until in En; [|exact Hsc]. apply bind_ok in E as (reb & _ & E). rewrite <- En.
      destruct (o_side o); do 5 (apply bind_ok in E as (? & _ & E)); injection E as <-; reflexivity.
    + exact (multi_until _ _ _ _ _ _ _ _ Hs Hps H).
  - unfold exec in H. destruct (s_closed s && needs_market i); [discriminate H|]. unfold exec_open in H. cbv zeta in H.
    destruct i as [| | | | | |u k' id|u k' c|u k' sd l|u l r|u l r|u k' ub uq b q|u k' ub uq b q|u k' ub uq ref|u k' ub uq ref|u r
      |k' ow dl n|u k'|u k' d|u|u k' l|u|au f t n|t n|k0 mi ow0|au k0 ow0|au k0 n|au k0]; try discriminate Hp; try discriminate Ht; unfold lift_w, lift_s in H.
    + apply bind_ok in H as (w & E & H). injection H as <- _. cbn [s_set_w s_w].
      unfold cancel_order_ix in E. do 3 (apply bind_ok in E as (? & _ & E)). destruct (find_order_with_order_id _ _); [|discriminate].
      apply bind_ok in E as ([w1 l] & E & E'). injection E' as <-. apply book_cancel_mkt in E as [E _]. exact (until_mkt _ _ E).
    + do 2 (apply bind_ok in H as (? & _ & H)). apply bind_ok in H as ([w q] & E & H). injection H as <- _. cbn [s_set_w s_w].
      exact (until_mkt _ _ (proj1 (cancel_orders_mkt _ _ _ _ _ _ _ E))).
    + do 2 (apply bind_ok in H as (? & _ & H)). apply bind_ok in H as ([w q] & E & H). injection H as <- _. cbn [s_set_w s_w].
      exact (until_mkt _ _ (proj1 (cancel_orders_mkt _ _ _ _ _ _ _ E))).
    + do 2 (apply bind_ok in H as (? & _ & H)). apply bind_ok in H as (w & E & H). injection H as <- _. cbn [s_set_w s_w].
      unfold consume_events_ix in E. apply bind_ok in E as (ss & _ & E). exact (consume_until _ _ _ _ E).
    + do 2 (apply bind_ok in H as (? & _ & H)). apply bind_ok in H as (w & E & H). injection H as <- _. cbn [s_set_w s_w].
      unfold consume_events_ix in E. apply bind_ok in E as (ss & _ & E). exact (consume_until _ _ _ _ E).
    + do 3 (apply bind_ok in H as (? & _ & H)). apply bind_ok in H as (s1 & E & H). injection H as <- _. exact (deposit_until _ _ _ _ _ _ _ _ _ E).
    + do 3 (apply bind_ok in H as (? & _ & H)). apply bind_ok in H as (s1 & E & H). injection H as <- _. unfold refill_ix in E.
      do 3 (apply bind_ok in E as (? & _ & E)). exact (deposit_until _ _ _ _ _ _ _ _ _ E).
    + apply bind_ok in H as (s1 & E & H). injection H as <- _. unfold settle_funds_ix in E. do 7 (apply bind_ok in E as (? & _ & E)).
      exact (settle_until _ _ _ _ _ _ E).
    + apply bind_ok in H as (s1 & E & H). injection H as <- _. unfold settle_funds_expired_ix in E. do 8 (apply bind_ok in E as (? & _ & E)).
      exact (settle_until _ _ _ _ _ _ E).
    + apply bind_ok in H as (s1 & E & H). injection H as <- _. unfold sweep_fees_ix in E. cbv zeta in E. do 3 (apply bind_ok in E as (? & _ & E)).
      apply bind_ok in E as (t1 & T & E). injection E as <-. reflexivity.
    + apply bind_ok in H as (w & E & H). injection H as <- _. unfold create_account_ix in E. do 2 (apply bind_ok in E as (? & _ & E)). injection E as <-. reflexivity.
    + apply bind_ok in H as (w & E & H). injection H as <- _. unfold close_account_ix in E. do 3 (apply bind_ok in E as (? & _ & E)). injection E as <-. reflexivity.
    + apply bind_ok in H as (w & E & H). injection H as <- _. unfold set_delegate_ix in E. do 2 (apply bind_ok in E as (? & _ & E)). injection E as <-. reflexivity.
    + apply bind_ok in H as (? & _ & H). apply bind_ok in H as (w & E & H). injection H as <- _. unfold prune_orders_ix in E. do 3 (apply bind_ok in E as (? & _ & E)).
      apply bind_ok in E as ([w1 q] & E & E'). injection E' as <-. cbn [s_set_w s_w].
      exact (until_mkt _ _ (proj1 (cancel_orders_mkt _ _ _ _ _ _ _ E))).
    + apply bind_ok in H as (w & _ & H). injection H as <- _. reflexivity.
    + apply bind_ok in H as (? & _ & H). apply bind_ok in H as (t1 & T & H). injection H as <- _. reflexivity.
    + do 3 (apply bind_ok in H as (? & _ & H)). injection H as <- _. reflexivity.
    + do 1 (apply bind_ok in H as (? & _ & H)). injection H as <- _. reflexivity.
    + do 3 (apply bind_ok in H as (? & _ & H)). injection H as <- _. reflexivity.
    + do 5 (apply bind_ok in H as (? & _ & H)). injection H as <- _. reflexivity.
    + do 4 (apply bind_ok in H as (? & _ & H)). injection H as <- _. reflexivity.
Qed.
Lemma expiry_changes e s i s' out : reachable s -> exec e s i = Ok (s', out) -> m_time_expiry (w_mkt (s_w s')) <> m_time_expiry (w_mkt (s_w s)) ->
  i = ISetExpired (c_close_market_admin (m_cfg (w_mkt (s_w s)))) /\ c_close_market_admin (m_cfg (w_mkt (s_w s))) <> 0.
Proof.
  intros R H N. destruct (sets_expired i) eqn:E; [|exfalso; apply N; exact (exec_until _ _ _ _ _ R H E)].
  destruct i; try discriminate E. unfold exec in H. destruct (s_closed s && _); [discriminate H|]. unfold exec_open in H. cbv zeta in H.
  unfold lift_w in H. apply bind_ok in H as (w & G & _). unfold set_market_expired_ix in G. apply bind_ok in G as (? & G & _).
  unfold check_close_admin in G. cbv zeta in G. apply bind_ok in G as (? & G1 & G2). apply require_ok in G1, G2.
  assert (E1 : c_close_market_admin (m_cfg (w_mkt (s_w s))) = signer) by lia. rewrite E1. split; [reflexivity|]. lia.
Qed.
