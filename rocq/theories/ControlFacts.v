(** Accounts an instruction does not act for. *)
From Coq Require Import ZArith List Bool Lia ZifyBool.
From Verif Require Import Base Nodes OrderTree BookSide Heap Market OpenOrders Order Book Instructions
  BaseFacts SpecBook SpecFees SpecOrder MatchFacts FeeFacts OrderFacts PlaceFacts OrderSpecProofs OrderClaims
  Steps StepFacts TokenFacts SystemFacts SpecControl.
Import ListNotations.
Open Scope Z_scope.

Lemma only_traded_refl a : only_traded a a.
Proof. constructor; auto; lia. Qed.
Lemma only_traded_trans a b c : only_traded a b -> only_traded b c -> only_traded a c.
Proof.
  intros [A1 A2 [A3 A4] A5 A6 A7 A8 A9 A10 A11] [B1 B2 [B3 B4] B5 B6 B7 B8 B9 B10 B11].
  constructor; try congruence; try lia; try (split; congruence).
  intros i. destruct (B11 i) as [E|[E (oo & F & G)]].
  - rewrite E. apply A11.
  - destruct (A11 i) as [E'|[E' (o1 & F' & G')]].
    + right. split; [exact E|]. exists oo. rewrite <- E'. auto.
    + right. split; [exact E|]. exists o1. auto.
Qed.

Lemma as_u64_nonneg z : 0 <= as_u64 z.
Proof. unfold as_u64. apply Z.mod_pos_bound. reflexivity. Qed.

Lemma order_at_set a p sl oo i : order_at a sl = Ok oo ->
  order_at (set_order_at (a_set_pos a p) sl open_order0) i = if i =? sl then Ok open_order0 else order_at a i.
Proof.
  unfold order_at, set_order_at. intros H. apply bind_ok in H as (u & E & H). apply massert_ok in E. apply unwrap_ok in H.
  change (a_orders (a_set_orders (a_set_pos a p) (set_nth (Z.to_nat sl) open_order0 (a_orders (a_set_pos a p)))))
    with (set_nth (Z.to_nat sl) open_order0 (a_orders a)).
  destruct (i =? sl) eqn:Ei.
  - assert (i = sl) as -> by lia. replace (0 <=? sl) with true by lia. cbn [massert bind].
    rewrite nth_error_set_nth_eq; [reflexivity|]. apply nth_error_Some. congruence.
  - destruct (0 <=? i) eqn:E0; cbn [massert bind]; [|reflexivity].
    rewrite nth_error_set_nth_neq; [reflexivity|lia].
Qed.

(** What [remove_order] leaves alone. *)
Lemma remove_order_traded a sl q lp a' : remove_order a sl q lp = Ok a' -> only_traded a a'.
Proof.
  intros H. unfold remove_order in H. apply bind_ok in H as (oo & Eo & H). apply bind_ok in H as (u & Ef & H). apply massert_ok in Ef.
  cbv zeta in H. apply bind_ok in H as (p' & Ep & H). injection H as <-.
  assert (P : p_base_free p' = p_base_free (a_pos a) /\ p_quote_free p' = p_quote_free (a_pos a) /\ p_rebates p' = p_rebates (a_pos a)
    /\ p_maker_volume p' = p_maker_volume (a_pos a) /\ p_taker_volume p' = p_taker_volume (a_pos a) /\ p_penalty p' = p_penalty (a_pos a)).
  { destruct (oo_side oo).
    - apply bind_ok in Ep as (b & _ & Ep). apply bind_ok in Ep as (x & _ & Ep). apply bind_ok in Ep as (y & _ & Ep). injection Ep as <-. repeat split.
    - apply bind_ok in Ep as (b & _ & Ep). injection Ep as <-. repeat split. }
  destruct P as (P1 & P2 & P3 & P4 & P5 & P6).
  constructor; try reflexivity; try (cbn [a_pos set_order_at a_set_orders a_set_pos]; lia); [split; reflexivity|].
  intros i. rewrite (order_at_set _ _ _ _ _ Eo). destruct (i =? sl) eqn:E; [|left; reflexivity].
  right. split; [reflexivity|]. exists oo. assert (i = sl) as -> by lia. split; [exact Eo|]. destruct (oo_free oo); [discriminate Ef|reflexivity].
Qed.

Lemma cancel_traded a sl q m a' : ooa_cancel_order a sl q m = Ok a' -> only_traded a a'.
Proof.
  intros H. unfold ooa_cancel_order in H. apply bind_ok in H as (oo & Eo & H). cbv zeta in H.
  apply bind_ok in H as (bq & _ & H). apply bind_ok in H as (x & _ & H). apply bind_ok in H as (y & _ & H).
  apply bind_ok in H as (fees & _ & H). apply bind_ok in H as (p' & Ep & H). apply remove_order_traded in H.
  eapply only_traded_trans; [|exact H].
  assert (P : p_base_free (a_pos a) <= p_base_free p' /\ p_quote_free (a_pos a) <= p_quote_free p' /\ p_rebates p' = p_rebates (a_pos a)
    /\ p_maker_volume p' = p_maker_volume (a_pos a) /\ p_taker_volume p' = p_taker_volume (a_pos a) /\ p_penalty p' = p_penalty (a_pos a)).
  { destruct (oo_side oo).
    - apply bind_ok in Ep as (s & Es & Ep). apply chk_u64_ok in Es as [-> Es]. apply bind_ok in Ep as (z & Ez & Ep). apply chk_u64_ok in Ez as [-> Ez].
      apply bind_ok in Ep as (l & _ & Ep). injection Ep as <-.
      cbn [p_base_free p_quote_free p_rebates p_maker_volume p_taker_volume p_penalty p_set_locked_fees p_set_quote_free]. lia.
    - apply bind_ok in Ep as (s & Es & Ep). apply chk_u64_ok in Es as [-> Es]. injection Ep as <-. pose proof (as_u64_nonneg bq).
      cbn [p_base_free p_quote_free p_rebates p_maker_volume p_taker_volume p_penalty p_set_base_free]. lia. }
  destruct P as (P1 & P2 & P3 & P4 & P5 & P6).
  constructor; try reflexivity; try (cbn [a_pos a_set_pos]; lia); [split; reflexivity|].
  intros i. left. reflexivity.
Qed.

Lemma floor_nonneg m x v : 0 <= x -> maker_fees_floor m x = Ok v -> 0 <= v.
Proof.
  intros Hx H. unfold maker_fees_floor in H. destruct (0 <? maker_fee m); [|injection H as <-; lia].
  apply unsigned_floor_ok in H; [|exact Hx]. subst v. unfold fee_down. apply Z.div_pos; lia.
Qed.

Lemma maker_traded a m f a' m' : execute_maker a m f = Ok (a', m') -> only_traded a a'.
Proof.
  intros H. unfold execute_maker in H. cbv zeta in H.
  apply bind_ok in H as (x & _ & H). apply bind_ok in H as (y & _ & H).
  apply bind_ok in H as (mf & Emf & H). apply bind_ok in H as (mr & _ & H).
  assert (Hmf : 0 <= mf). { destruct (fe_maker f =? fe_taker f); [injection Emf as <-; lia|]. eapply floor_nonneg; [|exact Emf]. apply as_u64_nonneg. }
  apply bind_ok in H as ([[lf ab] lp] & _ & H). apply bind_ok in H as (p1 & Ep & H).
  apply bind_ok in H as (mv & Emv & H). apply chk_u128_ok in Emv as [-> Emv]. apply bind_ok in H as (rb & Erb & H). apply chk_u64_ok in Erb as [-> Erb].
  apply bind_ok in H as (z1 & _ & H). apply bind_ok in H as (z2 & _ & H). apply bind_ok in H as (z3 & _ & H).
  apply bind_ok in H as (a1 & Ea & H). apply bind_ok in H as (z4 & _ & H). injection H as <- _.
  pose proof (as_u64_nonneg y) as Hy.
  assert (P : p_base_free (a_pos a) <= p_base_free p1 /\ p_quote_free (a_pos a) <= p_quote_free p1 /\ p_rebates p1 = p_rebates (a_pos a)
    /\ p_maker_volume p1 = p_maker_volume (a_pos a) /\ p_taker_volume p1 = p_taker_volume (a_pos a) /\ p_penalty p1 = p_penalty (a_pos a)).
  { destruct (invert_side (fe_taker_side f)).
    - apply bind_ok in Ep as (bn & _ & Ep). apply bind_ok in Ep as (b & Eb & Ep). apply chk_u64_ok in Eb as [-> Eb]. pose proof (as_u64_nonneg bn).
      apply bind_ok in Ep as (r & Er & Ep). apply chk_u64_ok in Er as [-> Er]. apply bind_ok in Ep as (z & Ez & Ep). apply chk_u64_ok in Ez as [-> Ez].
      apply bind_ok in Ep as (l & _ & Ep). injection Ep as <-.
      cbn [p_base_free p_quote_free p_rebates p_maker_volume p_taker_volume p_penalty p_set_locked_fees p_set_quote_free p_set_base_free]. lia.
    - apply bind_ok in Ep as (r1 & _ & Ep). apply bind_ok in Ep as (r2 & Er & Ep). apply chk_u64_ok in Er as [-> Er].
      apply bind_ok in Ep as (z & Ez & Ep). apply chk_u64_ok in Ez as [-> Ez]. injection Ep as <-.
      cbn [p_base_free p_quote_free p_rebates p_maker_volume p_taker_volume p_penalty p_set_quote_free]. lia. }
  destruct P as (P1 & P2 & P3 & P4 & P5 & P6).
  set (p2 := p_set_rebates (p_set_maker_volume p1 (p_maker_volume p1 + as_u64 y)) (p_rebates p1 + mf)) in *.
  assert (Q : forall b q, only_traded a (a_set_pos a (p_set_asks_base p2 b)) /\ only_traded a (a_set_pos a p2) /\
     only_traded a (a_set_pos a (p_set_bids_quote (p_set_bids_base p2 b) q))).
  { intros b q. refine (conj _ (conj _ _)); constructor; try reflexivity;
      try (cbn [a_pos a_set_pos p_base_free p_quote_free p_rebates p_maker_volume p_taker_volume p_penalty p_set_asks_base p_set_bids_quote p_set_bids_base p_set_rebates p_set_maker_volume p2]; lia);
      try (split; reflexivity); intros i; left; reflexivity. }
  destruct (fe_maker_out f).
  - apply remove_order_traded in Ea. eapply only_traded_trans; [|exact Ea]. apply (Q 0 0).
  - destruct (invert_side (fe_taker_side f)).
    + apply bind_ok in Ea as (b & _ & Ea). apply bind_ok in Ea as (z & _ & Ea). apply bind_ok in Ea as (q & _ & Ea). injection Ea as <-. apply Q.
    + apply bind_ok in Ea as (b & _ & Ea). injection Ea as <-. apply (Q b 0).
Qed.

(** ** Worlds *)
(** The account [k] was only traded with between two worlds. *)
Definition bystander (k : Z) (w w' : world) : Prop :=
  forall a, acct_get k (w_accts w) = Some a -> exists a', acct_get k (w_accts w') = Some a' /\ only_traded a a'.
Lemma bystander_same k w w' : acct_get k (w_accts w') = acct_get k (w_accts w) -> bystander k w w'.
Proof. intros E a Ha. exists a. split; [congruence|apply only_traded_refl]. Qed.
Lemma bystander_trans k w w1 w2 : bystander k w w1 -> bystander k w1 w2 -> bystander k w w2.
Proof.
  intros H1 H2 a Ha. destruct (H1 a Ha) as (a1 & Ha1 & T1). destruct (H2 a1 Ha1) as (a2 & Ha2 & T2).
  exists a2. split; [exact Ha2|]. eapply only_traded_trans; eauto.
Qed.

Lemma acct_get_set k v k' l : acct_get k' (acct_set k v l) = if k' =? k then option_map (fun _ => v) (acct_get k l) else acct_get k' l.
Proof.
  induction l as [|[k1 a] r IH]; cbn [acct_set acct_get].
  - destruct (k' =? k); reflexivity.
  - destruct (k =? k1) eqn:E1; cbn [acct_get]; destruct (k' =? k) eqn:E2; destruct (k' =? k1) eqn:E3; try lia; try reflexivity; exact IH.
Qed.
Lemma bystander_set k k1 w a a' : acct_get k1 (w_accts w) = Some a -> k <> k1 \/ only_traded a a' -> bystander k w (w_set_acct w k1 a').
Proof.
  intros Ha Ho b Hb. change (w_accts (w_set_acct w k1 a')) with (acct_set k1 a' (w_accts w)). rewrite acct_get_set.
  destruct (k =? k1) eqn:E.
  - assert (k = k1) as -> by lia. rewrite Ha. cbn [option_map]. exists a'. split; [reflexivity|].
    replace b with a by congruence. destruct Ho as [Ho|Ho]; [congruence|exact Ho].
  - exists b. split; [exact Hb|apply only_traded_refl].
Qed.

Lemma drop_bystander k taker rem now s l w w' : drop_effect taker rem now s l w w' -> bystander k w w'.
Proof.
  intros [w0 a a' _ Ha E|w0 h E].
  - eapply bystander_set; [exact Ha|]. right. eapply cancel_traded. exact E.
  - apply bystander_same. reflexivity.
Qed.
Lemma drops_bystander k taker rem now s w g w' : drops taker rem now s w g w' -> bystander k w w'.
Proof.
  induction 1; [apply bystander_same; reflexivity|]. eapply bystander_trans; [eapply drop_bystander; eassumption|assumption].
Qed.
Lemma effect_bystander k o taker owner rem now w a w' : effect o taker owner rem now w a w' -> bystander k w w'.
Proof.
  intros [w0 i q x x' m' _ Ha E|w0 i q h E|w0 i w1 E|w0 i x x' Et Ha E].
  - intros b Hb. destruct (bystander_set k (lf_owner (im_leaf i)) (w_set_mkt w0 m') x x' Ha (or_intror (maker_traded _ _ _ _ _ E)) b Hb)
      as (b' & Hb' & T). eauto.
  - apply bystander_same. reflexivity.
  - eapply drop_bystander. exact E.
  - eapply bystander_set; [exact Ha|]. right. eapply cancel_traded. exact E.
Qed.
Lemma effects_bystander k o taker owner rem now w l w' : effects o taker owner rem now w l w' -> bystander k w w'.
Proof.
  induction 1; [apply bystander_same; reflexivity|]. eapply bystander_trans; [eapply effect_bystander; eassumption|assumption].
Qed.

Lemma new_order_bystander k w o oracle taker owner now limit rem w' r :
  sound_call w o taker owner -> new_order w o oracle taker owner now limit rem = Ok (w', r) -> taker <> Some k -> bystander k w w'.
Proof.
  intros Hsc H Hk. destruct (new_order_full _ _ _ _ _ _ _ _ _ _ Hsc H)
    as (T & T0 & price & pd & maxq & acts & ms & lf & w2 & bt & qt & tf & ra & rq & mf & b2 & T2 & T3 & gone & put
        & _ & _ & _ & Hex & _).
  destruct (ex_world _ _ _ _ _ _ _ _ _ _ _ _ _ Hex) as (v1 & v2 & v3 & v4 & -> & He & Hq1 & Hd & Hq2).
  destruct Hq1 as (_ & _ & Hq1). destruct Hq2 as (_ & _ & Hq2).
  eapply bystander_trans; [|eapply bystander_trans; [eapply effects_bystander; exact He|eapply bystander_trans;
    [apply bystander_same; apply Hq1; exact Hk|eapply bystander_trans; [eapply drops_bystander; exact Hd|apply bystander_same; apply Hq2; exact Hk]]]].
  apply bystander_same. reflexivity.
Qed.

Lemma consume_one_bystander k w rem slot w' : consume_one w rem slot = Ok w' -> bystander k w w'.
Proof.
  intros H. apply consume_one_inv in H as (ev & _ & H). destruct ev as [f|e].
  - destruct (mem_key (fe_maker f) rem); [|subst; apply bystander_same; reflexivity].
    destruct H as (a & a' & m' & h' & x & Ha & E & _ & ->).
    exact (bystander_set k (fe_maker f) (w_set_mkt w m') a a' Ha (or_intror (maker_traded _ _ _ _ _ E))).
  - destruct (mem_key (oe_owner e) rem); [|subst; apply bystander_same; reflexivity].
    destruct H as (a & a' & h' & x & Ha & E & _ & ->).
    exact (bystander_set k (oe_owner e) w a a' Ha (or_intror (cancel_traded _ _ _ _ _ E))).
Qed.

Lemma wstep_bystander k who w db dq w' db' dq' : wstep who w db dq w' db' dq' -> world_sound w -> who <> Some k -> bystander k w w'.
Proof.
  intros H Hs Hk.
  destruct H as [w db dq o oracle taker owner now limit rem w' r Ho Ht Hl Hn H Hw
    |w db dq k1 a oo ex w' l Ha Hoo Hfr H Hw|w db dq rem slot w' H|w db dq k1 a bf qf pen bt qt Ha R1 R2 R3 R4 R5 Hw
    |w db dq bt qt R1 R2|w db dq k1 a referred Ha m' R1 R2 R3 R4 R5 Hw|w db dq R|w db dq k1 owner delegate num Hk1 Hk0 Hw
    |w db dq k1 a d Ha Hw|w db dq].
  - eapply new_order_bystander; [|exact H|congruence]. apply sound_call_of; [exact Hs|exact Ho|]. destruct Ht as [Ht|[Ht _]]; auto.
  - apply book_cancel_inv in H as (b & a1 & a2 & _ & _ & Ha1 & E & ->).
    apply bystander_same. assert (k <> k1) by congruence.
    destruct (oo_side oo); (change (acct_get k (acct_set k1 a2 (w_accts w)) = acct_get k (w_accts w)); rewrite acct_get_set; replace (k =? k1) with false by lia; reflexivity).
  - eapply consume_one_bystander. exact H.
  - assert (k <> k1) by congruence. apply bystander_same.
    match goal with |- acct_get k (w_accts (w_set_acct _ k1 ?v)) = _ => change (acct_get k (acct_set k1 v (w_accts w)) = acct_get k (w_accts w)) end.
    rewrite acct_get_set. replace (k =? k1) with false by lia. reflexivity.
  - apply bystander_same. reflexivity.
  - assert (k <> k1) by congruence. apply bystander_same.
    match goal with |- acct_get k (w_accts (w_set_acct _ k1 ?v)) = _ => change (acct_get k (acct_set k1 v (w_accts w)) = acct_get k (w_accts w)) end.
    rewrite acct_get_set. replace (k =? k1) with false by lia. reflexivity.
  - apply bystander_same. reflexivity.
  - assert (k <> k1) by congruence. apply bystander_same. cbn [w_accts w_set_accts acct_get]. replace (k =? k1) with false by lia. reflexivity.
  - assert (k <> k1) by congruence. apply bystander_same.
    match goal with |- acct_get k (w_accts (w_set_acct _ k1 ?v)) = _ => change (acct_get k (acct_set k1 v (w_accts w)) = acct_get k (w_accts w)) end.
    rewrite acct_get_set. replace (k =? k1) with false by lia. reflexivity.
  - apply bystander_same. reflexivity.
Qed.
Lemma wsteps_bystander k who w db dq w' db' dq' : wsteps who w db dq w' db' dq' -> world_sound w -> who <> Some k -> bystander k w w'.
Proof.
  induction 1 as [w db dq|w db dq w1 db1 dq1 w2 db2 dq2 H1 H2 IH]; intros Hs Hk; [apply bystander_same; reflexivity|].
  eapply bystander_trans; [eapply wstep_bystander; eassumption|]. apply IH; [eapply wstep_sound; eassumption|exact Hk].
Qed.

Lemma acct_get_del k k' l : k' <> k -> acct_get k' (acct_del k l) = acct_get k' l.
Proof.
  intros Hk. induction l as [|[k1 a] r IH]; cbn [acct_del acct_get]; [reflexivity|].
  destruct (k =? k1) eqn:E1; cbn [acct_get]; destruct (k' =? k1) eqn:E3; try lia; try reflexivity; exact IH.
Qed.

(** An instruction leaves an account it does not act for to trade. *)
Lemma exec_bystander e s i s' out k a : reachable s -> exec e s i = Ok (s', out) -> ~ acts_for i k ->
  acct_get k (w_accts (s_w s)) = Some a -> exists a', acct_get k (w_accts (s_w s')) = Some a' /\ only_traded a a'.
Proof.
  intros Hr H Hn Ha. pose proof (reachable_sound s Hr) as Hs. pose proof (exec_steps _ _ _ _ _ Hs H) as Hst.
  destruct i; cbn [acts_for] in Hn;
    try (eapply (wsteps_bystander k); [exact Hst|exact Hs|cbn [actor]; congruence|exact Ha]).
  destruct Hst as (b & Hb & _ & Hw). exists a. rewrite Hw. cbn [w_accts w_set_accts]. rewrite acct_get_del by congruence.
  split; [exact Ha|apply only_traded_refl].
Qed.
