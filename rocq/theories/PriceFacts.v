(** The price taken from oracles is close to the exact one, and its conversion to lots. *)
From Coq Require Import ZArith Reals Psatz Bool List SpecFloat.
From Flocq Require Import Core Round Relative BinarySingleNaN.
From Verif Require Import Base Nodes OrderTree BookSide Heap Market OpenOrders Order Book Instructions
  Oracle SpecOracle FloatFacts OracleFacts.
Open Scope R_scope.

(** ** Conversion of a double to [I80F48] *)

Lemma round_shift_pos m k : (0 < k)%Z -> (Z.abs (2 * (round_shift m k * 2 ^ k) - 2 * m) <= 2 ^ k)%Z.
Proof.
  intros K. unfold round_shift. destruct (Z.leb_spec k 0) as [L|_]; [lia|].
  assert (P : (0 < 2 ^ k)%Z) by (apply Z.pow_pos_nonneg; lia).
  assert (H2 : (2 ^ k = 2 * 2 ^ (k - 1))%Z) by (rewrite <- Z.pow_succ_r by lia; f_equal; lia).
  pose proof (Z_div_mod_eq_full m (2 ^ k)) as E.
  pose proof (Z.mod_pos_bound m (2 ^ k) P) as B.
  cbv zeta. set (q := (m / 2 ^ k)%Z) in *. set (r := (m mod 2 ^ k)%Z) in *.
  destruct (Z.ltb_spec r (2 ^ (k - 1))); [nia|].
  destruct (Z.ltb_spec (2 ^ (k - 1)) r); [nia|].
  destruct (Z.even q); nia.
Qed.

Lemma round_shift_real m k : Rabs (IZR (round_shift m k) - IZR m * bpow radix2 (- k)) <= / 2.
Proof.
  destruct (Z_lt_le_dec 0 k) as [K|K].
  - pose proof (round_shift_pos m k K) as H. apply IZR_le in H. rewrite abs_IZR, minus_IZR, !mult_IZR in H.
    assert (E : IZR (2 ^ k) = bpow radix2 k) by (rewrite <- IZR_Zpower by lia; reflexivity).
    rewrite E in H. pose proof (bpow_gt_0 radix2 k) as P. rewrite bpow_opp.
    apply Rmult_le_reg_r with (2 * bpow radix2 k); [lra|].
    rewrite <- (Rabs_pos_eq (2 * bpow radix2 k)) at 1 by lra. rewrite <- Rabs_mult.
    replace ((IZR (round_shift m k) - IZR m * / bpow radix2 k) * (2 * bpow radix2 k))
      with (2 * (IZR (round_shift m k) * bpow radix2 k) - 2 * IZR m) by (field; lra).
    lra.
  - unfold round_shift. destruct (Z.leb_spec k 0) as [_|L]; [|lia].
    rewrite mult_IZR. change (2 ^ - k)%Z with (radix2 ^ - k)%Z. rewrite IZR_Zpower by lia.
    rewrite Rminus_diag_eq by reflexivity. rewrite Rabs_R0. lra.
Qed.

Lemma i80f48_real x p : i80f48_of_f64 x = Some p -> Rabs (IZR p / 2 ^ 48 - real x) <= / 2 ^ 49.
Proof.
  assert (P0 : 0 <= / 2 ^ 49) by (left; apply Rinv_0_lt_compat, pow2_pos).
  destruct x as [s|s| |s m e]; cbn [i80f48_of_f64]; try discriminate.
  - intros H. injection H as <-. unfold real, SF2R, Rdiv. rewrite Rmult_0_l, Rminus_0_r, Rabs_R0. exact P0.
  - cbv zeta. set (v := round_shift (Z.pos m) (- (e + 48))).
    destruct (in_i128 _); [|discriminate]. intros H. injection H as <-.
    pose proof (round_shift_real (Z.pos m) (- (e + 48))) as B. fold v in B.
    rewrite Z.opp_involutive in B. rewrite bpow_plus in B.
    assert (E48 : bpow radix2 48 = 2 ^ 48).
    { change 48%Z with (Z.of_nat 48). rewrite bpow_powerRZ, <- pow_powerRZ. reflexivity. }
    rewrite E48 in B.
    assert (E : real (S754_finite s m e) = (if s then -1 else 1) * (IZR (Z.pos m) * bpow radix2 e)).
    { unfold real, SF2R, F2R. cbn [Fnum Fexp]. destruct s; cbn [cond_Zopp]; [|ring].
      change (Z.neg m) with (- Z.pos m)%Z. rewrite opp_IZR. ring. }
    rewrite E.
    assert (E' : IZR (if s then (- v)%Z else v) = (if s then -1 else 1) * IZR v).
    { destruct s; [rewrite opp_IZR|]; ring. }
    rewrite E'.
    replace ((if s then -1 else 1) * IZR v / 2 ^ 48 - (if s then -1 else 1) * (IZR (Z.pos m) * bpow radix2 e))
      with ((if s then -1 else 1) * ((IZR v - IZR (Z.pos m) * (bpow radix2 e * 2 ^ 48)) * / 2 ^ 48))
      by (field; apply pow_nonzero; lra).
    rewrite Rabs_mult.
    replace (Rabs (if s then -1 else 1)) with 1 by (destruct s; [rewrite Rabs_left|rewrite Rabs_pos_eq]; lra).
    rewrite Rmult_1_l, Rabs_mult, (Rabs_pos_eq (/ 2 ^ 48)) by (left; apply Rinv_0_lt_compat, pow2_pos).
    replace (/ 2 ^ 49) with (/ 2 * / 2 ^ 48) by (change (2 ^ 49) with (2 * 2 ^ 48); rewrite Rinv_mult; ring).
    apply Rmult_le_compat_r; [left; apply Rinv_0_lt_compat, pow2_pos | exact B].
Qed.

Lemma i80f48_finite x p : i80f48_of_f64 x = Some p -> is_finite_SF x = true.
Proof. destruct x; cbn; intros; try discriminate; reflexivity. Qed.

(** ** The decimal adjustment *)

Lemma as_i8_small d : (0 <= d <= 127)%Z -> as_i8 d = d.
Proof. intros H. unfold as_i8. rewrite Z.mod_small by lia. lia. Qed.

Lemma decimal_adjustment_pow c adj :
  (0 <= oc_base_decimals c <= 127)%Z -> (0 <= oc_quote_decimals c <= 127)%Z ->
  decimal_adjustment c = Ok adj ->
  power_of_ten_float (oc_quote_decimals c - oc_base_decimals c) = Ok adj.
Proof.
  intros B Q. unfold decimal_adjustment. rewrite !as_i8_small by assumption.
  unfold chk_i8, chk. destruct (in_range _ _ _); cbn [bind]; [auto|discriminate].
Qed.

(** ** Accuracy *)

(** The product with a power of ten, when it can be converted. *)
Lemma scaled_price x d adj p :
  double x -> power_of_ten_float d = Ok adj -> i80f48_of_f64 (f64_mul x adj) = Some p ->
  Rabs (IZR p / 2 ^ 48 - real x * powerRZ 10 d) <= Rabs (real x * powerRZ 10 d) * (3 * / 2 ^ 53) + / 2 ^ 1075 + / 2 ^ 49.
Proof.
  intros Dx T H. destruct (pow_ten_real d adj T) as (Hd & Da & f & Cf & Ra).
  destruct (Rlt_or_le (Rabs (rnd (real x * real adj))) huge) as [S|S].
  2:{ rewrite (mul_overflow x adj Dx Da S) in H. discriminate. }
  destruct (mul_double x adj Dx Da S) as [Dm Rm].
  pose proof (i80f48_real _ _ H) as B. rewrite Rm in B.
  destruct (rnd_error (real x * real adj)) as (e & h & He & Hh & _ & E). rewrite E, Ra in B.
  set (t := powerRZ 10 d) in *. set (X := real x) in *.
  replace (X * (t * f) * (1 + e) + h) with (X * t * (f * (1 + e)) + h) in B by ring.
  pose proof (close_mul 1 1 3 f (1 + e) Cf (close_of e He) ltac:(lra) ltac:(lra) ltac:(lra)) as C2.
  unfold close in C2.
  assert (Bf : Rabs (f * (1 + e) - 1) <= 3 * / 2 ^ 53) by (apply Rabs_le; lra).
  replace (IZR p / 2 ^ 48 - X * t)
    with ((IZR p / 2 ^ 48 - (X * t * (f * (1 + e)) + h)) + X * t * (f * (1 + e) - 1) + h) by ring.
  eapply Rle_trans; [apply Rabs_triang|].
  eapply Rle_trans; [apply Rplus_le_compat_r, Rabs_triang|].
  rewrite (Rabs_mult (X * t)).
  assert (Rabs (X * t) * Rabs (f * (1 + e) - 1) <= Rabs (X * t) * (3 * / 2 ^ 53))
    by (apply Rmult_le_compat_l; [apply Rabs_pos | exact Bf]).
  lra.
Qed.

Lemma tiny1075 : 0 < / 2 ^ 1075 <= / 2 ^ 60.
Proof.
  split; [apply Rinv_0_lt_compat, pow2_pos|].
  apply Rinv_le_contravar; [apply pow2_pos|]. apply Rle_pow; [lra|lia].
Qed.

Lemma single_accuracy x d adj p :
  double x -> power_of_ten_float d = Ok adj -> i80f48_of_f64 (f64_mul x adj) = Some p ->
  Rabs (IZR p / 2 ^ 48 - real x * powerRZ 10 d) <= Rabs (real x * powerRZ 10 d) / 2 ^ 50 + / 2 ^ 48.
Proof.
  intros Dx T H. eapply Rle_trans; [exact (scaled_price x d adj p Dx T H)|].
  pose proof tiny1075 as Ty. pose proof (Rabs_pos (real x * powerRZ 10 d)) as P.
  remember (/ 2 ^ 1075) as eta eqn:Ee. clear Ee.
  assert (/ 2 ^ 60 <= / 2 ^ 49) by (apply Rinv_le_contravar; [apply pow2_pos|]; apply Rle_pow; [lra|lia]).
  assert (E48 : / 2 ^ 48 = 2 * / 2 ^ 49) by field.
  assert (E50 : / 2 ^ 50 = 8 * / 2 ^ 53) by field.
  unfold Rdiv. rewrite E48, E50. pose proof u_small. 
  assert (Rabs (real x * powerRZ 10 d) * (3 * / 2 ^ 53) <= Rabs (real x * powerRZ 10 d) * (8 * / 2 ^ 53))
    by (apply Rmult_le_compat_l; lra).
  lra.
Qed.

Lemma pow_ten_nonzero d adj : power_of_ten_float d = Ok adj -> real adj <> 0.
Proof.
  intros T. destruct (pow_ten_real d adj T) as (_ & _ & f & Cf & Ra). rewrite Ra.
  pose proof (ten_pos d). pose proof u_small. unfold close in Cf.
  apply Rmult_integral_contrapositive_currified; lra.
Qed.

(** A quotient that can be converted is a double, and the divisor is not zero. *)
Lemma quotient_finite x y d adj p :
  double x -> double y -> power_of_ten_float d = Ok adj ->
  i80f48_of_f64 (f64_mul (f64_div x y) adj) = Some p ->
  real y <> 0 /\ double (f64_div x y) /\ real (f64_div x y) = rnd (real x / real y).
Proof.
  intros Dx Dy T H. pose proof (pow_ten_nonzero d adj T) as Na.
  destruct (pow_ten_real d adj T) as (_ & [_ Fa] & _).
  assert (NI : forall s, f64_div x y <> S754_infinity s).
  { intros s E. rewrite E in H. destruct adj as [sa| | |sa ma ea]; try discriminate. }
  assert (NN : f64_div x y <> S754_nan).
  { intros E. rewrite E in H. destruct adj as [sa| | |sa ma ea]; try discriminate. }
  assert (Ny : real y <> 0).
  { intros E. destruct Dy as [Vy Fy]. destruct y as [sy| | |sy my ey]; try discriminate.
    - destruct Dx as [_ Fx]. destruct x as [sx| | |sx mx ex]; try discriminate.
      eapply NI. reflexivity.
    - unfold real, SF2R in E. revert E. destruct sy; cbn [cond_Zopp]; intros E.
      + apply (Rlt_not_eq _ _ (F2R_lt_0 radix2 (Float radix2 (Z.neg my) ey) eq_refl)). exact E.
      + apply (Rgt_not_eq _ _ (F2R_gt_0 radix2 (Float radix2 (Z.pos my) ey) eq_refl)). exact E. }
  split; [exact Ny|].
  destruct (div_cases x y Dx Dy Ny) as [G|[s E]]; [exact G|]. exfalso. exact (NI s E).
Qed.

Lemma pair_accuracy x y d adj p :
  double x -> double y -> power_of_ten_float d = Ok adj ->
  i80f48_of_f64 (f64_mul (f64_div x y) adj) = Some p ->
  Rabs (IZR p / 2 ^ 48 - real x / real y * powerRZ 10 d)
  <= Rabs (real x / real y * powerRZ 10 d) / 2 ^ 50 + / 2 ^ 48.
Proof.
  intros Dx Dy T H. destruct (quotient_finite x y d adj p Dx Dy T H) as (Ny & Dq & Rq).
  pose proof (scaled_price _ d adj p Dq T H) as B. rewrite Rq in B.
  destruct (rnd_error (real x / real y)) as (e & h & He & Hh & _ & E). rewrite E in B.
  destruct (pow_ten_real d adj T) as (Hd & _ & _).
  pose proof (ten_range d Hd) as TR. pose proof (ten_pos d) as TP.
  assert (P12 : IZR (10 ^ 12) <= 2 ^ 40).
  { replace (2 ^ 40) with (IZR (2 ^ 40)) by (change 40%Z with (Z.of_nat 40); apply IZR_pow2). apply IZR_le. discriminate. }
  set (t := powerRZ 10 d) in *. set (Q := real x / real y) in *.
  assert (Ht : Rabs (h * t) <= / 2 ^ 60).
  { rewrite Rabs_mult, (Rabs_pos_eq t) by lra. apply Rle_trans with (/ 2 ^ 1075 * 2 ^ 40).
    - apply Rmult_le_compat; try apply Rabs_pos; lra.
    - change 1075%nat with (40 + 1035)%nat. rewrite pow_add, Rinv_mult.
      replace (/ 2 ^ 40 * / 2 ^ 1035 * 2 ^ 40) with (/ 2 ^ 1035) by (field; split; apply pow_nonzero; lra).
      apply Rinv_le_contravar; [apply pow2_pos|]. apply Rle_pow; [lra|lia]. }
  pose proof tiny1075 as Ty. clear Hh. remember (/ 2 ^ 1075) as eta eqn:Ee. clear Ee.
  replace ((Q * (1 + e) + h) * t) with (Q * t * (1 + e) + h * t) in B by ring.
  set (g := h * t) in *. set (Y := Q * t) in *.
  pose proof u_small as U.
  assert (E60 : / 2 ^ 60 <= / 2 ^ 49 * / 1024).
  { replace 1024 with (2 ^ 10) by ring. rewrite <- Rinv_mult, <- pow_add.
    apply Rinv_le_contravar; [apply pow2_pos|]. apply Rle_pow; [lra|lia]. }
  assert (E48 : / 2 ^ 48 = 2 * / 2 ^ 49) by field.
  assert (E50 : / 2 ^ 50 = 8 * / 2 ^ 53) by field.
  assert (P49 : 0 < / 2 ^ 49) by (apply Rinv_0_lt_compat, pow2_pos).
  change (Rabs Y / 2 ^ 50) with (Rabs Y * / 2 ^ 50). rewrite E48, E50.
  assert (A1 : Rabs (Y * (1 + e) + g) <= Rabs Y * (1 + / 2 ^ 53) + / 2 ^ 60).
  { eapply Rle_trans; [apply Rabs_triang|]. rewrite Rabs_mult.
    assert (Rabs (1 + e) <= 1 + / 2 ^ 53) by (apply Rabs_le; apply Rabs_le_inv in He; lra).
    assert (Rabs Y * Rabs (1 + e) <= Rabs Y * (1 + / 2 ^ 53)) by (apply Rmult_le_compat_l; [apply Rabs_pos | assumption]).
    lra. }
  replace (IZR p / 2 ^ 48 - Y) with ((IZR p / 2 ^ 48 - (Y * (1 + e) + g)) + (Y * e + g)) by ring.
  eapply Rle_trans; [apply Rabs_triang|].
  assert (A2 : Rabs (Y * e + g) <= Rabs Y * / 2 ^ 53 + / 2 ^ 60).
  { eapply Rle_trans; [apply Rabs_triang|]. rewrite Rabs_mult.
    assert (Rabs Y * Rabs e <= Rabs Y * / 2 ^ 53) by (apply Rmult_le_compat_l; [apply Rabs_pos | assumption]). lra. }
  pose proof (Rabs_pos Y) as PY.
  remember (/ 2 ^ 53) as u eqn:Eu. remember (/ 2 ^ 60) as z eqn:Ez. remember (/ 2 ^ 49) as w eqn:Ew.
  clear Eu Ez Ew E48 E50.
  assert (Rabs (Y * (1 + e) + g) * (3 * u) <= Rabs Y * (4 * u) + z).
  { apply Rle_trans with ((Rabs Y * (1 + u) + z) * (3 * u)); [apply Rmult_le_compat_r; lra|].
    assert (Z0 : 0 <= z) by (eapply Rle_trans; [apply (Rabs_pos g) | exact Ht]).
    assert (Rabs Y * u * u <= Rabs Y * u * / 1024) by (apply Rmult_le_compat_l; [apply Rmult_le_pos|]; lra).
    assert (0 <= Rabs Y * u) by (apply Rmult_le_pos; lra).
    assert (z * u <= z * / 1024) by (apply Rmult_le_compat_l; lra). lra. }
  assert (0 <= Rabs Y * u) by (apply Rmult_le_pos; lra).
  lra.
Qed.

(** ** Lots *)
Open Scope Z_scope.

Lemma lots_exact m p :
  0 <= p -> 1 <= bls m -> 1 <= qls m ->
  native_price_to_lot m p =
  if (p * bls m <? 2 ^ 127) && (exact_lots m p <=? i64_max) then Ok (exact_lots m p) else Err InvalidOraclePrice.
Proof.
  intros Hp Hb Hq. unfold native_price_to_lot, i80f48_checked_mul, exact_lots.
  rewrite Z.mul_assoc, Z.shiftr_div_pow2, Z.div_mul by lia.
  unfold checked_i128 at 1.
  assert (I : in_i128 (p * bls m) = (p * bls m <? 2 ^ 127)).
  { unfold in_i128, in_range.
    assert (0 <= p * bls m) by nia.
    change i128_max with (2 ^ 127 - 1). change i128_min with (- 2 ^ 127).
    destruct (Z.ltb_spec (p * bls m) (2 ^ 127)); apply andb_true_iff || apply andb_false_iff.
    - split; apply Z.leb_le; lia.
    - right. apply Z.leb_gt. lia. }
  rewrite I. destruct (Z.ltb_spec (p * bls m) (2 ^ 127)) as [L|L]; cbn [andb]; [|reflexivity].
  unfold i80f48_checked_div.
  destruct (Z.eqb_spec (qls m * 2 ^ 48) 0) as [Z0|_]; [lia|].
  rewrite Z.quot_mul_cancel_r by lia. rewrite Z.quot_div_nonneg by nia.
  assert (D0 : 0 <= p * bls m / qls m) by (apply Z.div_pos; nia).
  assert (D1 : p * bls m / qls m <= p * bls m) by (apply Z.div_le_upper_bound; nia).
  unfold checked_i128.
  replace (in_i128 (p * bls m / qls m)) with true.
  2:{ symmetry. unfold in_i128, in_range. change i128_max with (2 ^ 127 - 1). change i128_min with (- 2 ^ 127).
      apply andb_true_iff. split; apply Z.leb_le; lia. }
  unfold i80f48_to_i64. rewrite Z.shiftr_div_pow2 by lia. rewrite Z.div_div by lia.
  set (v := p * bls m / (qls m * 2 ^ 48)).
  assert (V0 : 0 <= v) by (apply Z.div_pos; nia).
  unfold in_i64, in_range.
  replace (i64_min <=? v) with true by (symmetry; apply Z.leb_le; assert (i64_min < 0) by reflexivity; lia).
  cbn [andb]. destruct (v <=? i64_max); reflexivity.
Qed.

Lemma lots_no_panic m p : (exists v, native_price_to_lot m p = Ok v) \/ native_price_to_lot m p = Err InvalidOraclePrice.
Proof.
  unfold native_price_to_lot.
  destruct (i80f48_checked_mul _ _); [|now right]. destruct (i80f48_checked_div _ _); [|now right].
  destruct (i80f48_to_i64 _); [left; eexists; reflexivity|now right].
Qed.

(** A price in lots, converted to native units and back, loses at most one lot. *)
Lemma lots_roundtrip m l :
  0 <= l < 2 ^ 63 -> 1 <= bls m -> 1 <= qls m -> l * qls m < 2 ^ 79 -> bls m <= qls m * 2 ^ 48 ->
  exists p, lot_to_native_price m l = Ok p /\
  (native_price_to_lot m p = Ok l \/ native_price_to_lot m p = Ok (l - 1)).
Proof.
  intros Hl Hb Hq Hs Hbq. unfold lot_to_native_price.
  replace (l * 2 ^ 48 * (qls m * 2 ^ 48)) with (l * qls m * 2 ^ 48 * 2 ^ 48) by ring.
  rewrite Z.shiftr_div_pow2, Z.div_mul by lia.
  assert (W : forall z, 0 <= z < 2 ^ 127 -> as_i128 z = z).
  { intros z Hz. unfold as_i128. rewrite Z.mod_small; lia. }
  assert (H0 : 0 <= l * qls m * 2 ^ 48 < 2 ^ 127).
  { split; [nia|]. change (2 ^ 127) with (2 ^ 79 * 2 ^ 48). apply Z.mul_lt_mono_pos_r; lia. }
  rewrite (W _ H0).
  destruct (Z.eqb_spec (bls m) 0) as [B0|_]; [lia|]. cbn [negb massert bind].
  rewrite Z.quot_mul_cancel_r, Z.quot_div_nonneg by lia.
  set (x := l * qls m * 2 ^ 48) in *.
  assert (X0 : 0 <= x / bls m) by (apply Z.div_pos; lia).
  assert (X1 : x / bls m <= x) by (apply Z.div_le_upper_bound; nia).
  rewrite W by lia. exists (x / bls m). split; [reflexivity|].
  rewrite lots_exact by lia.
  pose proof (Z_div_mod_eq_full x (bls m)) as E. pose proof (Z.mod_pos_bound x (bls m) ltac:(lia)) as Bm.
  assert (Y : x / bls m * bls m <= x) by lia.
  destruct (Z.ltb_spec (x / bls m * bls m) (2 ^ 127)) as [_|L]; [|lia]. cbn [andb].
  unfold exact_lots.
  assert (Q : x / bls m * bls m / (qls m * 2 ^ 48) = l \/ x / bls m * bls m / (qls m * 2 ^ 48) = l - 1).
  { assert (U : x / bls m * bls m / (qls m * 2 ^ 48) <= l).
    { apply Z.div_le_upper_bound; [lia|]. unfold x in *. nia. }
    assert (Lo : l - 1 <= x / bls m * bls m / (qls m * 2 ^ 48)).
    { apply Z.div_le_lower_bound; [lia|]. unfold x in *. nia. }
    lia. }
  destruct Q as [-> | ->];
    (rewrite (proj2 (Z.leb_le _ _)); [auto | change i64_max with (2 ^ 63 - 1); lia]).
Qed.
