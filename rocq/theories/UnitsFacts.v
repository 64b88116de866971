(** Prices and sizes in user units: rounding is undone by the conversion to lots. *)
From Coq Require Import ZArith Reals Psatz Bool List SpecFloat.
From Flocq Require Import Core Round Relative BinarySingleNaN.
From Verif Require Import Base Nodes OrderTree BookSide Heap Market OpenOrders Order Book Instructions Bytes
  SpecFees SpecOrder SpecSystem SpecTrade SpecDeal DealFacts Oracle SpecOracle FloatFacts OracleFacts Units SpecUnits.
Import ListNotations.
Open Scope R_scope.

Local Instance prec53 : Prec_gt_0 53 := eq_refl _.
Local Instance lt1024 : Prec_lt_emax 53 1024 := eq_refl _.

(** ** The double nearest to a quotient *)
Lemma rnd_below v (n : nat) : (n <= 1000)%nat -> Rabs v < 2 ^ n -> Rabs (rnd v) < huge.
Proof.
  intros Hn H. apply Rle_lt_trans with (2 ^ 1001).
  - destruct (rnd_error v) as (d & h & Hd & Hh & _ & ->).
    eapply Rle_trans; [apply Rabs_triang|]. rewrite Rabs_mult.
    assert (Rabs (1 + d) <= 3 / 2).
    { pose proof u_small. apply Rabs_le. apply Rabs_le_inv in Hd. lra. }
    assert (P : 2 ^ n <= 2 ^ 1000) by (apply Rle_pow; [lra|lia]).
    assert (Rabs v * Rabs (1 + d) <= 2 ^ 1000 * (3 / 2)) by (apply Rmult_le_compat; try apply Rabs_pos; lra).
    assert (Rabs h <= 1 / 2).
    { eapply Rle_trans; [exact Hh|]. change 1075%nat with (S 1074). rewrite <- tech_pow_Rmult, Rinv_mult.
      assert (/ 2 ^ 1074 <= 1); [|lra]. rewrite <- Rinv_1. apply Rinv_le_contravar; [lra|]. apply pow_R1_Rle. lra. }
    assert (1 <= 2 ^ 1000) by (apply pow_R1_Rle; lra).
    change 1001%nat with (S 1000). rewrite <- tech_pow_Rmult. clear Hh. lra.
  - unfold huge. change 1024%Z with (Z.of_nat 1024). rewrite bpow_powerRZ, <- pow_powerRZ.
    change (IZR radix2) with 2. apply Rlt_pow; [lra|lia].
Qed.

Lemma ratio_nearest a b : (0 <= a)%Z -> (0 < b)%Z -> (a < 2 ^ 900)%Z -> nearest (IZR a / IZR b) (f64_ratio a b).
Proof.
  intros Ha Hb Hs. unfold nearest. change (round radix2 (FLT_exp (-1074) 53) ZnearestE) with rnd.
  destruct a as [|a|a]; [| |lia].
  - unfold f64_ratio, Rdiv. rewrite Rmult_0_l. unfold rnd. rewrite round_0 by auto with typeclass_instances.
    repeat split.
  - destruct b as [|b|b]; [lia| |lia].
    pose proof (Bdiv_correct_aux 53 1024 _ _ mode_NE false a 0 false b 0) as H. cbv zeta in H.
    cbn [cond_Zopp xorb] in H.
    assert (F : forall z, F2R (Float radix2 z 0) = IZR z) by (intros z; unfold F2R; cbn [Fnum Fexp bpow]; ring).
    rewrite !F in H. rewrite rnd_fexp in H. change (bpow radix2 1024) with huge in H.
    rewrite Rlt_bool_true in H.
    2:{ apply (rnd_below _ 900); [lia|].
        assert (1 <= IZR (Z.pos b)) by (apply IZR_le; lia).
        assert (A0 : 0 < IZR (Z.pos a)) by (apply IZR_lt; lia).
        assert (A1 : IZR (Z.pos a) < 2 ^ 900).
        { change 900%nat with (Z.to_nat 900). replace (2 ^ Z.to_nat 900) with (IZR (2 ^ 900)).
          - now apply IZR_lt.
          - change 900%Z with (Z.of_nat 900) at 1. apply IZR_pow2. }
        rewrite Rabs_pos_eq.
        - apply Rle_lt_trans with (IZR (Z.pos a)); [|exact A1]. unfold Rdiv.
          rewrite <- (Rmult_1_r (IZR (Z.pos a))) at 2. apply Rmult_le_compat_l; [lra|].
          rewrite <- Rinv_1. apply Rinv_le_contravar; lra.
        - unfold Rdiv. apply Rmult_le_pos; [lra|]. left. apply Rinv_0_lt_compat. lra. }
    unfold f64_ratio.
    destruct (SFdiv_core_binary 53 1024 (Z.pos a) 0 (Z.pos b) 0) as [[mz ez] lz].
    rewrite binary_round_aux_equiv. destruct H as (V & R & Fi & _).
    split; [split; assumption|]. exact R.
Qed.

(** ** Rounding to an integer *)
Lemma fixed_bounds z : double z -> 0 <= real z -> real z < IZR (10 ^ 20) ->
  exists n, js_to_fixed z = Some n /\ (0 <= n)%Z /\ IZR n - / 2 <= real z < IZR n + / 2.
Proof.
  intros [V Fz] P L. destruct z as [s|s| |s m e]; try discriminate.
  - exists 0%Z. cbn [js_to_fixed]. split; [reflexivity|]. split; [lia|]. unfold real, SF2R. lra.
  - assert (S : s = false).
    { destruct s; [|reflexivity]. exfalso.
      pose proof (F2R_lt_0 radix2 (Float radix2 (Z.neg m) e) eq_refl) as N. unfold real, SF2R in P. cbn [cond_Zopp] in P.
      change (- Z.pos m)%Z with (Z.neg m) in P. lra. }
    subst s. unfold real, SF2R, F2R in P, L |- *. cbn [cond_Zopp Fnum Fexp] in *.
    cbn [js_to_fixed]. cbv zeta.
    set (n := (if (0 <=? e)%Z then (Z.pos m * 2 ^ e)%Z else ((2 * Z.pos m + 2 ^ (- e)) / (2 * 2 ^ (- e)))%Z)).
    assert (B : IZR n - / 2 <= IZR (Z.pos m) * bpow radix2 e < IZR n + / 2).
    { unfold n. destruct (Z.leb_spec 0 e) as [G|G].
      - rewrite mult_IZR. change (2 ^ e)%Z with (radix2 ^ e)%Z. rewrite IZR_Zpower by lia. lra.
      - set (k := (2 ^ (- e))%Z). assert (K : (0 < k)%Z) by (apply Z.pow_pos_nonneg; lia).
        replace e with (- - e)%Z at 1 2 by lia. rewrite bpow_opp. rewrite <- IZR_Zpower by lia.
        change (radix2 ^ (- e))%Z with k.
        pose proof (Z_div_mod_eq_full (2 * Z.pos m + k) (2 * k)) as E.
        pose proof (Z.mod_pos_bound (2 * Z.pos m + k) (2 * k) ltac:(lia)) as M.
        set (q := ((2 * Z.pos m + k) / (2 * k))%Z) in *.
        assert (E1 : (2 * (k * q) <= 2 * Z.pos m + k)%Z) by nia.
        assert (E2 : (2 * Z.pos m + k < 2 * (k * q) + 2 * k)%Z) by nia.
        apply IZR_le in E1. apply IZR_lt in E2. repeat (rewrite plus_IZR in E1 || rewrite mult_IZR in E1). repeat (rewrite plus_IZR in E2 || rewrite mult_IZR in E2).
        assert (K' : 0 < IZR k) by (apply IZR_lt; exact K).
        assert (I : IZR (Z.pos m) * / IZR k * IZR k = IZR (Z.pos m)) by (field; lra).
        split.
        + apply Rmult_le_reg_r with (IZR k); [exact K'|]. rewrite I. lra.
        + apply Rmult_lt_reg_r with (IZR k); [exact K'|]. rewrite I. lra. }
    assert (N0 : (0 <= n)%Z).
    { apply Z.lt_pred_le. apply lt_IZR. unfold Z.pred. rewrite plus_IZR.
      assert (0 < IZR (Z.pos m) * bpow radix2 e) by (apply Rmult_lt_0_compat; [apply IZR_lt; lia | apply bpow_gt_0]). lra. }
    assert (N1 : (n < 10 ^ 21)%Z).
    { apply lt_IZR. apply Rlt_trans with (IZR (10 ^ 20) + 1); [lra|]. rewrite <- plus_IZR. apply IZR_lt. reflexivity. }
    exists n. rewrite (proj2 (Z.leb_gt _ _) N1). auto.
Qed.

(** ** Products *)
Lemma close_mul' j k l f g :
  close j f -> close k g -> 0 <= j <= 8 -> 0 <= k <= 8 -> j + k + / 4 <= l -> close l (f * g).
Proof.
  unfold close. pose proof u_small as [U0 U1]. generalize dependent (/ 2 ^ 53). intros u U0 U1 [F0 F1] [G0 G1] J K L.
  assert (0 <= j * u) by nra. assert (0 <= k * u) by nra.
  assert (j * u * (k * u) <= u * / 4).
  { assert (j * u <= 8 * / 1024) by nra. assert (k * u <= 8 * u) by nra. nra. }
  assert (j * u <= / 2) by nra. assert (k * u <= / 2) by nra.
  assert (0 <= f) by lra. assert (0 <= g) by lra.
  assert ((j + k + / 4) * u <= l * u) by nra.
  split.
  - apply Rle_trans with ((1 - j * u) * (1 - k * u)); [nra|].
    apply Rmult_le_compat; lra.
  - apply Rle_trans with ((1 + j * u) * (1 + k * u)); [|nra].
    apply Rmult_le_compat; lra.
Qed.

Lemma big_close k v f : close k f -> 0 <= v <= 2 ^ 50 -> 0 <= k <= 7 / 2 -> Rabs (v * f - v) < / 2.
Proof.
  unfold close. intros [F0 F1] [V0 V1] [K0 K1]. pose proof u_small as [U0 _].
  assert (E : 2 ^ 50 * / 2 ^ 53 = / 8) by field.
  assert (W : v * / 2 ^ 53 <= / 8) by (rewrite <- E; apply Rmult_le_compat_r; lra).
  assert (W0 : 0 <= v * / 2 ^ 53) by (apply Rmult_le_pos; lra).
  assert (A : v * (1 - k * / 2 ^ 53) <= v * f <= v * (1 + k * / 2 ^ 53)) by (split; apply Rmult_le_compat_l; lra).
  assert (B : k * (v * / 2 ^ 53) <= 7 / 2 * / 8) by (apply Rmult_le_compat; lra).
  apply Rabs_def1; nra.
Qed.

(** The product of a double, not tiny, with a whole number below [2^53]. *)
Lemma times_int x z : double x -> 0 <= real x -> (real x = 0 \/ / 2 ^ 950 <= real x) -> real x < 2 ^ 900 -> (1 <= z < 2 ^ 53)%Z ->
  double (f64_mul x (f64_of z)) /\ exists f, close 1 f /\ real (f64_mul x (f64_of z)) = real x * IZR z * f.
Proof.
  intros Dx P T L Hz. destruct (of_int_exact z ltac:(lia)) as [Dz Rz].
  assert (Z1 : 1 <= IZR z) by (apply IZR_le; lia).
  assert (Z2 : IZR z < 2 ^ 53).
  { change 53%nat with (Z.to_nat 53). replace (2 ^ Z.to_nat 53) with (IZR (2 ^ 53)).
    - apply IZR_lt. lia.
    - change 53%Z with (Z.of_nat 53) at 1. apply IZR_pow2. }
  destruct (mul_double x (f64_of z) Dx Dz) as [Dm Rm].
  { rewrite Rz. apply (rnd_below _ 960); [lia|]. rewrite Rabs_pos_eq by (apply Rmult_le_pos; lra).
    apply Rle_lt_trans with (2 ^ 900 * 2 ^ 53).
    - apply Rmult_le_compat; lra.
    - rewrite <- pow_add. apply Rlt_pow; [lra|lia]. }
  split; [exact Dm|]. rewrite Rm, Rz.
  destruct (rnd_rel (real x * IZR z)) as (d & Hd & E).
  { destruct T as [T|T]; [left; rewrite T; ring|right].
    rewrite Rabs_pos_eq by (apply Rmult_le_pos; lra).
    apply Rle_trans with (/ 2 ^ 950).
    - apply Rinv_le_contravar; [apply pow2_pos|]. apply Rle_pow; [lra|lia].
    - rewrite <- (Rmult_1_r (/ 2 ^ 950)). apply Rmult_le_compat; lra. }
  exists (1 + d). split; [apply close_of, Hd | exact E].
Qed.

Lemma ten15 d : (0 <= d <= 15)%Z -> (1 <= 10 ^ d < 2 ^ 53)%Z.
Proof.
  intros H. split.
  - pose proof (Z.pow_pos_nonneg 10 d). lia.
  - apply Z.le_lt_trans with (10 ^ 15)%Z; [apply Z.pow_le_mono_r; lia | reflexivity].
Qed.

Lemma to_native_near y d v f k : double y -> (0 <= d <= 15)%Z -> real y = v / IZR (10 ^ d) * f -> close k f -> 0 <= k <= 9 / 4 ->
  0 <= v <= 2 ^ 50 -> (real y = 0 \/ / 2 ^ 950 <= real y) ->
  exists n, ts_to_native y d = Some n /\ (0 <= n)%Z /\ Rabs (IZR n - v) < 1.
Proof.
  intros Dy Hd E C K [V0 V1] T. pose proof (ten15 d Hd) as H10.
  assert (Z1 : 1 <= IZR (10 ^ d)) by (apply IZR_le; lia).
  assert (F0 : 0 <= f <= 2).
  { unfold close in C. pose proof u_small.
    assert (k * / 2 ^ 53 <= 9 / 4 * / 1024) by (apply Rmult_le_compat; lra). lra. }
  assert (VI : 0 <= v / IZR (10 ^ d) <= v).
  { unfold Rdiv. split; [apply Rmult_le_pos; [lra|]; left; apply Rinv_0_lt_compat; lra|].
    rewrite <- (Rmult_1_r v) at 2. apply Rmult_le_compat_l; [lra|]. rewrite <- Rinv_1. apply Rinv_le_contravar; lra. }
  assert (Y0 : 0 <= real y) by (rewrite E; apply Rmult_le_pos; lra).
  assert (Y1 : real y < 2 ^ 900).
  { rewrite E. apply Rle_lt_trans with (2 ^ 50 * 2); [apply Rmult_le_compat; lra|].
    replace (2 ^ 50 * 2) with (2 ^ 51) by (simpl; ring). apply Rlt_pow; [lra|lia]. }
  destruct (times_int y (10 ^ d) Dy Y0 T Y1 H10) as (Dz & g & Cg & Ez).
  unfold ts_to_native. set (z := f64_mul y (f64_of (10 ^ d))) in *.
  rewrite E in Ez. replace (v / IZR (10 ^ d) * f * IZR (10 ^ d) * g) with (v * (f * g)) in Ez by (field; lra).
  assert (Cfg : close (7 / 2) (f * g)) by (apply (close_mul' k 1); try assumption; lra).
  pose proof (big_close (7 / 2) v (f * g) Cfg (conj V0 V1) ltac:(lra)) as B. rewrite <- Ez in B.
  assert (G0 : 0 <= g) by (unfold close in Cg; pose proof u_small; lra).
  assert (Zp : 0 <= real z) by (rewrite Ez; apply Rmult_le_pos; [lra|]; apply Rmult_le_pos; lra).
  apply Rabs_def2 in B.
  destruct (fixed_bounds z Dz Zp) as (n & En & N0 & Hn).
  { apply Rlt_trans with (2 ^ 51).
    - replace (2 ^ 51) with (2 * 2 ^ 50) by (simpl; ring). assert (1 <= 2 ^ 50) by (apply pow_R1_Rle; lra). lra.
    - change 51%nat with (Z.to_nat 51). replace (2 ^ Z.to_nat 51) with (IZR (2 ^ 51)).
      + apply IZR_lt. reflexivity.
      + change 51%Z with (Z.of_nat 51) at 1. apply IZR_pow2. }
  exists n. split; [exact En|]. split; [exact N0|]. apply Rabs_def1; lra.
Qed.

Lemma same_int n N : Rabs (IZR n - IZR N) < 1 -> n = N.
Proof.
  intros H. rewrite <- minus_IZR, <- abs_IZR in H. apply lt_IZR in H. lia.
Qed.

(** The integer part of a number known up to one. *)
Lemma quot_near n v D : (0 <= n)%Z -> (0 < D)%Z -> Rabs (IZR n - v) < 1 ->
  (0 <= Z.quot n D)%Z /\ IZR (Z.quot n D * D) < v + 1 /\ v < IZR ((Z.quot n D + 1) * D).
Proof.
  intros N0 HD H. apply Rabs_def2 in H. rewrite Z.quot_div_nonneg by lia.
  pose proof (Z_div_mod_eq_full n D) as E. pose proof (Z.mod_pos_bound n D HD) as M.
  split; [apply Z.div_pos; lia|].
  assert (A : (n / D * D <= n)%Z) by nia. assert (B : (n + 1 <= (n / D + 1) * D)%Z) by nia.
  apply IZR_le in A. apply IZR_le in B. rewrite plus_IZR in B. lra.
Qed.

Lemma pow50 z : (z <= 2 ^ 50)%Z -> IZR z <= 2 ^ 50.
Proof.
  intros H. change 50%nat with (Z.to_nat 50). replace (2 ^ Z.to_nat 50) with (IZR (2 ^ 50)).
  - now apply IZR_le.
  - change 50%Z with (Z.of_nat 50) at 1. apply IZR_pow2.
Qed.

Lemma tens d : (0 <= d)%Z -> powerRZ 10 (- d) = / IZR (10 ^ d) /\ 0 < IZR (10 ^ d).
Proof.
  intros H. rewrite ten_neg, ten_int by lia. split; [reflexivity|]. apply IZR_lt. apply Z.pow_pos_nonneg; lia.
Qed.

(** ** Any price and size *)
Lemma base_near x m p : usual x m -> double p -> 0 <= real p -> not_tiny (real p) ->
  real p * IZR (10 ^ mr_base_decimals x) <= 2 ^ 50 ->
  exists n, ts_to_native p (mr_base_decimals x) = Some n /\ (0 <= n)%Z /\ Rabs (IZR n - real p * IZR (10 ^ mr_base_decimals x)) < 1.
Proof.
  intros [Hb Hq HB HQ] Dp P T L. pose proof (ten15 _ Hb) as H10.
  assert (Z1 : 1 <= IZR (10 ^ mr_base_decimals x)) by (apply IZR_le; lia).
  apply (to_native_near p _ _ 1 0 Dp Hb).
  - field. lra.
  - unfold close. lra.
  - lra.
  - split; [apply Rmult_le_pos; lra | exact L].
  - destruct T as [T|T]; [now left|right]. eapply Rle_trans; [|exact T].
    apply Rinv_le_contravar; [apply pow2_pos|]. apply Rle_pow; [lra|lia].
Qed.

Lemma price_near x m p v f k : usual x m -> double p -> 0 <= real p -> not_tiny (real p) -> real p < 2 ^ 900 ->
  real p * IZR (bls m) * IZR (10 ^ mr_quote_decimals x) = v * f -> close k f -> 0 <= k <= 1 -> 0 <= v <= 2 ^ 50 ->
  exists n, ts_to_native (f64_mul p (f64_of (bls m))) (mr_quote_decimals x) = Some n /\ (0 <= n)%Z /\ Rabs (IZR n - v) < 1.
Proof.
  intros [Hb Hq HB HQ] Dp P T L E C K V. pose proof (ten15 _ Hq) as H10.
  assert (Z1 : 1 <= IZR (10 ^ mr_quote_decimals x)) by (apply IZR_le; lia).
  assert (B1 : 1 <= IZR (bls m)) by (apply IZR_le; lia).
  assert (T' : real p = 0 \/ / 2 ^ 950 <= real p).
  { destruct T as [T|T]; [now left|right]. eapply Rle_trans; [|exact T].
    apply Rinv_le_contravar; [apply pow2_pos|]. apply Rle_pow; [lra|lia]. }
  destruct (times_int p (bls m) Dp P T' L HB) as (Dy & g & Cg & Ey).
  set (y := f64_mul p (f64_of (bls m))) in *.
  apply (to_native_near y _ v (f * g) (9 / 4) Dy Hq); try assumption.
  - rewrite Ey. replace (real p * IZR (bls m)) with (v * f / IZR (10 ^ mr_quote_decimals x)) by (rewrite <- E; field; lra).
    field. lra.
  - apply (close_mul' k 1); try assumption; lra.
  - lra.
  - rewrite Ey. destruct T as [T|T]; [left; rewrite T; ring|right].
    apply Rle_trans with (/ 2 ^ 900 * 1 * / 2).
    + rewrite Rmult_1_r, <- Rinv_mult. apply Rinv_le_contravar.
      * apply Rmult_lt_0_compat; [apply pow2_pos|lra].
      * replace (2 ^ 900 * 2) with (2 ^ 901) by (change 901%nat with (S 900); rewrite <- tech_pow_Rmult; ring).
        apply Rle_pow; [lra|lia].
    + assert (/ 2 <= g) by (unfold close in Cg; pose proof u_small; lra).
      assert (0 < / 2 ^ 900) by (apply Rinv_0_lt_compat, pow2_pos).
      apply Rmult_le_compat; try lra. apply Rmult_le_compat; lra.
Qed.

(** ** Prices on ticks and sizes in whole lots *)
Lemma small_power (n : nat) z : (z < 2 ^ Z.of_nat n)%Z -> IZR z < 2 ^ n.
Proof. intros H. rewrite <- IZR_pow2. now apply IZR_lt. Qed.

Lemma nearest_rel v p N D : nearest v p -> v = IZR N / IZR D -> (0 <= N <= 2 ^ 50)%Z -> (1 <= D < 2 ^ 120)%Z ->
  double p /\ 0 <= real p /\ not_tiny (real p) /\ real p < 2 ^ 900 /\ exists f, close 1 f /\ real p * IZR D = IZR N * f.
Proof.
  intros [Dp Ep] -> HN HD. change (round radix2 (FLT_exp (-1074) 53) ZnearestE) with rnd in Ep.
  assert (D1 : 1 <= IZR D) by (apply IZR_le; lia).
  assert (D2 : IZR D < 2 ^ 120) by (apply small_power; lia).
  assert (N0 : 0 <= IZR N) by (apply IZR_le; lia). pose proof (pow50 N ltac:(lia)) as N1.
  assert (I : / 2 ^ 120 <= / IZR D <= 1).
  { split; [apply Rinv_le_contravar; lra|]. rewrite <- Rinv_1. apply Rinv_le_contravar; lra. }
  assert (P120 : 0 < / 2 ^ 120) by (apply Rinv_0_lt_compat, pow2_pos).
  destruct (rnd_rel (IZR N / IZR D)) as (d & Hd & E).
  { destruct (Z.eq_dec N 0) as [->|NZ]; [left; unfold Rdiv; ring|right].
    assert (1 <= IZR N) by (apply IZR_le; lia).
    rewrite Rabs_pos_eq by (unfold Rdiv; apply Rmult_le_pos; lra).
    apply Rle_trans with (1 * / 2 ^ 120); [|unfold Rdiv; apply Rmult_le_compat; lra].
    rewrite Rmult_1_l. apply Rinv_le_contravar; [apply pow2_pos|]. apply Rle_pow; [lra|lia]. }
  assert (C : close 1 (1 + d)) by (apply close_of, Hd).
  rewrite E in Ep. assert (F : / 2 <= 1 + d <= 2) by (unfold close in C; pose proof u_small; lra).
  split; [exact Dp|]. split; [|split; [|split]].
  - rewrite Ep. unfold Rdiv. apply Rmult_le_pos; [apply Rmult_le_pos|]; lra.
  - unfold not_tiny. rewrite Ep. destruct (Z.eq_dec N 0) as [->|NZ]; [left; unfold Rdiv; ring|right].
    assert (1 <= IZR N) by (apply IZR_le; lia).
    apply Rle_trans with (1 * / 2 ^ 120 * / 2).
    + rewrite Rmult_1_l, <- Rinv_mult. apply Rinv_le_contravar.
      * apply Rmult_lt_0_compat; [apply pow2_pos|lra].
      * replace (2 ^ 120 * 2) with (2 ^ 121) by (change 121%nat with (S 120); rewrite <- tech_pow_Rmult; ring).
        apply Rle_pow; [lra|lia].
    + unfold Rdiv. apply Rmult_le_compat; try lra. apply Rmult_le_compat; lra.
  - rewrite Ep. apply Rle_lt_trans with (2 ^ 50 * 1 * 2).
    + unfold Rdiv. apply Rmult_le_compat; try lra; [apply Rmult_le_pos; lra|]. apply Rmult_le_compat; lra.
    + replace (2 ^ 50 * 1 * 2) with (2 ^ 51) by (simpl; ring). apply Rlt_pow; [lra|lia].
  - exists (1 + d). split; [exact C|]. rewrite Ep. field. lra.
Qed.

Lemma price_of_ratio x m k : usual x m ->
  price_of x m k = IZR (k * qls m * 10 ^ mr_base_decimals x) / IZR (bls m * 10 ^ mr_quote_decimals x).
Proof.
  intros [Hb Hq HB HQ]. unfold price_of, tokens.
  destruct (tens _ (proj1 Hb)) as [Eb Pb]. destruct (tens _ (proj1 Hq)) as [Eq Pq]. rewrite Eb, Eq.
  assert (1 <= IZR (bls m)) by (apply IZR_le; lia).
  rewrite !mult_IZR. field. lra.
Qed.

Lemma size_of_ratio x m k : usual x m -> size_of x m k = IZR (k * bls m) / IZR (10 ^ mr_base_decimals x).
Proof.
  intros [Hb Hq HB HQ]. unfold size_of, tokens. destruct (tens _ (proj1 Hb)) as [Eb Pb]. rewrite Eb. reflexivity.
Qed.

Lemma quot_exact k D : (0 < D)%Z -> Z.quot (k * D) D = k.
Proof. intros H. apply Z.quot_mul. lia. Qed.

Lemma decimals_below x m : usual x m -> (2 ^ 53 <=? 10 ^ mr_base_decimals x)%Z = false.
Proof. intros [Hb _ _ _]. apply Z.leb_gt. apply ten15, Hb. Qed.

Theorem price_exact x m k p : usual x m -> (0 <= k)%Z -> (k * qls m * 10 ^ mr_base_decimals x <= 2 ^ 50)%Z ->
  nearest (price_of x m k) p -> ts_price_lots x m p = Some k.
Proof.
  intros U K L Np. pose proof U as [Hb Hq HB HQ].
  pose proof (ten15 _ Hb) as Tb. pose proof (ten15 _ Hq) as Tq.
  assert (HN : (0 <= k * qls m * 10 ^ mr_base_decimals x <= 2 ^ 50)%Z) by (split; [nia|exact L]).
  destruct (nearest_rel _ p _ (bls m * 10 ^ mr_quote_decimals x) Np (price_of_ratio x m k U) HN) as (Dp & P0 & T & P1 & f & C & E).
  { split; [nia|]. apply Z.lt_le_trans with (2 ^ 53 * 2 ^ 53)%Z; [|discriminate]. apply Z.mul_lt_mono_nonneg; lia. }
  rewrite mult_IZR, <- Rmult_assoc in E.
  destruct (price_near x m p _ f 1 U Dp P0 T P1 E C ltac:(lra)) as (n & En & N0 & Hn).
  { split; [apply IZR_le; lia | apply pow50; lia]. }
  apply same_int in Hn. subst n.
  unfold ts_price_lots. rewrite (decimals_below x m U), En. cbn [option_map]. f_equal.
  replace (k * qls m * 10 ^ mr_base_decimals x)%Z with (k * (10 ^ mr_base_decimals x * qls m))%Z by ring.
  apply quot_exact. nia.
Qed.

Theorem size_exact x m k p : usual x m -> (0 <= k)%Z -> (k * bls m <= 2 ^ 50)%Z ->
  nearest (size_of x m k) p -> ts_base_lots x m p = Some k.
Proof.
  intros U K L Np. pose proof U as [Hb Hq HB HQ]. pose proof (ten15 _ Hb) as Tb.
  assert (HN : (0 <= k * bls m <= 2 ^ 50)%Z) by (split; [nia|exact L]).
  destruct (nearest_rel _ p _ (10 ^ mr_base_decimals x) Np (size_of_ratio x m k U) HN ltac:(lia)) as (Dp & P0 & T & P1 & f & C & E).
  assert (Z1 : 1 <= IZR (10 ^ mr_base_decimals x)) by (apply IZR_le; lia).
  destruct (to_native_near p (mr_base_decimals x) (IZR (k * bls m)) f 1 Dp Hb) as (n & En & N0 & Hn).
  - rewrite <- (Rmult_1_r (real p)), <- (Rinv_r (IZR (10 ^ mr_base_decimals x))) by lra. rewrite <- Rmult_assoc, E. unfold Rdiv. ring.
  - exact C.
  - lra.
  - split; [apply IZR_le; lia | apply pow50; lia].
  - destruct T as [T|T]; [now left|right]. eapply Rle_trans; [|exact T].
    apply Rinv_le_contravar; [apply pow2_pos|]. apply Rle_pow; [lra|lia].
  - apply same_int in Hn. subst n. unfold ts_base_lots. rewrite En. cbn [option_map]. f_equal. apply quot_exact. lia.
Qed.

(** Any price: the largest number of ticks below it, up to a [10^bd * qls]-th of a tick. *)
Theorem price_down x m p : usual x m -> double p -> 0 <= real p -> not_tiny (real p) ->
  real p * IZR (bls m) * IZR (10 ^ mr_quote_decimals x) <= 2 ^ 50 ->
  exists k, ts_price_lots x m p = Some k /\ (0 <= k)%Z /\
  price_of x m k < real p + price_of x m 1 / IZR (qls m * 10 ^ mr_base_decimals x) /\ real p < price_of x m (k + 1).
Proof.
  intros U Dp P0 T L. pose proof U as [Hb Hq HB HQ].
  pose proof (ten15 _ Hb) as Tb. pose proof (ten15 _ Hq) as Tq.
  assert (B1 : 1 <= IZR (bls m)) by (apply IZR_le; lia).
  assert (Z1 : 1 <= IZR (10 ^ mr_quote_decimals x)) by (apply IZR_le; lia).
  assert (Z2 : 1 <= IZR (10 ^ mr_base_decimals x)) by (apply IZR_le; lia).
  assert (Q1 : 1 <= IZR (qls m)) by (apply IZR_le; lia).
  set (v := real p * IZR (bls m) * IZR (10 ^ mr_quote_decimals x)) in *.
  assert (V0 : 0 <= v) by (unfold v; apply Rmult_le_pos; [apply Rmult_le_pos|]; lra).
  assert (P1 : real p < 2 ^ 900).
  { apply Rle_lt_trans with (2 ^ 50); [|apply Rlt_pow; [lra|lia]].
    apply Rle_trans with v; [|exact L]. unfold v. rewrite Rmult_assoc.
    rewrite <- (Rmult_1_r (real p)) at 1. apply Rmult_le_compat_l; [lra|].
    rewrite <- (Rmult_1_r 1). apply Rmult_le_compat; lra. }
  destruct (price_near x m p v 1 0 U Dp P0 T P1) as (n & En & N0 & Hn).
  { unfold v. ring. }
  { unfold close. lra. }
  { lra. }
  { split; assumption. }
  unfold ts_price_lots. rewrite (decimals_below x m U), En. cbn [option_map].
  set (D := (10 ^ mr_base_decimals x * qls m)%Z) in *.
  assert (HD : (0 < D)%Z) by (unfold D; nia).
  destruct (quot_near n v D N0 HD Hn) as (R0 & R1 & R2).
  set (r := Z.quot n D) in *. exists r. split; [reflexivity|]. split; [exact R0|].
  rewrite !price_of_ratio by exact U.
  assert (W : real p = v / IZR (bls m * 10 ^ mr_quote_decimals x)) by (unfold v; rewrite mult_IZR; field; lra).
  assert (BT : 0 < IZR (bls m * 10 ^ mr_quote_decimals x)) by (apply IZR_lt; nia).
  assert (QT : 0 < IZR (qls m * 10 ^ mr_base_decimals x)) by (apply IZR_lt; nia).
  rewrite W. split.
  - replace (v / IZR (bls m * 10 ^ mr_quote_decimals x) +
      IZR (1 * qls m * 10 ^ mr_base_decimals x) / IZR (bls m * 10 ^ mr_quote_decimals x) / IZR (qls m * 10 ^ mr_base_decimals x))
      with ((v + 1) / IZR (bls m * 10 ^ mr_quote_decimals x)).
    2:{ rewrite Z.mul_1_l. field. lra. }
    unfold Rdiv. apply Rmult_lt_compat_r; [apply Rinv_0_lt_compat; exact BT|].
    replace (r * qls m * 10 ^ mr_base_decimals x)%Z with (r * D)%Z by (unfold D; ring). exact R1.
  - unfold Rdiv. apply Rmult_lt_compat_r; [apply Rinv_0_lt_compat; exact BT|].
    replace ((r + 1) * qls m * 10 ^ mr_base_decimals x)%Z with ((r + 1) * D)%Z by (unfold D; ring). exact R2.
Qed.

Theorem size_down x m p : usual x m -> double p -> 0 <= real p -> not_tiny (real p) ->
  real p * IZR (10 ^ mr_base_decimals x) <= 2 ^ 50 ->
  exists k, ts_base_lots x m p = Some k /\ (0 <= k)%Z /\
  size_of x m k < real p + tokens 1 (mr_base_decimals x) /\ real p < size_of x m (k + 1).
Proof.
  intros U Dp P0 T L. pose proof U as [Hb Hq HB HQ]. pose proof (ten15 _ Hb) as Tb.
  assert (Z2 : 1 <= IZR (10 ^ mr_base_decimals x)) by (apply IZR_le; lia).
  destruct (base_near x m p U Dp P0 T L) as (n & En & N0 & Hn).
  unfold ts_base_lots. rewrite En. cbn [option_map].
  destruct (quot_near n _ (bls m) N0 ltac:(lia) Hn) as (R0 & R1 & R2).
  set (r := Z.quot n (bls m)) in *. exists r. split; [reflexivity|]. split; [exact R0|].
  rewrite !size_of_ratio by exact U. unfold tokens. destruct (tens _ (proj1 Hb)) as [Eb Pb]. rewrite Eb.
  set (T10 := IZR (10 ^ mr_base_decimals x)) in *.
  split; apply Rmult_lt_reg_r with T10; try exact Pb.
  - unfold Rdiv. rewrite Rmult_plus_distr_r, !Rmult_assoc, Rinv_l by lra. lra.
  - unfold Rdiv. rewrite Rmult_assoc, Rinv_l by lra. lra.
Qed.

(** ** What the client shows *)
Theorem shown_size x m k : usual x m -> (0 <= k)%Z -> (k * bls m <= 2 ^ 50)%Z -> ts_base_lots x m (ts_show_size x m k) = Some k.
Proof.
  intros U K L. pose proof U as [Hb Hq HB HQ]. pose proof (ten15 _ Hb) as Tb.
  apply size_exact; try assumption. rewrite size_of_ratio by exact U. unfold ts_show_size.
  apply ratio_nearest; [nia | lia |]. apply Z.le_lt_trans with (2 ^ 50)%Z; [lia | reflexivity].
Qed.

Lemma tick_exact x m : usual x m -> short_tick x m -> price_of x m 1 = IZR (ts_tick x m) / IZR (10 ^ 20).
Proof.
  intros U [n E]. pose proof U as [Hb Hq HB HQ].
  assert (E' : price_of x m 1 = IZR n / IZR (10 ^ 20)).
  { rewrite E. unfold tokens. destruct (tens 20 ltac:(lia)) as [-> _]. reflexivity. }
  rewrite E'. f_equal. f_equal.
  set (bd := mr_base_decimals x) in *. set (qd := mr_quote_decimals x) in *.
  unfold ts_tick. fold bd qd. cbv zeta.
  set (a := (10 ^ Z.max 0 (bd - qd) * qls m)%Z). set (b := (10 ^ Z.max 0 (qd - bd) * bls m)%Z).
  assert (Pb : (0 < b)%Z) by (unfold b; assert (0 < 10 ^ Z.max 0 (qd - bd))%Z by (apply Z.pow_pos_nonneg; lia); nia).
  assert (X : (qls m * 10 ^ bd * b = a * (bls m * 10 ^ qd))%Z).
  { unfold a, b. destruct (Z_le_gt_dec qd bd) as [G|G].
    - rewrite (Z.max_r 0 (bd - qd)), (Z.max_l 0 (qd - bd)) by lia.
      replace bd with ((bd - qd) + qd)%Z at 1 by lia. rewrite Z.pow_add_r by lia. ring.
    - rewrite (Z.max_l 0 (bd - qd)), (Z.max_r 0 (qd - bd)) by lia.
      replace qd with ((qd - bd) + bd)%Z at 2 by lia. rewrite Z.pow_add_r by lia. ring. }
  assert (Y : (n * b = 10 ^ 20 * a)%Z).
  { rewrite price_of_ratio in E' by exact U. fold bd qd in E'. rewrite Z.mul_1_l in E'.
    assert (T1 : (0 < bls m * 10 ^ qd)%Z) by (assert (0 < 10 ^ qd)%Z by (apply Z.pow_pos_nonneg; lia); nia).
    assert (T1' : 0 < IZR (bls m * 10 ^ qd)) by (apply IZR_lt; exact T1).
    assert (T2 : 0 < IZR (10 ^ 20)) by (apply IZR_lt; reflexivity).
    assert (E2 : (qls m * 10 ^ bd * 10 ^ 20 = n * (bls m * 10 ^ qd))%Z).
    { apply eq_IZR. rewrite (mult_IZR _ (10 ^ 20)), (mult_IZR n).
      apply Rmult_eq_reg_r with (/ IZR (bls m * 10 ^ qd) * / IZR (10 ^ 20)).
      2:{ apply Rmult_integral_contrapositive_currified; apply Rinv_neq_0_compat; lra. }
      transitivity (IZR (qls m * 10 ^ bd) / IZR (bls m * 10 ^ qd)); [field; lra|]. rewrite E'. field. lra. }
    nia. }
  replace (2 * 10 ^ 20 * a + b)%Z with (n * (2 * b) + b)%Z by lia.
  rewrite Z.div_add_l by lia. rewrite Z.div_small by lia. lia.
Qed.

Theorem shown_price x m k : usual x m -> short_tick x m -> (0 <= k)%Z -> (k * qls m * 10 ^ mr_base_decimals x <= 2 ^ 50)%Z ->
  (qls m < 2 ^ 64)%Z -> ts_price_lots x m (ts_show_price x m k) = Some k.
Proof.
  intros U S K L Q. pose proof U as [Hb Hq HB HQ]. pose proof (ten15 _ Hb) as Tb. pose proof (ten15 _ Hq) as Tq.
  apply price_exact; try assumption.
  assert (E : price_of x m k = IZR (k * ts_tick x m) / IZR (10 ^ 20)).
  { transitivity (IZR k * price_of x m 1).
    - rewrite !price_of_ratio by exact U. rewrite !mult_IZR. unfold Rdiv. ring.
    - rewrite (tick_exact x m U S), mult_IZR. unfold Rdiv. ring. }
  rewrite E. unfold ts_show_price.
  assert (T0 : (0 <= ts_tick x m < 2 ^ 300)%Z).
  { unfold ts_tick. cbv zeta.
    set (a := (10 ^ Z.max 0 (mr_base_decimals x - mr_quote_decimals x) * qls m)%Z).
    set (b := (10 ^ Z.max 0 (mr_quote_decimals x - mr_base_decimals x) * bls m)%Z).
    assert (Pa : (0 < 10 ^ Z.max 0 (mr_base_decimals x - mr_quote_decimals x) < 2 ^ 53)%Z).
    { pose proof (ten15 (Z.max 0 (mr_base_decimals x - mr_quote_decimals x)) ltac:(lia)). lia. }
    assert (Pb : (0 < b)%Z) by (unfold b; assert (0 < 10 ^ Z.max 0 (mr_quote_decimals x - mr_base_decimals x))%Z by (apply Z.pow_pos_nonneg; lia); nia).
    assert (A : (0 <= a < 2 ^ 117)%Z).
    { unfold a. split; [nia|]. change (2 ^ 117)%Z with (2 ^ 53 * 2 ^ 64)%Z. apply Z.mul_lt_mono_nonneg; lia. }
    split; [apply Z.div_pos; lia|]. apply Z.div_lt_upper_bound; [lia|].
    assert (2 * 10 ^ 20 * a + b < 2 ^ 300 * 1 + b)%Z by lia. nia. }
  apply ratio_nearest.
  - nia.
  - reflexivity.
  - assert (K1 : (k <= 2 ^ 50)%Z) by nia.
    apply Z.le_lt_trans with (2 ^ 50 * 2 ^ 300)%Z; [|reflexivity]. apply Z.mul_le_mono_nonneg; lia.
Qed.

(** ** Orders *)
Lemma sent x m now o k n : usual x m -> (0 <= k)%Z -> (k * qls m * 10 ^ mr_base_decimals x <= 2 ^ 50)%Z ->
  (0 <= n)%Z -> (n * bls m <= 2 ^ 50)%Z -> nearest (price_of x m k) (op_price o) -> nearest (size_of x m n) (op_size o) ->
  exists g, ts_place_args x m now o = Some g /\ pa_side g = op_side o /\ pa_price g = k /\ pa_max_base g = n /\
  (op_quote_limit o = None -> pa_max_quote g = i64_max) /\ (forall q, op_quote_limit o = Some q -> q <> 0%Z -> pa_max_quote g = q) /\
  (forall c, op_client_id o = Some c -> c <> 0%Z -> pa_client_id g = c) /\ pa_type g = match op_type o with Some t => t | None => POLimit end /\
  pa_expiry g = match op_expiry o with Some t => t | None => 0%Z end /\
  pa_self_trade g = match op_self_trade o with Some t => t | None => DecrementTake end /\
  pa_limit g = match op_limit o with Some t => t | None => 16%Z end.
Proof.
  intros U K LK N LN Hp Hs. unfold ts_place_args.
  rewrite (price_exact x m k _ U K LK Hp), (size_exact x m n _ U N LN Hs).
  eexists. split; [reflexivity|]. cbn [pa_side pa_price pa_max_base pa_max_quote pa_client_id pa_type pa_expiry pa_self_trade pa_limit].
  unfold or_truthy, or_else. repeat split.
  - intros ->. reflexivity.
  - intros q -> Q. now rewrite (proj2 (Z.eqb_neq q 0) Q).
  - intros c -> C. now rewrite (proj2 (Z.eqb_neq c 0) C).
Qed.

Lemma worth x m n k : usual x m -> tokens (n * k * qls m) (mr_quote_decimals x) = size_of x m n * price_of x m k.
Proof.
  intros [Hb Hq HB HQ]. unfold size_of, price_of, tokens.
  destruct (tens _ (proj1 Hb)) as [Eb Pb]. destruct (tens _ (proj1 Hq)) as [Eq Pq]. rewrite Eb, Eq.
  assert (1 <= IZR (bls m)) by (apply IZR_le; lia). rewrite !mult_IZR. field. lra.
Qed.

Lemma tokens_le a b d : (a <= b)%Z -> tokens a d <= tokens b d.
Proof. intros H. unfold tokens. apply Rmult_le_compat_r; [left; apply ten_pos | now apply IZR_le]. Qed.
Lemma tokens_add a b d : tokens (a + b) d = tokens a d + tokens b d.
Proof. unfold tokens. rewrite plus_IZR. ring. Qed.
Lemma tokens_sub a b d : tokens (a - b) d = tokens a d - tokens b d.
Proof. unfold tokens. rewrite minus_IZR. ring. Qed.

Lemma order_deal e s x now c o g k s' out : usual x (w_mkt (s_w s)) -> reachable s ->
  (0 <= k)%Z -> (k * qls (w_mkt (s_w s)) * 10 ^ mr_base_decimals x <= 2 ^ 50)%Z -> nearest (price_of x (w_mkt (s_w s)) k) (op_price o) ->
  ts_place_args x (w_mkt (s_w s)) now o = Some g -> op_type o = Some POImmediateOrCancel \/ op_type o = Some POFillOrKill ->
  exec e s (IPlaceOrder c g) = Ok (s', out) -> stranger (s_w s) (invert_side (op_side o)) (Some (px_acct c)) ->
  exists n, (0 <= n)%Z /\
  match op_side o with
  | Bid => purse_base s' c Bid = (purse_base s c Bid + n * bls (w_mkt (s_w s)))%Z /\
      tokens (purse_quote s c Bid - purse_quote s' c Bid) (mr_quote_decimals x)
        <= size_of x (w_mkt (s_w s)) n * price_of x (w_mkt (s_w s)) k + tokens (taker_pays (w_mkt (s_w s)) (n * k * qls (w_mkt (s_w s)))) (mr_quote_decimals x)
  | Ask => purse_base s' c Ask = (purse_base s c Ask - n * bls (w_mkt (s_w s)))%Z /\
      size_of x (w_mkt (s_w s)) n * price_of x (w_mkt (s_w s)) k - tokens (taker_pays (w_mkt (s_w s)) (n * k * qls (w_mkt (s_w s)))) (mr_quote_decimals x)
        <= tokens (purse_quote s' c Ask - purse_quote s c Ask) (mr_quote_decimals x)
  end.
Proof.
  set (m := w_mkt (s_w s)). intros U R K L Hp A T X S.
  unfold ts_place_args in A. fold m in A. rewrite (price_exact x m k _ U K L Hp) in A.
  destruct (ts_base_lots x m (op_size o)) as [n0|]; [|discriminate].
  assert (G : pa_side g = op_side o /\ pa_price g = k /\ takes_only (pa_type g) = true /\ pa_type g <> POMarket).
  { injection A as <-. cbn [pa_side pa_price pa_type]. unfold or_else. destruct T as [-> | ->]; repeat split; discriminate. }
  destruct G as (G1 & G2 & G3 & G4). rewrite <- G1 in S.
  destruct (through_deal e s c g s' out R X G3 S) as (n & Hn & D). fold m in D.
  exists n. split; [lia|]. rewrite G1, G2 in D. destruct (op_side o).
  - destruct D as (D1 & _ & D3). split; [exact D1|]. rewrite <- worth by exact U. rewrite <- tokens_add.
    apply tokens_le. exact (D3 G4).
  - destruct D as (D1 & _ & D3). split; [exact D1|]. rewrite <- worth by exact U. rewrite <- tokens_sub.
    apply tokens_le. exact (D3 G4).
Qed.
