(** The doubles of the standard library against the real numbers, through Flocq: every
    operation is the exact result rounded to nearest even. *)
From Coq Require Import ZArith Reals Psatz Bool SpecFloat.
From Flocq Require Import Core Round Relative BinarySingleNaN.
From Verif Require Import Base Oracle SpecOracle.
Open Scope R_scope.

Local Instance prec53 : Prec_gt_0 53 := eq_refl _.
Local Instance lt1024 : Prec_lt_emax 53 1024 := eq_refl _.

Definition b64 := binary_float 53 1024.
Definition rnd (x : R) : R := round radix2 (FLT_exp (-1074) 53) ZnearestE x.

Lemma round_nearest_even_equiv s m l : round_nearest_even m l = choice_mode mode_NE s m l.
Proof.
  case l; [reflexivity | intro c].
  case c; [ | reflexivity ..].
  now simpl; unfold Round.cond_incr; case Z.even.
Qed.

Lemma binary_round_aux_equiv sx mx ex lx :
  SpecFloat.binary_round_aux 53 1024 sx mx ex lx
  = binary_round_aux 53 1024 mode_NE sx mx ex lx.
Proof.
  unfold SpecFloat.binary_round_aux, binary_round_aux.
  set (mrse' := shr_fexp _ _ _).
  case mrse'; intros mrs' e'; simpl.
  now rewrite (round_nearest_even_equiv sx).
Qed.

Lemma binary_round_equiv s m e :
  SpecFloat.binary_round 53 1024 s m e = binary_round 53 1024 mode_NE s m e.
Proof.
  unfold SpecFloat.binary_round, binary_round, shl_align_fexp.
  set (mez := shl_align _ _ _); case mez as [mz ez].
  apply binary_round_aux_equiv.
Qed.

Lemma binary_normalize_equiv m e szero :
  SpecFloat.binary_normalize 53 1024 m e szero
  = B2SF (binary_normalize 53 1024 prec53 lt1024 mode_NE m e szero).
Proof.
  case m as [ | p | p].
  - now simpl.
  - simpl; rewrite B2SF_SF2B; apply binary_round_equiv.
  - simpl; rewrite B2SF_SF2B; apply binary_round_equiv.
Qed.

Lemma mul_equiv (x y : b64) : f64_mul (B2SF x) (B2SF y) = B2SF (Bmult mode_NE x y).
Proof.
  case x as [sx | sx | | sx mx ex Bx]; case y as [sy | sy | | sy my ey By]; [now trivial .. | ].
  simpl. rewrite B2SF_SF2B. apply binary_round_aux_equiv.
Qed.

Lemma add_equiv (x y : b64) : f64_add (B2SF x) (B2SF y) = B2SF (Bplus mode_NE x y).
Proof.
  case x as [sx | sx | | sx mx ex Bx]; case y as [sy | sy | | sy my ey By];
    [now (trivial || simpl; case Bool.eqb) .. | ].
  apply binary_normalize_equiv.
Qed.

Lemma div_equiv (x y : b64) : f64_div (B2SF x) (B2SF y) = B2SF (Bdiv mode_NE x y).
Proof.
  case x as [sx | sx | | sx mx ex Bx]; case y as [sy | sy | | sy my ey By];
    [now (trivial || simpl; case Bool.eqb) .. | ].
  unfold f64_div. simpl. rewrite B2SF_SF2B.
  set (melz := SFdiv_core_binary _ _ _ _ _ _). case melz as [[mz ez] lz].
  apply binary_round_aux_equiv.
Qed.

(** A valid double is one of Flocq's. *)
Lemma double_b64 x : valid_binary 53 1024 x = true -> exists b : b64, B2SF b = x.
Proof. intros H. exists (SF2B x H). apply B2SF_SF2B. Qed.

Lemma real_b64 (b : b64) : real (B2SF b) = B2R b.
Proof. apply SF2R_B2SF. Qed.

Lemma rnd_fexp x : round radix2 (SpecFloat.fexp 53 1024) (round_mode mode_NE) x = rnd x.
Proof. reflexivity. Qed.

Definition huge : R := bpow radix2 1024.

Lemma mul_double x y :
  double x -> double y -> Rabs (rnd (real x * real y)) < huge ->
  double (f64_mul x y) /\ real (f64_mul x y) = rnd (real x * real y).
Proof.
  intros [Vx Fx] [Vy Fy] Hs.
  destruct (double_b64 _ Vx) as [bx <-]. destruct (double_b64 _ Vy) as [by_ <-].
  rewrite !real_b64 in *. rewrite mul_equiv.
  pose proof (Bmult_correct 53 1024 _ _ mode_NE bx by_) as H.
  rewrite rnd_fexp in H. change (bpow radix2 1024) with huge in H.
  rewrite Rlt_bool_true in H by exact Hs. destruct H as (HR & HF & _).
  split; [split|].
  - apply valid_binary_B2SF.
  - rewrite is_finite_SF_B2SF, HF, <- !is_finite_SF_B2SF, Fx, Fy. reflexivity.
  - rewrite real_b64. exact HR.
Qed.

Lemma mul_overflow x y :
  double x -> double y -> huge <= Rabs (rnd (real x * real y)) ->
  f64_mul x y = S754_infinity (Rlt_bool (real x * real y) 0).
Proof.
  intros [Vx Fx] [Vy Fy] Hs.
  destruct (double_b64 _ Vx) as [bx <-]. destruct (double_b64 _ Vy) as [by_ <-].
  rewrite !real_b64 in *. rewrite mul_equiv.
  pose proof (Bmult_correct 53 1024 _ _ mode_NE bx by_) as H.
  rewrite rnd_fexp in H. change (bpow radix2 1024) with huge in H.
  rewrite Rlt_bool_false in H by exact Hs.
  rewrite H. unfold binary_overflow. cbn [overflow_to_inf].
  f_equal. rewrite is_finite_SF_B2SF in Fx, Fy.
  assert (Hnz : B2R bx * B2R by_ <> 0).
  { intros E. rewrite E in Hs. unfold rnd in Hs.
    rewrite round_0 in Hs by auto with typeclass_instances. rewrite Rabs_R0 in Hs.
    pose proof (bpow_gt_0 radix2 1024). unfold huge in Hs. lra. }
  assert (Hx : B2R bx <> 0) by (intros E; apply Hnz; rewrite E; ring).
  assert (Hy : B2R by_ <> 0) by (intros E; apply Hnz; rewrite E; ring).
  destruct bx as [sx | sx | | sx mx ex Bx]; try (now elim Hx); try discriminate.
  destruct by_ as [sy | sy | | sy my ey By]; try (now elim Hy); try discriminate.
  cbn [Bsign]. unfold B2R in *.
  assert (Sg : forall (s : bool) (m : positive) (e : Z),
    if s then F2R (Float radix2 (cond_Zopp s (Z.pos m)) e) < 0
    else 0 < F2R (Float radix2 (cond_Zopp s (Z.pos m)) e)).
  { intros [|] m e; cbn [cond_Zopp]; [apply F2R_lt_0 | apply F2R_gt_0]; reflexivity. }
  pose proof (Sg sx mx ex) as H1. pose proof (Sg sy my ey) as H2.
  destruct sx, sy; cbn [xorb]; symmetry;
    first [apply Rlt_bool_true; nra | apply Rlt_bool_false; nra].
Qed.

Lemma div_double x y :
  double x -> double y -> real y <> 0 -> Rabs (rnd (real x / real y)) < huge ->
  double (f64_div x y) /\ real (f64_div x y) = rnd (real x / real y).
Proof.
  intros [Vx Fx] [Vy Fy] Hy Hs.
  destruct (double_b64 _ Vx) as [bx <-]. destruct (double_b64 _ Vy) as [by_ <-].
  rewrite !real_b64 in *. rewrite div_equiv.
  pose proof (Bdiv_correct 53 1024 _ _ mode_NE bx by_ Hy) as H.
  rewrite rnd_fexp in H. change (bpow radix2 1024) with huge in H.
  rewrite Rlt_bool_true in H by exact Hs. destruct H as (HR & HF & _).
  split; [split|].
  - apply valid_binary_B2SF.
  - rewrite is_finite_SF_B2SF, HF, <- is_finite_SF_B2SF, Fx. reflexivity.
  - rewrite real_b64. exact HR.
Qed.

Lemma div_overflow x y :
  double x -> double y -> real y <> 0 -> huge <= Rabs (rnd (real x / real y)) ->
  exists s, f64_div x y = S754_infinity s.
Proof.
  intros [Vx Fx] [Vy Fy] Hy Hs.
  destruct (double_b64 _ Vx) as [bx <-]. destruct (double_b64 _ Vy) as [by_ <-].
  rewrite !real_b64 in *. rewrite div_equiv.
  pose proof (Bdiv_correct 53 1024 _ _ mode_NE bx by_ Hy) as H.
  rewrite rnd_fexp in H. change (bpow radix2 1024) with huge in H.
  rewrite Rlt_bool_false in H by exact Hs.
  rewrite H. eexists. reflexivity.
Qed.

Lemma add_double x y :
  double x -> double y -> Rabs (rnd (real x + real y)) < huge ->
  double (f64_add x y) /\ real (f64_add x y) = rnd (real x + real y).
Proof.
  intros [Vx Fx] [Vy Fy] Hs.
  destruct (double_b64 _ Vx) as [bx <-]. destruct (double_b64 _ Vy) as [by_ <-].
  rewrite !real_b64 in *. rewrite add_equiv.
  rewrite is_finite_SF_B2SF in Fx, Fy.
  pose proof (Bplus_correct 53 1024 _ _ mode_NE bx by_ Fx Fy) as H.
  rewrite rnd_fexp in H. change (bpow radix2 1024) with huge in H.
  rewrite Rlt_bool_true in H by exact Hs. destruct H as (HR & HF & _).
  split; [split|].
  - apply valid_binary_B2SF.
  - rewrite is_finite_SF_B2SF. exact HF.
  - rewrite real_b64. exact HR.
Qed.

Lemma add_overflow x y :
  double x -> double y -> huge <= Rabs (rnd (real x + real y)) ->
  exists s, f64_add x y = S754_infinity s /\ sign_SF x = s.
Proof.
  intros [Vx Fx] [Vy Fy] Hs.
  destruct (double_b64 _ Vx) as [bx <-]. destruct (double_b64 _ Vy) as [by_ <-].
  rewrite !real_b64 in *. rewrite add_equiv.
  rewrite is_finite_SF_B2SF in Fx, Fy.
  pose proof (Bplus_correct 53 1024 _ _ mode_NE bx by_ Fx Fy) as H.
  rewrite rnd_fexp in H. change (bpow radix2 1024) with huge in H.
  rewrite Rlt_bool_false in H by exact Hs. destruct H as [H Hsg].
  rewrite H. eexists. split; [reflexivity|].
  destruct bx; reflexivity.
Qed.

(** [z as f64] *)
Lemma near_double z e :
  Rabs (rnd (IZR z * bpow radix2 e)) < huge ->
  double (f64_near z e) /\ real (f64_near z e) = rnd (IZR z * bpow radix2 e).
Proof.
  intros Hs. unfold f64_near. rewrite binary_normalize_equiv.
  pose proof (binary_normalize_correct 53 1024 _ _ mode_NE z e false) as H.
  cbv zeta in H. rewrite rnd_fexp in H. change (F2R (Float radix2 z e)) with (IZR z * bpow radix2 e) in H.
  change (bpow radix2 1024) with huge in H.
  rewrite Rlt_bool_true in H by exact Hs. destruct H as (HR & HF & _).
  split; [split|].
  - apply valid_binary_B2SF.
  - rewrite is_finite_SF_B2SF. exact HF.
  - rewrite real_b64. exact HR.
Qed.

Lemma gt_real x y : double x -> double y -> f64_gt x y = Rlt_bool (real y) (real x).
Proof.
  intros [Vx Fx] [Vy Fy].
  destruct (double_b64 _ Vx) as [bx <-]. destruct (double_b64 _ Vy) as [by_ <-].
  rewrite !real_b64. rewrite is_finite_SF_B2SF in Fx, Fy.
  exact (Bltb_correct 53 1024 by_ bx Fy Fx).
Qed.

Lemma ge_real x y : double x -> double y -> f64_ge x y = Rle_bool (real y) (real x).
Proof.
  intros [Vx Fx] [Vy Fy].
  destruct (double_b64 _ Vx) as [bx <-]. destruct (double_b64 _ Vy) as [by_ <-].
  rewrite !real_b64. rewrite is_finite_SF_B2SF in Fx, Fy.
  exact (Bleb_correct 53 1024 by_ bx Fy Fx).
Qed.

Lemma bpow_neg (n : nat) : bpow radix2 (- Z.of_nat n) = / 2 ^ n.
Proof. rewrite bpow_opp. f_equal. rewrite bpow_powerRZ. rewrite <- pow_powerRZ. reflexivity. Qed.

(** Rounding: relative error at most [2^-53] or absolute error at most [2^-1075]. *)
Lemma rnd_error x :
  exists d h, Rabs d <= / 2 ^ 53 /\ Rabs h <= / 2 ^ 1075 /\ d * h = 0 /\ rnd x = x * (1 + d) + h.
Proof.
  destruct (error_N_FLT radix2 (-1074) 53 eq_refl (fun n => negb (Z.even n)) x)
    as (d & h & Hd & Hh & H0 & E).
  exists d, h. split; [|split; [|split]]; try assumption.
  - eapply Rle_trans; [exact Hd|].
    change (-(53) + 1)%Z with (- Z.of_nat 52)%Z. rewrite bpow_neg.
    change (2 ^ 53) with (2 * 2 ^ 52). rewrite Rinv_mult; apply Rle_refl.
  - eapply Rle_trans; [exact Hh|].
    change (-1074)%Z with (- Z.of_nat 1074)%Z. rewrite bpow_neg.
    change (2 ^ 1075) with (2 * 2 ^ 1074). rewrite Rinv_mult; apply Rle_refl.
Qed.
