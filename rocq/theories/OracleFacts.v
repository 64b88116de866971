(** Facts about oracle prices. *)
From Coq Require Import ZArith Reals Psatz Bool List SpecFloat.
From Flocq Require Import Core Round Relative BinarySingleNaN.
From Verif Require Import Base Nodes OrderTree BookSide Heap Market OpenOrders Order Book Instructions
  Oracle SpecOracle FloatFacts.
Open Scope R_scope.

Local Instance prec53 : Prec_gt_0 53 := eq_refl _.

Lemma ok_inj {A} (x y : A) : Ok x = Ok y -> x = y.
Proof. congruence. Qed.

(** ** Staleness *)

Lemma not_stale_fresh (o : oracle_state) c now_slot slot :
  is_stale o c now_slot = false -> os_slot o = slot -> (0 <= oc_max_staleness c)%Z ->
  (now_slot <= slot + oc_max_staleness c)%Z.
Proof.
  unfold is_stale. intros H <- Hm. apply Z.leb_le in Hm as Hm'. rewrite Hm' in H. cbn [andb] in H.
  apply Z.ltb_ge in H.
  assert (as_u64 (oc_max_staleness c) <= oc_max_staleness c)%Z
    by (unfold as_u64; apply Z.mod_le; [exact Hm | reflexivity]).
  lia.
Qed.

Lemma unchecked_slot a o slot :
  oracle_state_unchecked a = Ok o -> last_update (oa_data a) = Some slot -> os_slot o = slot.
Proof.
  unfold oracle_state_unchecked. destruct (oa_data a) as [p d s|t ap ac asl pp pc psl ex|r d s|r mn mx s|? ? ?| |];
    cbn [last_update]; try discriminate; intros E L.
  - inversion E; subst; clear E. cbn [os_slot]. destruct (s =? 0)%Z; [discriminate|]. now inversion L.
  - cbn [pyth_get_price bind] in E. inversion L; subst; clear L.
    destruct t; cbn beta iota in E; destruct (power_of_ten_float (as_i8 ex)); cbn [bind] in E; try discriminate;
      destruct (require_nonneg _); cbn [bind] in E; try discriminate; now inversion E.
  - inversion L; subst; clear L. destruct r; cbn [bind] in E; try discriminate.
    destruct d; cbn [bind] in E; try discriminate.
    destruct (require_nonneg _); cbn [bind] in E; try discriminate; now inversion E.
  - inversion L; subst; clear L.
    destruct (require_nonneg _); cbn [bind] in E; try discriminate; now inversion E.
Qed.

Lemma unchecked_fresh a o c now_slot :
  oracle_state_unchecked a = Ok o -> is_stale o c now_slot = false -> fresh c now_slot (oa_data a).
Proof.
  intros E S Hm slot L. exact (not_stale_fresh o c now_slot slot S (unchecked_slot a o slot E L) Hm).
Qed.

(** ** Shape of a successful price *)

Lemma price_inv m c a b now_slot p :
  oracle_price m c a b now_slot = Ok (Some p) ->
  c_oracle_a (m_cfg m) <> 0%Z /\
  ((c_oracle_b (m_cfg m) = 0%Z /\
    exists acc o adj, a = Some acc /\ oa_key acc = c_oracle_a (m_cfg m) /\
      oracle_state_unchecked acc = Ok o /\ is_stale o c now_slot = false /\
      has_valid_confidence o c = true /\ decimal_adjustment c = Ok adj /\
      i80f48_of_f64 (f64_mul (os_price o) adj) = Some p)
   \/
   (c_oracle_b (m_cfg m) <> 0%Z /\
    exists acc1 acc2 o1 o2 adj, a = Some acc1 /\ b = Some acc2 /\
      oa_key acc1 = c_oracle_a (m_cfg m) /\ oa_key acc2 = c_oracle_b (m_cfg m) /\
      oracle_state_unchecked acc1 = Ok o1 /\ oracle_state_unchecked acc2 = Ok o2 /\
      is_stale o1 c now_slot = false /\ is_stale o2 c now_slot = false /\
      has_valid_combined_confidence o1 o2 c = true /\ decimal_adjustment c = Ok adj /\
      i80f48_of_f64 (f64_mul (f64_div (os_price o1) (os_price o2)) adj) = Some p)).
Proof.
  unfold oracle_price.
  destruct (Z.eqb_spec (c_oracle_a (m_cfg m)) 0) as [Ea|Ea]; cbn [negb andb]; [discriminate|].
  intros H. split; [exact Ea|].
  destruct (Z.eqb_spec (c_oracle_b (m_cfg m)) 0) as [Eb|Eb]; cbn [negb] in H; [left|right]; (split; [exact Eb|]).
  - destruct a as [acc|]; cbn [unwrap bind] in H; [|discriminate].
    unfold oracle_price_from_a in H.
    destruct (Z.eqb_spec (c_oracle_a (m_cfg m)) (oa_key acc)) as [K|K]; cbn [massert bind] in H; [|discriminate].
    destruct (oracle_state_unchecked acc) as [o|] eqn:U; cbn [bind] in H; [|discriminate].
    destruct (is_stale o c now_slot) eqn:S; cbn [orb] in H; [discriminate|].
    destruct (has_valid_confidence o c) eqn:V; cbn [negb] in H; [|discriminate].
    destruct (decimal_adjustment c) as [adj|] eqn:D; cbn [bind] in H; [|discriminate].
    injection H as H. exists acc, o, adj. repeat split; try assumption; now symmetry.
  - destruct a as [acc1|]; cbn [unwrap bind] in H; [|discriminate].
    destruct b as [acc2|]; cbn [unwrap bind] in H; [|discriminate].
    unfold oracle_price_from_a_and_b in H.
    destruct (Z.eqb_spec (c_oracle_a (m_cfg m)) (oa_key acc1)) as [K|K]; cbn [massert bind] in H; [|discriminate].
    destruct (Z.eqb_spec (c_oracle_b (m_cfg m)) (oa_key acc2)) as [K2|K2]; cbn [massert bind] in H; [|discriminate].
    destruct (oracle_state_unchecked acc1) as [o1|] eqn:U; cbn [bind] in H; [|discriminate].
    destruct (oracle_state_unchecked acc2) as [o2|] eqn:U2; cbn [bind] in H; [|discriminate].
    destruct (is_stale o1 c now_slot) eqn:S; cbn [orb] in H; [discriminate|].
    destruct (is_stale o2 c now_slot) eqn:S2; cbn [orb] in H; [discriminate|].
    destruct (has_valid_combined_confidence o1 o2 c) eqn:V; cbn [negb] in H; [|discriminate].
    destruct (decimal_adjustment c) as [adj|] eqn:D; cbn [bind] in H; [|discriminate].
    injection H as H. exists acc1, acc2, o1, o2, adj. repeat split; try assumption; now symmetry.
Qed.

Lemma lots_inv m c a b now_slot v :
  oracle_price_lots m c a b now_slot = Ok (Some v) ->
  exists p, oracle_price m c a b now_slot = Ok (Some p) /\ native_price_to_lot m p = Ok v.
Proof.
  unfold oracle_price_lots. destruct (oracle_price m c a b now_slot) as [[p|]|]; cbn [bind]; try discriminate.
  destruct (native_price_to_lot m p) as [w|] eqn:E; cbn [bind]; try discriminate.
  intros H. inversion H; subst. exists p. split; [reflexivity | exact E].
Qed.

(** ** Confidence *)

Lemma double_lt_huge x : double x -> Rabs (real x) < huge.
Proof.
  intros [V _]. destruct (double_b64 _ V) as [bx <-]. rewrite real_b64.
  apply abs_B2R_lt_emax.
Qed.

Lemma rnd_upper x : rnd x <= x + Rabs x / 2 ^ 53 + / 2 ^ 1075.
Proof.
  destruct (rnd_error x) as (d & h & Hd & Hh & _ & ->).
  revert Hd Hh. generalize (/ 2 ^ 1075) as eta. intros eta Hd Hh. unfold Rdiv.
  revert Hd. generalize (/ 2 ^ 53) as u. intros u Hd.
  pose proof (Rle_abs h). pose proof (Rle_abs (x * d)) as H1. rewrite Rabs_mult in H1.
  pose proof (Rabs_pos x).
  assert (Rabs x * Rabs d <= Rabs x * u) by (apply Rmult_le_compat_l; lra).
  lra.
Qed.

Lemma rnd_nonneg x : 0 <= x -> 0 <= rnd x.
Proof.
  intros H. unfold rnd.
  apply round_ge_generic; [auto with typeclass_instances .. | apply generic_format_0 | exact H].
Qed.

Lemma confidence_bound o c :
  double (oc_conf_filter c) -> double (os_price o) -> double (os_deviation o) ->
  has_valid_confidence o c = true ->
  at_most (real (os_deviation o)) (real (oc_conf_filter c) * real (os_price o)).
Proof.
  intros Hc Hp Hd H. unfold has_valid_confidence in H. apply negb_true_iff in H. unfold at_most.
  set (t := real (oc_conf_filter c) * real (os_price o)).
  destruct (Rlt_or_le (Rabs (rnd t)) huge) as [Hs|Hs].
  - destruct (mul_double _ _ Hc Hp Hs) as [Dm Rm].
    rewrite (gt_real _ _ Hd Dm), Rm in H.
    fold t in H. destruct (Rlt_bool_spec (rnd t) (real (os_deviation o))) as [|H0]; [discriminate|].
    eapply Rle_trans; [exact H0 | apply rnd_upper].
  - rewrite (mul_overflow _ _ Hc Hp Hs) in H. fold t in H.
    destruct (Rlt_bool_spec t 0) as [Ht|Ht].
    + exfalso. revert H. destruct Hd as [_ F]. unfold f64_gt, SFltb, SFcompare.
      destruct (os_deviation o) as [ | [|] | | [|] ? ?]; try discriminate.
    + pose proof (double_lt_huge _ Hd) as B. pose proof (Rle_abs (real (os_deviation o))).
      rewrite Rabs_pos_eq in Hs by (apply rnd_nonneg; exact Ht).
      pose proof (rnd_upper t). lra.
Qed.

Lemma states_unchecked a o p d :
  states (oa_data a) p d -> oracle_state_unchecked a = Ok o -> os_price o = p /\ os_deviation o = d.
Proof.
  unfold oracle_state_unchecked. destruct 1; intros E.
  - inversion E; subst. now split.
  - cbn [bind] in E. destruct (require_nonneg _); cbn [bind] in E; try discriminate. inversion E; now split.
  - destruct (require_nonneg _); cbn [bind] in E; try discriminate. inversion E; now split.
Qed.

(** ** Powers of ten *)

Lemma pow2_pos n : 0 < 2 ^ n.
Proof. apply pow_lt. lra. Qed.

Lemma rnd_rel x : x = 0 \/ / 2 ^ 1000 <= Rabs x ->
  exists d, Rabs d <= / 2 ^ 53 /\ rnd x = x * (1 + d).
Proof.
  intros [-> | H].
  - exists 0. split.
    + rewrite Rabs_R0. left. apply Rinv_0_lt_compat, pow2_pos.
    + unfold rnd. rewrite round_0 by auto with typeclass_instances. ring.
  - destruct (relative_error_N_FLT_ex radix2 (-1074) 53 eq_refl (fun n => negb (Z.even n)) x) as (d & Hd & E).
    + eapply Rle_trans; [|exact H].
      change (-1074 + 53 - 1)%Z with (- Z.of_nat 1022)%Z. rewrite bpow_neg.
      apply Rinv_le_contravar; [apply pow2_pos|].
      apply Rle_pow; [lra | lia].
    + exists d. split; [|exact E].
      eapply Rle_trans; [exact Hd|].
      change (-(53) + 1)%Z with (- Z.of_nat 52)%Z. rewrite bpow_neg.
      change (2 ^ 53) with (2 * 2 ^ 52). rewrite Rinv_mult; apply Rle_refl.
Qed.

Lemma u_small : 0 < / 2 ^ 53 <= / 1024.
Proof.
  split; [apply Rinv_0_lt_compat, pow2_pos|].
  apply Rinv_le_contravar; [lra|].
  replace 1024 with (2 ^ 10) by ring. apply Rle_pow; [lra|lia].
Qed.

Lemma tiny_small : 0 < / 2 ^ 1000 <= / 2 ^ 100.
Proof.
  split; [apply Rinv_0_lt_compat, pow2_pos|].
  apply Rinv_le_contravar; [apply pow2_pos|]. apply Rle_pow; [lra|lia].
Qed.

Lemma huge_big : 2 ^ 1000 <= huge.
Proof.
  unfold huge. change 1024%Z with (Z.of_nat 1024). rewrite bpow_powerRZ, <- pow_powerRZ.
  change (IZR radix2) with 2. apply Rle_pow; [lra | lia].
Qed.


Lemma IZR_pow2 (n : nat) : IZR (2 ^ Z.of_nat n) = 2 ^ n.
Proof. rewrite <- pow_IZR. reflexivity. Qed.

Lemma rnd_int z : (Z.abs z < 2 ^ 53)%Z -> rnd (IZR z) = IZR z.
Proof.
  intros H. apply round_generic; [auto with typeclass_instances|].
  apply generic_format_FLT. exists (Float radix2 z 0).
  - unfold F2R. cbn [Fnum Fexp bpow]. ring.
  - cbn [Fnum]. exact H.
  - cbn [Fexp]. lia.
Qed.

Lemma of_int_exact z : (Z.abs z < 2 ^ 53)%Z -> double (f64_of z) /\ real (f64_of z) = IZR z.
Proof.
  intros H. unfold f64_of.
  assert (E : IZR z * bpow radix2 0 = IZR z) by (cbn [bpow]; ring).
  assert (B : Rabs (rnd (IZR z * bpow radix2 0)) < huge).
  { rewrite E, rnd_int by exact H. rewrite <- abs_IZR.
    apply Rlt_le_trans with (2 ^ 1000); [|apply huge_big].
    apply Rlt_le_trans with (2 ^ 53).
    - change (2 ^ 53)%Z with (2 ^ Z.of_nat 53)%Z in H. rewrite <- IZR_pow2. now apply IZR_lt.
    - apply Rle_pow; [lra | lia]. }
  destruct (near_double z 0 B) as [D R]. split; [exact D|].
  rewrite R, E. apply rnd_int, H.
Qed.

(** A factor within [k] roundings of one. *)
Definition close (k f : R) : Prop := 1 - k * / 2 ^ 53 <= f <= 1 + k * / 2 ^ 53.

Lemma close_of d : Rabs d <= / 2 ^ 53 -> close 1 (1 + d).
Proof. intros H. unfold close. apply Rabs_le_inv in H. lra. Qed.

Lemma close_mul j k l f g :
  close j f -> close k g -> 0 <= j <= 16 -> 0 <= k <= 16 -> j + k + 1 <= l -> close l (f * g).
Proof.
  unfold close. pose proof u_small as [U0 U1]. generalize dependent (/ 2 ^ 53). intros u U0 U1 [F0 F1] [G0 G1] J K L.
  assert (0 <= j * u) by nra. assert (0 <= k * u) by nra.
  assert (j * u * (k * u) <= u).
  { assert (j * u <= 16 * / 1024) by nra. assert (k * u <= 16 * u) by nra. nra. }
  assert (j * u <= / 2) by nra. assert (k * u <= / 2) by nra.
  assert (0 <= f) by lra. assert (0 <= g) by lra.
  split.
  - apply Rle_trans with ((1 - j * u) * (1 - k * u)); [nra|].
    apply Rmult_le_compat; lra.
  - apply Rle_trans with ((1 + j * u) * (1 + k * u)); [|nra].
    apply Rmult_le_compat; lra.
Qed.

Lemma ten_pos d : 0 < powerRZ 10 d.
Proof. apply powerRZ_lt. lra. Qed.

Lemma ten_neg (k : Z) : powerRZ 10 (- k) = / powerRZ 10 k.
Proof. apply powerRZ_neg'. Qed.

Lemma ten_int k : (0 <= k)%Z -> powerRZ 10 k = IZR (10 ^ k).
Proof.
  intros H. rewrite <- (Z2Nat.id k H). rewrite <- pow_powerRZ, <- pow_IZR. reflexivity.
Qed.

Lemma ten_le k : (0 <= k <= 12)%Z -> 1 <= powerRZ 10 k <= IZR (10 ^ 12).
Proof.
  intros H. rewrite ten_int by lia. split; apply IZR_le.
  - pose proof (Z.pow_pos_nonneg 10 k). lia.
  - apply Z.pow_le_mono_r; lia.
Qed.

Lemma ten_range d : (-12 <= d <= 12)%Z -> / IZR (10 ^ 12) <= powerRZ 10 d <= IZR (10 ^ 12).
Proof.
  intros H. assert (P : 1 < IZR (10 ^ 12)) by (apply IZR_lt; reflexivity).
  destruct (Z_le_gt_dec 0 d) as [G|G].
  - pose proof (ten_le d ltac:(lia)) as L.
    assert (/ IZR (10 ^ 12) <= 1) by (rewrite <- Rinv_1; apply Rinv_le_contravar; lra). lra.
  - replace d with (- - d)%Z by lia. rewrite ten_neg.
    pose proof (ten_le (- d) ltac:(lia)) as L. split.
    + apply Rinv_le_contravar; lra.
    + apply Rle_trans with 1; [|lra]. rewrite <- Rinv_1. apply Rinv_le_contravar; lra.
Qed.

Lemma in_huge x : Rabs x <= 2 ^ 600 -> Rabs (rnd x) < huge.
Proof.
  intros H. destruct (rnd_error x) as (d & h & Hd & Hh & _ & ->).
  eapply Rle_lt_trans; [apply Rabs_triang|]. rewrite Rabs_mult.
  pose proof u_small.
  assert (Rabs (1 + d) <= 2) by (apply Rabs_le; apply Rabs_le_inv in Hd; lra).
  assert (T : / 2 ^ 1075 <= 1).
  { rewrite <- Rinv_1. apply Rinv_le_contravar; [lra|]. apply pow_R1_Rle. lra. }
  assert (P : 1 <= 2 ^ 600) by (apply pow_R1_Rle; lra).
  apply Rlt_le_trans with (2 ^ 1000); [|apply huge_big].
  apply Rle_lt_trans with (2 ^ 600 * 2 + 1).
  - apply Rplus_le_compat; [|lra]. apply Rmult_le_compat; try apply Rabs_pos; assumption.
  - apply Rle_lt_trans with (2 ^ 602).
    + change (2 ^ 602) with (2 * (2 * 2 ^ 600)). lra.
    + apply Rlt_pow; [lra|lia].
Qed.

Lemma pow_ten_real d adj :
  power_of_ten_float d = Ok adj ->
  (-12 <= d <= 12)%Z /\ double adj /\ exists f, close 1 f /\ real adj = powerRZ 10 d * f.
Proof.
  unfold power_of_ten_float. intros H.
  destruct ((-12 <=? d) && (d <=? 12))%Z eqn:B; cbn [massert bind] in H; [|discriminate].
  apply andb_true_iff in B. destruct B as [B1 B2]. apply Z.leb_le in B1, B2.
  split; [lia|]. apply ok_inj in H.
  assert (Int : forall k, (0 <= k <= 12)%Z -> double (f64_of (10 ^ k)) /\ real (f64_of (10 ^ k)) = powerRZ 10 k).
  { intros k Hk. rewrite ten_int by lia. apply of_int_exact.
    assert (10 ^ k <= 10 ^ 12)%Z by (apply Z.pow_le_mono_r; lia).
    assert (0 < 10 ^ k)%Z by (apply Z.pow_pos_nonneg; lia).
    rewrite Z.abs_eq by lia. change (10 ^ 12)%Z with 1000000000000%Z in *.
    change (2 ^ 53)%Z with 9007199254740992%Z. lia. }
  destruct (Z.leb_spec 0 d) as [G|G]; subst adj.
  - destruct (Int d ltac:(lia)) as [D R]. split; [exact D|].
    exists 1. split; [|rewrite R; ring]. unfold close. pose proof u_small. lra.
  - destruct (Int (- d)%Z ltac:(lia)) as [D R].
    destruct (of_int_exact 1 ltac:(reflexivity)) as [D1 R1].
    assert (Tq : real (f64_of 1) / real (f64_of (10 ^ - d)) = powerRZ 10 d).
    { rewrite R1, R, ten_neg. unfold Rdiv. rewrite Rinv_inv. ring. }
    pose proof (ten_range d ltac:(lia)) as TR.
    assert (P12 : IZR (10 ^ 12) <= 2 ^ 40).
    { replace (2 ^ 40) with (IZR (2 ^ 40)) by (change 40%Z with (Z.of_nat 40); apply IZR_pow2). apply IZR_le. discriminate. }
    pose proof (ten_pos d) as TP.
    assert (P40 : 2 ^ 40 <= 2 ^ 600) by (apply Rle_pow; [lra|lia]).
    destruct (div_double (f64_of 1) (f64_of (10 ^ - d)) D1 D) as [DD RR].
    + rewrite R, ten_neg. apply Rinv_neq_0_compat. lra.
    + rewrite Tq. apply in_huge. rewrite Rabs_pos_eq by lra. lra.
    + split; [exact DD|]. rewrite Tq in RR.
      destruct (rnd_rel (powerRZ 10 d)) as (e & He & E).
      * right. rewrite Rabs_pos_eq by lra. apply Rle_trans with (/ IZR (10 ^ 12)); [|lra].
        apply Rinv_le_contravar; [apply IZR_lt; reflexivity|].
        apply Rle_trans with (2 ^ 40); [exact P12|]. apply Rle_pow; [lra|lia].
      * exists (1 + e). split; [now apply close_of | now rewrite RR, E].
Qed.

Lemma pyth_scaled z d adj :
  power_of_ten_float d = Ok adj -> (Z.abs z <= 2 ^ 64)%Z ->
  double (f64_mul (f64_of z) adj) /\
  exists f, close 5 f /\ real (f64_mul (f64_of z) adj) = IZR z * powerRZ 10 d * f.
Proof.
  intros H Hz. destruct (pow_ten_real d adj H) as (Hd & Da & fa & Ca & Ra).
  pose proof (ten_range d Hd) as TR. pose proof (ten_pos d) as TP.
  assert (P12 : IZR (10 ^ 12) <= 2 ^ 40).
  { replace (2 ^ 40) with (IZR (2 ^ 40)) by (change 40%Z with (Z.of_nat 40); apply IZR_pow2). apply IZR_le. discriminate. }
  assert (P0 : 0 < IZR (10 ^ 12)) by (apply IZR_lt; reflexivity).
  assert (Bz : Rabs (IZR z) <= 2 ^ 64).
  { rewrite <- abs_IZR, <- IZR_pow2. now apply IZR_le. }
  assert (E0 : IZR z * bpow radix2 0 = IZR z) by (cbn [bpow]; ring).
  destruct (near_double z 0) as [Dz Rz].
  { rewrite E0. apply in_huge. eapply Rle_trans; [exact Bz|]. apply Rle_pow; [lra|lia]. }
  rewrite E0 in Rz.
  assert (Iz : IZR z = 0 \/ 1 <= Rabs (IZR z)).
  { destruct (Z.eq_dec z 0) as [->|N]; [now left|]. right. rewrite <- abs_IZR. apply IZR_le. lia. }
  destruct (rnd_rel (IZR z)) as (e1 & He1 & E1).
  { destruct Iz as [I|I]; [now left | right]. eapply Rle_trans; [|exact I]. rewrite <- Rinv_1.
    apply Rinv_le_contravar; [lra|]. apply pow_R1_Rle. lra. }
  pose proof (close_of _ He1) as C1.
  pose proof u_small as U.
  assert (Ba : / 2 <= fa <= 2) by (unfold close in Ca; lra).
  assert (B1 : / 2 <= 1 + e1 <= 2) by (unfold close in C1; lra).
  assert (HR : real (f64_of z) * real adj = IZR z * powerRZ 10 d * ((1 + e1) * fa)).
  { change (f64_of z) with (f64_near z 0). rewrite Rz, E1, Ra. ring. }
  assert (Hff : / 4 <= (1 + e1) * fa <= 4) by nra.
  assert (HA : Rabs (real (f64_of z) * real adj) = Rabs (IZR z) * (powerRZ 10 d * ((1 + e1) * fa))).
  { rewrite HR, Rmult_assoc, Rabs_mult. f_equal. apply Rabs_pos_eq. apply Rmult_le_pos; lra. }
  assert (HB : / 2 ^ 42 <= powerRZ 10 d * ((1 + e1) * fa) <= 2 ^ 42).
  { split.
    - apply Rle_trans with (/ 2 ^ 40 * / 4).
      + right. rewrite <- Rinv_mult. f_equal. change (2 ^ 42) with (2 * (2 * 2 ^ 40)). ring.
      + assert (/ 2 ^ 40 <= powerRZ 10 d)
          by (eapply Rle_trans; [|apply TR]; apply Rinv_le_contravar; assumption).
        pose proof (Rinv_0_lt_compat _ (pow2_pos 40)).
        apply Rmult_le_compat; lra.
    - apply Rle_trans with (2 ^ 40 * 4).
      + apply Rmult_le_compat; lra.
      + right. change (2 ^ 42) with (2 * (2 * 2 ^ 40)). ring. }
  destruct (mul_double (f64_of z) adj Dz Da) as [Dm Rm].
  { apply in_huge. rewrite HA. apply Rle_trans with (2 ^ 64 * 2 ^ 42).
    - pose proof (Rinv_0_lt_compat _ (pow2_pos 42)).
      apply Rmult_le_compat; [apply Rabs_pos | lra | exact Bz | lra].
    - rewrite <- pow_add. apply Rle_pow; [lra|lia]. }
  split; [exact Dm|].
  destruct (rnd_rel (real (f64_of z) * real adj)) as (e2 & He2 & E2).
  { destruct Iz as [I|I]; [left; rewrite HR, I; ring | right].
    rewrite HA. apply Rle_trans with (1 * / 2 ^ 42).
    - rewrite Rmult_1_l. apply Rinv_le_contravar; [apply pow2_pos|]. apply Rle_pow; [lra|lia].
    - pose proof (Rinv_0_lt_compat _ (pow2_pos 42)). apply Rmult_le_compat; lra. }
  exists ((1 + e1) * fa * (1 + e2)). split.
  - apply (close_mul 3 1); [apply (close_mul 1 1); [assumption .. | lra | lra | lra] | now apply close_of | lra | lra | lra].
  - rewrite Rm, E2, HR. ring.
Qed.

Lemma pyth_confidence a o c p k :
  pyth_states (oa_data a) p k -> (Z.abs p <= 2 ^ 64)%Z -> (0 <= k <= 2 ^ 64)%Z ->
  double (oc_conf_filter c) -> 0 <= real (oc_conf_filter c) ->
  oracle_state_unchecked a = Ok o -> has_valid_confidence o c = true ->
  (0 <= p)%Z /\ IZR k <= real (oc_conf_filter c) * IZR p * (1 + / 2 ^ 48) + / 2 ^ 1000.
Proof.
  intros S Hp Hk Df Pf E V. unfold pyth_states in S. unfold oracle_state_unchecked in E.
  destruct (oa_data a) as [|t ap ac asl pp pc psl ex| | | | |]; try contradiction.
  cbn [pyth_get_price bind] in E.
  set (sl := if t then asl else psl).
  assert (E' : (adj <- power_of_ten_float (as_i8 ex) ;;
      _ <- require_nonneg (f64_mul (f64_of p) adj) ;;
      Ok (mkOracleState (f64_mul (f64_of p) adj) (f64_mul (f64_of k) adj) sl)) = Ok o).
  { destruct S as [-> ->]. subst sl. destruct t; exact E. }
  clear E S. destruct (power_of_ten_float (as_i8 ex)) as [adj|] eqn:T; cbn [bind] in E'; [|discriminate].
  destruct (require_nonneg (f64_mul (f64_of p) adj)) as [[]|] eqn:N; cbn [bind] in E'; [|discriminate].
  apply ok_inj in E'. subst o.
  destruct (pyth_scaled p _ adj T Hp) as (Dp & fp & Cp & Rp).
  destruct (pyth_scaled k _ adj T ltac:(rewrite Z.abs_eq; lia)) as (Dk & fk & Ck & Rk).
  destruct (pow_ten_real _ _ T) as (Hd & _ & _).
  pose proof (ten_range _ Hd) as TR. pose proof (ten_pos (as_i8 ex)) as TP.
  pose proof u_small as U.
  assert (Bp : / 2 <= fp) by (unfold close in Cp; lra).
  assert (P0 : 0 <= IZR p).
  { unfold require_nonneg, require in N.
    destruct (of_int_exact 0 ltac:(reflexivity)) as [D0 R0].
    rewrite (ge_real _ _ Dp D0), R0, Rp in N.
    destruct (Rle_bool_spec 0 (IZR p * powerRZ 10 (as_i8 ex) * fp)) as [L|L]; [|discriminate].
    destruct (Rle_or_lt 0 (IZR p)) as [G|G]; [exact G|exfalso].
    assert (0 < powerRZ 10 (as_i8 ex) * fp) by (apply Rmult_lt_0_compat; lra). nra. }
  split; [apply le_IZR; exact P0|].
  pose proof (confidence_bound (mkOracleState (f64_mul (f64_of p) adj) (f64_mul (f64_of k) adj) sl) c Df Dp Dk V) as B. cbn [os_price os_deviation] in B.
  unfold at_most in B. rewrite Rp, Rk in B.
  set (T10 := powerRZ 10 (as_i8 ex)) in *. set (F := real (oc_conf_filter c)) in *.
  assert (Q0 : 0 <= F * IZR p) by nra.
  assert (Eq : F * (IZR p * T10 * fp) = F * IZR p * fp * T10) by ring.
  rewrite Eq in B.
  rewrite (Rabs_pos_eq (F * IZR p * fp * T10)) in B by (apply Rmult_le_pos; [apply Rmult_le_pos|]; lra).
  assert (K0 : 0 <= IZR k) by (apply IZR_le; lia).
  assert (ET : / 2 ^ 1075 <= / 2 ^ 1001 * / 2 * T10).
  { apply Rle_trans with (/ 2 ^ 1001 * / 2 * / 2 ^ 40).
    - rewrite <- !Rinv_mult. apply Rinv_le_contravar; [repeat apply Rmult_lt_0_compat; try apply pow2_pos; lra|].
      replace (2 ^ 1001 * 2 * 2 ^ 40) with (2 ^ 1001 * 2 ^ 1 * 2 ^ 40) by (rewrite pow_1; reflexivity).
      rewrite <- !pow_add. apply Rle_pow; [lra|lia].
    - apply Rmult_le_compat_l.
      + apply Rmult_le_pos; [left; apply Rinv_0_lt_compat, pow2_pos | lra].
      + eapply Rle_trans; [|apply TR]. apply Rinv_le_contravar; [apply IZR_lt; reflexivity|].
        replace (2 ^ 40) with (IZR (2 ^ 40)) by (change 40%Z with (Z.of_nat 40); apply IZR_pow2). apply IZR_le. discriminate. }
  assert (E1000 : / 2 ^ 1000 = 2 * / 2 ^ 1001).
  { change (2 ^ 1001) with (2 * 2 ^ 1000). rewrite Rinv_mult. field. }
  assert (E48 : / 2 ^ 48 = 32 * / 2 ^ 53) by field.
  rewrite E1000, E48. unfold Rdiv in B. unfold close in Cp, Ck.
  pose proof (Rinv_0_lt_compat _ (pow2_pos 1001)) as EP.
  remember (/ 2 ^ 53) as u eqn:Eu. remember (/ 2 ^ 1075) as eta eqn:Eeta. remember (/ 2 ^ 1001) as e1 eqn:Ee1.
  clear Eu Eeta Ee1 E1000 E48 TR.
  set (G := F * IZR p) in *.
  assert (L1 : IZR k * fk <= G * fp + G * fp * u + e1 * / 2).
  { apply Rmult_le_reg_r with T10; [exact TP|]. nra. }
  assert (L2 : IZR k * (1 - 5 * u) <= G * (1 + 5 * u) * (1 + u) + e1 * / 2).
  { apply Rle_trans with (IZR k * fk); [nra|]. eapply Rle_trans; [exact L1|].
    assert (G * fp <= G * (1 + 5 * u)) by nra. nra. }
  apply Rmult_le_reg_r with (1 - 5 * u); [lra|].
  eapply Rle_trans; [exact L2|].
  assert ((1 + 5 * u) * (1 + u) <= (1 + 32 * u) * (1 - 5 * u)) by nra.
  assert (e1 * / 2 <= 2 * e1 * (1 - 5 * u)) by nra.
  nra.
Qed.

(** ** Two oracles *)

Lemma div_cases x y :
  double x -> double y -> real y <> 0 ->
  (double (f64_div x y) /\ real (f64_div x y) = rnd (real x / real y)) \/
  exists s, f64_div x y = S754_infinity s.
Proof.
  intros Dx Dy N. destruct (Rlt_or_le (Rabs (rnd (real x / real y))) huge) as [H|H].
  - left. now apply div_double.
  - right. now apply div_overflow.
Qed.

Lemma square_cases r :
  double r -> (double (f64_mul r r) /\ real (f64_mul r r) = rnd (real r * real r)) \/
  f64_mul r r = S754_infinity false.
Proof.
  intros D. destruct (Rlt_or_le (Rabs (rnd (real r * real r))) huge) as [H|H].
  - left. now apply mul_double.
  - right. rewrite mul_overflow by assumption. f_equal. apply Rlt_bool_false. nra.
Qed.

Lemma rnd_double y : double y -> rnd (real y) = real y.
Proof.
  intros [V _]. destruct (double_b64 _ V) as [b <-]. rewrite real_b64.
  apply round_generic; [auto with typeclass_instances|]. apply generic_format_B2R.
Qed.

Lemma sign_true_neg x : double x -> sign_SF x = true -> real x <= 0.
Proof.
  intros [_ F] S. destruct x as [s| | |s m e]; try discriminate.
  - cbn. lra.
  - cbn [sign_SF] in S. subst s. unfold real, SF2R. cbn [cond_Zopp]. left. apply F2R_lt_0. reflexivity.
Qed.

Lemma sum_cases x y :
  double x -> double y -> 0 <= real x -> 0 <= real y ->
  (double (f64_add x y) /\ real (f64_add x y) = rnd (real x + real y)) \/
  f64_add x y = S754_infinity false.
Proof.
  intros Dx Dy Px Py. destruct (Rlt_or_le (Rabs (rnd (real x + real y))) huge) as [H|H].
  - left. now apply add_double.
  - right. destruct (add_overflow x y Dx Dy H) as ([|] & E & S); [exfalso|exact E].
    pose proof (sign_true_neg x Dx S). assert (E0 : real x = 0) by lra.
    rewrite E0, Rplus_0_l, (rnd_double y Dy) in H. pose proof (double_lt_huge y Dy). lra.
Qed.

Lemma rnd_lower x : Rabs x <= (Rabs (rnd x) + / 2 ^ 1075) * (1 + 2 * / 2 ^ 53).
Proof.
  destruct (rnd_error x) as (d & h & Hd & Hh & _ & ->).
  pose proof u_small as U. revert Hh Hd U. generalize (/ 2 ^ 1075) as eta. generalize (/ 2 ^ 53) as u.
  intros u eta Hh Hd U.
  assert (L : Rabs x * (1 - u) <= Rabs (x * (1 + d) + h) + eta).
  { assert (Rabs (x * (1 + d)) <= Rabs (x * (1 + d) + h) + Rabs h).
    { replace (x * (1 + d)) with (x * (1 + d) + h + - h) at 1 by ring.
      eapply Rle_trans; [apply Rabs_triang|]. rewrite Rabs_Ropp. lra. }
    assert (Rabs x * (1 - u) <= Rabs (x * (1 + d))).
    { rewrite Rabs_mult. apply Rmult_le_compat_l; [apply Rabs_pos|].
      pose proof (Rle_abs (1 + d)). apply Rabs_le_inv in Hd. lra. }
    lra. }
  pose proof (Rabs_pos x). pose proof (Rabs_pos (x * (1 + d) + h)).
  assert (0 <= eta) by (eapply Rle_trans; [apply (Rabs_pos h) | exact Hh]).
  assert (1 <= (1 - u) * (1 + 2 * u)) by nra.
  apply Rle_trans with (Rabs x * ((1 - u) * (1 + 2 * u))); [nra|].
  rewrite <- Rmult_assoc. apply Rmult_le_compat_r; lra.
Qed.

Lemma gt_inf x : double x -> f64_gt (S754_infinity false) x = true.
Proof. intros [_ F]. destruct x as [ | | | [|] ? ?]; try discriminate; reflexivity. Qed.

Lemma combined_steps dA vA dB vB cf :
  double dA -> double vA -> double dB -> double vB -> double cf ->
  real vA <> 0 -> real vB <> 0 -> Rabs (real cf) <= 2 ^ 64 ->
  f64_gt (f64_add (f64_mul (f64_div dA vA) (f64_div dA vA)) (f64_mul (f64_div dB vB) (f64_div dB vB)))
    (f64_mul cf cf) = false ->
  let ra := rnd (real dA / real vA) in let rb := rnd (real dB / real vB) in
  rnd (rnd (ra * ra) + rnd (rb * rb)) <= rnd (real cf * real cf).
Proof.
  intros DA VA DB VB DC NA NB BC H ra rb.
  assert (DT : double (f64_mul cf cf) /\ real (f64_mul cf cf) = rnd (real cf * real cf)).
  { apply mul_double; try assumption. apply in_huge. rewrite Rabs_mult.
    apply Rle_trans with (2 ^ 64 * 2 ^ 64).
    - apply Rmult_le_compat; try apply Rabs_pos; assumption.
    - rewrite <- pow_add. apply Rle_pow; [lra|lia]. }
  destruct DT as [DT RT].
  assert (Half : forall d v, double d -> double v -> real v <> 0 ->
     (double (f64_mul (f64_div d v) (f64_div d v)) /\
      real (f64_mul (f64_div d v) (f64_div d v)) = rnd (rnd (real d / real v) * rnd (real d / real v)))
     \/ f64_mul (f64_div d v) (f64_div d v) = S754_infinity false).
  { intros d v Dd Dv Nv. destruct (div_cases d v Dd Dv Nv) as [[D R]|[s E]].
    - destruct (square_cases _ D) as [[D2 R2]|E2]; [left|right; exact E2].
      split; [exact D2|]. now rewrite R2, R.
    - right. rewrite E. destruct s; reflexivity. }
  destruct (Half dA vA DA VA NA) as [[D1 R1]|E1].
  - destruct (Half dB vB DB VB NB) as [[D2 R2]|E2].
    + destruct (sum_cases _ _ D1 D2) as [[D3 R3]|E3].
      * rewrite R1. apply rnd_nonneg. nra.
      * rewrite R2. apply rnd_nonneg. nra.
      * rewrite (gt_real _ _ D3 DT), R3, RT, R1, R2 in H.
        destruct (Rlt_bool_spec (rnd (real cf * real cf)) (rnd (rnd (ra * ra) + rnd (rb * rb)))) as [L|L];
          [|exact L]. unfold ra, rb in H. fold ra rb in H. rewrite Rlt_bool_true in H by exact L. discriminate.
      * rewrite E3, gt_inf in H by exact DT. discriminate.
    + exfalso. rewrite E2 in H.
      assert (E3 : f64_add (f64_mul (f64_div dA vA) (f64_div dA vA)) (S754_infinity false) = S754_infinity false).
      { destruct D1 as [_ F]. destruct (f64_mul (f64_div dA vA) (f64_div dA vA)) as [ | | | ]; try discriminate; reflexivity. }
      rewrite E3, gt_inf in H by exact DT. discriminate.
  - exfalso. rewrite E1 in H.
    assert (E3 : f64_add (S754_infinity false) (f64_mul (f64_div dB vB) (f64_div dB vB)) = S754_infinity false).
    { destruct (Half dB vB DB VB NB) as [[[_ F] _]|E2].
      - destruct (f64_mul (f64_div dB vB) (f64_div dB vB)) as [ | | | ]; try discriminate; reflexivity.
      - rewrite E2. reflexivity. }
    rewrite E3, gt_inf in H by exact DT. discriminate.
Qed.

Lemma combined_bound x y f :
  Rabs f <= 2 ^ 64 ->
  (let ra := rnd x in let rb := rnd y in rnd (rnd (ra * ra) + rnd (rb * rb)) <= rnd (f * f)) ->
  x * x + y * y <= f * f * (1 + / 2 ^ 49) + / 2 ^ 1000.
Proof.
  cbv zeta. intros Hf H.
  pose proof (rnd_lower x) as Lx. pose proof (rnd_lower y) as Ly.
  set (ra := rnd x) in *. set (rb := rnd y) in *.
  pose proof (rnd_lower (ra * ra)) as La. pose proof (rnd_lower (rb * rb)) as Lb.
  assert (Sa : 0 <= ra * ra) by nra. assert (Sb : 0 <= rb * rb) by nra.
  pose proof (rnd_nonneg _ Sa) as Pa. pose proof (rnd_nonneg _ Sb) as Pb.
  pose proof (rnd_lower (rnd (ra * ra) + rnd (rb * rb))) as Ls.
  pose proof (rnd_nonneg (rnd (ra * ra) + rnd (rb * rb)) ltac:(lra)) as Ps.
  pose proof (rnd_upper (f * f)) as Uf.
  rewrite !(Rabs_pos_eq (ra * ra)), (Rabs_pos_eq (rnd (ra * ra))) in La by assumption.
  rewrite !(Rabs_pos_eq (rb * rb)), (Rabs_pos_eq (rnd (rb * rb))) in Lb by assumption.
  rewrite (Rabs_pos_eq (rnd (ra * ra) + rnd (rb * rb))), (Rabs_pos_eq (rnd (rnd (ra * ra) + rnd (rb * rb)))) in Ls
    by (assumption || lra).
  rewrite (Rabs_pos_eq (f * f)) in Uf by nra.
  assert (Sf : f * f <= 2 ^ 128).
  { replace (f * f) with (Rabs f * Rabs f) by (rewrite <- Rabs_mult; apply Rabs_pos_eq; nra).
    change 128%nat with (64 + 64)%nat. rewrite pow_add. apply Rmult_le_compat; try apply Rabs_pos; assumption. }
  assert (S0 : 0 <= f * f) by nra.
  pose proof u_small as U.
  assert (Eta : 0 < / 2 ^ 1075 /\ / 2 ^ 1075 * 2 ^ 66 <= / 2 ^ 1008 /\ / 2 ^ 1075 <= / 2 ^ 1008 /\ / 2 ^ 1008 <= / 1024).
  { split; [apply Rinv_0_lt_compat, pow2_pos|]. split; [|split].
    - change 1075%nat with (66 + 1009)%nat. rewrite pow_add, Rinv_mult.
      replace (/ 2 ^ 66 * / 2 ^ 1009 * 2 ^ 66) with (/ 2 ^ 1009) by (field; split; apply pow_nonzero; lra).
      apply Rinv_le_contravar; [apply pow2_pos|]. apply Rle_pow; [lra|lia].
    - apply Rinv_le_contravar; [apply pow2_pos|]. apply Rle_pow; [lra|lia].
    - replace 1024 with (2 ^ 10) by ring. apply Rinv_le_contravar; [apply pow2_pos|]. apply Rle_pow; [lra|lia]. }
  assert (E1000 : 256 * / 2 ^ 1008 = / 2 ^ 1000).
  { change 1008%nat with (8 + 1000)%nat. rewrite pow_add, Rinv_mult.
    replace (256 * (/ 2 ^ 8 * / 2 ^ 1000)) with (256 * / 2 ^ 8 * / 2 ^ 1000) by ring.
    replace (256 * / 2 ^ 8) with 1 by field. ring. }
  assert (E49 : / 2 ^ 49 = 16 * / 2 ^ 53) by field.
  rewrite E49, <- E1000. clear E49 E1000. unfold Rdiv in Uf.
  remember (/ 2 ^ 53) as u eqn:Eu. remember (/ 2 ^ 1075) as eta eqn:Ee. remember (/ 2 ^ 1008) as z eqn:Ez.
  clear Eu Ee Ez.
  set (A := rnd (ra * ra)) in *. set (B := rnd (rb * rb)) in *. set (V := rnd (A + B)) in *.
  set (T := rnd (f * f)) in *. set (F := f * f) in *.
  destruct Eta as (E0 & E1 & E2 & E3).
  assert (HT : T <= F * (1 + u) + eta) by lra.
  assert (HS : A + B <= (F * (1 + u) + 2 * eta) * (1 + 2 * u)).
  { eapply Rle_trans; [exact Ls|]. apply Rmult_le_compat_r; lra. }
  assert (Q0 : ra * ra + rb * rb <= (A + B + 2 * eta) * (1 + 2 * u)) by lra.
  (* the ratios are moderate *)
  assert (P128 : 0 < 2 ^ 128) by apply pow2_pos.
  assert (Big : ra * ra + rb * rb <= 2 ^ 130).
  { eapply Rle_trans; [exact Q0|].
    assert (1 <= 2 ^ 128) by (apply pow_R1_Rle; lra).
    assert (F * (1 + u) + 2 * eta <= 2 * 2 ^ 128) by nra.
    assert (0 <= F * (1 + u) + 2 * eta) by nra.
    assert (A + B <= 2 * 2 ^ 128 * (1 + 2 * / 1024)).
    { eapply Rle_trans; [exact HS|]. apply Rmult_le_compat; lra. }
    change (2 ^ 130) with (2 * (2 * 2 ^ 128)).
    assert (A + B + 2 * eta <= 3 * 2 ^ 128) by lra.
    apply Rle_trans with (3 * 2 ^ 128 * (1 + 2 * / 1024)); [|lra].
    apply Rmult_le_compat; lra. }
  assert (Mod : forall r, r * r <= 2 ^ 130 -> Rabs r <= 2 ^ 66).
  { intros r Hr. apply Rnot_lt_le. intros L.
    assert (2 ^ 66 * 2 ^ 66 < Rabs r * Rabs r).
    { pose proof (pow2_pos 66). nra. }
    rewrite <- Rabs_mult, Rabs_pos_eq, <- pow_add in H0 by nra.
    assert (2 ^ 130 <= 2 ^ (66 + 66)) by (apply Rle_pow; [lra|lia]). lra. }
  assert (Sq : forall x r, Rabs x <= (Rabs r + eta) * (1 + 2 * u) -> r * r <= 2 ^ 130 ->
    x * x <= (r * r + 3 * z) * ((1 + 2 * u) * (1 + 2 * u))).
  { intros x0 r Hx Hr. pose proof (Mod r Hr) as M.
    replace (x0 * x0) with (Rabs x0 * Rabs x0) by (rewrite <- Rabs_mult; apply Rabs_pos_eq; nra).
    apply Rle_trans with ((Rabs r + eta) * (1 + 2 * u) * ((Rabs r + eta) * (1 + 2 * u))).
    - apply Rmult_le_compat; try apply Rabs_pos; assumption.
    - replace ((Rabs r + eta) * (1 + 2 * u) * ((Rabs r + eta) * (1 + 2 * u)))
        with ((Rabs r * Rabs r + 2 * (eta * Rabs r) + eta * eta) * ((1 + 2 * u) * (1 + 2 * u))) by ring.
      apply Rmult_le_compat_r; [nra|].
      rewrite <- Rabs_mult, (Rabs_pos_eq (r * r)) by nra.
      assert (eta * Rabs r <= z).
      { eapply Rle_trans; [|exact E1]. apply Rmult_le_compat_l; lra. }
      assert (eta * eta <= z) by nra. lra. }
  pose proof (Sq x ra Lx ltac:(lra)) as X1. pose proof (Sq y rb Ly ltac:(lra)) as Y1.
  assert (W : x * x + y * y <= (ra * ra + rb * rb + 6 * z) * ((1 + 2 * u) * (1 + 2 * u))) by lra.
  assert (W2 : ra * ra + rb * rb <= ((F * (1 + u) + 2 * z) * (1 + 2 * u) + 2 * z) * (1 + 2 * u)).
  { eapply Rle_trans; [exact Q0|]. apply Rmult_le_compat_r; [lra|].
    assert ((F * (1 + u) + 2 * eta) * (1 + 2 * u) <= (F * (1 + u) + 2 * z) * (1 + 2 * u)) by (apply Rmult_le_compat_r; lra).
    lra. }
  clear - W W2 U E3 E0 E2 S0.
  set (k := 1 + 2 * u) in *.
  assert (K : 1 <= k <= 1 + 2 * / 1024) by (unfold k; lra).
  assert (Z0 : 0 <= z) by lra.
  eapply Rle_trans; [exact W|].
  apply Rle_trans with ((((F * (1 + u) + 2 * z) * k + 2 * z) * k + 6 * z) * (k * k)).
  { apply Rmult_le_compat_r; nra. }
  replace ((((F * (1 + u) + 2 * z) * k + 2 * z) * k + 6 * z) * (k * k))
    with (F * ((1 + u) * (k * k * (k * k))) + z * (2 * (k * k) * (k * k) + 2 * k * (k * k) + 6 * (k * k))) by ring.
  assert (K2 : k * k <= 1 + 5 * u) by (unfold k; nra).
  assert (K20 : 1 <= k * k) by nra.
  assert (K4 : k * k * (k * k) <= 1 + 11 * u).
  { apply Rle_trans with ((1 + 5 * u) * (1 + 5 * u)); [apply Rmult_le_compat; lra | nra]. }
  assert (K5 : (1 + u) * (k * k * (k * k)) <= 1 + 16 * u).
  { apply Rle_trans with ((1 + u) * (1 + 11 * u)); [apply Rmult_le_compat_l; lra | nra]. }
  assert (KZ : 2 * (k * k) * (k * k) + 2 * k * (k * k) + 6 * (k * k) <= 256) by nra.
  assert (F * ((1 + u) * (k * k * (k * k))) <= F * (1 + 16 * u)) by (apply Rmult_le_compat_l; lra).
  assert (z * (2 * (k * k) * (k * k) + 2 * k * (k * k) + 6 * (k * k)) <= z * 256) by (apply Rmult_le_compat_l; lra).
  lra.
Qed.
