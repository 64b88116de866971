(** Leading zeros, critical bits and prefixes of 128-bit keys. *)
From Coq Require Import ZArith List Bool Lia ZifyBool.
From Verif Require Import Base Nodes BaseFacts.
Open Scope Z_scope.

Definition two128 : Z := 2 ^ 128.

Lemma crit_bit_testbit p key : 0 <= p <= 127 -> crit_bit_of p key = Z.testbit key (127 - p).
Proof.
  intros Hp. unfold crit_bit_of.
  destruct (Z.testbit key (127 - p)) eqn:E.
  - destruct (Z.eqb_spec (Z.land key (Z.shiftl 1 (127 - p))) 0) as [H|]; [exfalso|reflexivity].
    assert (Hb : Z.testbit (Z.land key (Z.shiftl 1 (127 - p))) (127 - p) = true).
    { rewrite Z.land_spec, E, Z.shiftl_spec by lia. rewrite Z.sub_diag. reflexivity. }
    rewrite H, Z.bits_0 in Hb. discriminate.
  - destruct (Z.eqb_spec (Z.land key (Z.shiftl 1 (127 - p))) 0) as [|H]; [reflexivity|exfalso].
    apply H. apply Z.bits_inj'. intros n Hn. rewrite Z.land_spec, Z.bits_0.
    rewrite Z.shiftl_spec by lia. destruct (Z.eq_dec n (127 - p)) as [->|Hne].
    + rewrite E. reflexivity.
    + replace (Z.testbit 1 (n - (127 - p))) with false; [apply andb_false_r|].
      symmetry. destruct (Z.ltb_spec (n - (127 - p)) 0).
      * apply Z.testbit_neg_r. lia.
      * change 1 with (2 ^ 0). apply Z.pow2_bits_false. lia.
Qed.

Lemma div_pow2_S key m : 0 <= m ->
  key / 2 ^ m = 2 * (key / 2 ^ (m + 1)) + Z.b2z (Z.testbit key m).
Proof.
  intros Hm. rewrite Z.testbit_spec' by lia.
  replace (key / 2 ^ (m + 1)) with (key / 2 ^ m / 2).
  - pose proof (Z.div_mod (key / 2 ^ m) 2). lia.
  - rewrite Z.div_div by (try apply Z.pow_pos_nonneg; lia).
    replace (2 ^ m * 2) with (2 ^ (m + 1)); [reflexivity|].
    rewrite Z.pow_add_r by lia. reflexivity.
Qed.

Lemma div_pow2_le a b n n' : 0 <= n <= n' -> a / 2 ^ n = b / 2 ^ n -> a / 2 ^ n' = b / 2 ^ n'.
Proof.
  intros Hn H. replace n' with (n + (n' - n)) by lia.
  rewrite Z.pow_add_r by lia. rewrite <- !Z.div_div by (try apply Z.pow_pos_nonneg; lia).
  rewrite H. reflexivity.
Qed.

Lemma div_pow2_lt a b n : 0 <= n -> a / 2 ^ n < b / 2 ^ n -> a < b.
Proof.
  intros Hn H. destruct (Z.ltb_spec a b); [assumption|exfalso].
  assert (0 < 2 ^ n) by (apply Z.pow_pos_nonneg; lia).
  assert (b / 2 ^ n <= a / 2 ^ n) by (apply Z.div_le_mono; lia). lia.
Qed.

Lemma shiftr_eq_div a b n : 0 <= n ->
  a / 2 ^ n = b / 2 ^ n <-> Z.shiftr (Z.lxor a b) n = 0.
Proof.
  intros Hn. rewrite Z.shiftr_lxor, <- !Z.shiftr_div_pow2 by lia.
  split; [intros ->; apply Z.lxor_nilpotent | apply Z.lxor_eq].
Qed.

Section lz.
  Variables a b : Z.
  Hypothesis Ha : 0 <= a < two128.
  Hypothesis Hb : 0 <= b < two128.
  Let c := Z.lxor a b.
  Let s := leading_zeros128 c.

  Lemma lz_c_nonneg : 0 <= c.
  Proof. apply Z.lxor_nonneg. lia. Qed.

  Lemma lz_c_zero : c = 0 <-> a = b.
  Proof. split; [apply Z.lxor_eq | intros E; unfold c; rewrite E; apply Z.lxor_nilpotent]. Qed.

  Lemma lz_log2 : 0 < c -> 0 <= Z.log2 c <= 127.
  Proof.
    intros Hc. split; [apply Z.log2_nonneg|].
    pose proof (Z.log2_lxor a b ltac:(lia) ltac:(lia)) as H. fold c in H.
    assert (La : Z.log2 a <= 127).
    { destruct (Z.eq_dec a 0) as [->|]; [vm_compute; discriminate|].
      assert (Z.log2 a < 128) by (apply Z.log2_lt_pow2; unfold two128 in Ha; lia). lia. }
    assert (Lb : Z.log2 b <= 127).
    { destruct (Z.eq_dec b 0) as [->|]; [vm_compute; discriminate|].
      assert (Z.log2 b < 128) by (apply Z.log2_lt_pow2; unfold two128 in Hb; lia). lia. }
    lia.
  Qed.

  Lemma lz_range : 0 <= s <= 128.
  Proof.
    unfold s, leading_zeros128. destruct (Z.eqb_spec c 0); [lia|].
    pose proof lz_c_nonneg. pose proof (lz_log2 ltac:(lia)). lia.
  Qed.

  Lemma lz_full : s = 128 <-> a = b.
  Proof.
    rewrite <- lz_c_zero. unfold s, leading_zeros128. destruct (Z.eqb_spec c 0); [tauto|].
    pose proof lz_c_nonneg. pose proof (lz_log2 ltac:(lia)). lia.
  Qed.

  Lemma lz_prefix p : 0 <= p <= 128 -> p <= s <-> a / 2 ^ (128 - p) = b / 2 ^ (128 - p).
  Proof.
    intros Hp. rewrite shiftr_eq_div by lia. fold c.
    unfold s, leading_zeros128. destruct (Z.eqb_spec c 0) as [E|E].
    - rewrite E, Z.shiftr_0_l. lia.
    - pose proof lz_c_nonneg. pose proof (lz_log2 ltac:(lia)).
      rewrite Z.shiftr_eq_0_iff. lia.
  Qed.

  Lemma lz_differ : a <> b -> Z.testbit a (127 - s) = negb (Z.testbit b (127 - s)).
  Proof.
    intros Hne. unfold s, leading_zeros128.
    destruct (Z.eqb_spec c 0) as [E|E]; [apply lz_c_zero in E; contradiction|].
    pose proof lz_c_nonneg as Hc. replace (127 - (127 - Z.log2 c)) with (Z.log2 c) by lia.
    pose proof (Z.bit_log2 c ltac:(lia)) as Hbit.
    assert (Hx : Z.testbit c (Z.log2 c) = xorb (Z.testbit a (Z.log2 c)) (Z.testbit b (Z.log2 c)))
      by (unfold c at 1; apply Z.lxor_spec).
    rewrite Hbit in Hx. destruct (Z.testbit a _), (Z.testbit b _); cbn in *; congruence.
  Qed.
End lz.
