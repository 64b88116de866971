(** Facts about order keys and price data. *)
From Coq Require Import ZArith List Bool Lia ZifyBool.
From Verif Require Import Base Nodes BaseFacts.
Import ListNotations.
Open Scope Z_scope.

Lemma lor_shift64 a b : 0 <= b < 18446744073709551616 ->
  Z.lor (Z.shiftl a 64) b = a * 18446744073709551616 + b.
Proof.
  intros Hb.
  assert (Hd : Z.land (Z.shiftl a 64) b = 0).
  { apply Z.bits_inj'. intros n Hn. rewrite Z.land_spec, Z.bits_0.
    destruct (Z.ltb_spec n 64).
    - rewrite Z.shiftl_spec_low by lia. reflexivity.
    - destruct (Z.eq_dec b 0) as [->|]; [rewrite Z.bits_0; apply andb_false_r|].
      rewrite (Z.bits_above_log2 b n), ?andb_false_r; [reflexivity|lia|].
      apply Z.log2_lt_pow2; [lia|]. eapply Z.lt_le_trans; [apply Hb|].
      change 18446744073709551616 with (2 ^ 64). apply Z.pow_le_mono_r; lia. }
  rewrite <- Z.lxor_lor by exact Hd. rewrite <- Z.add_nocarry_lxor by exact Hd.
  rewrite Z.shiftl_mul_pow2 by lia. reflexivity.
Qed.

Definition key_low (s : side) (seq : Z) : Z :=
  match s with Bid => 18446744073709551615 - seq | Ask => seq end.

Lemma new_node_key_eq s pd seq : 0 <= seq <= 18446744073709551615 ->
  new_node_key s pd seq = pd * 18446744073709551616 + key_low s seq.
Proof.
  intros H. unfold new_node_key, key_low. cbv zeta. unfold u64_max.
  destruct s; apply lor_shift64; lia.
Qed.

Lemma leaf_price_data_key l s pd seq :
  0 <= pd <= 18446744073709551615 -> 0 <= seq <= 18446744073709551615 ->
  lf_key l = new_node_key s pd seq -> leaf_price_data l = pd.
Proof.
  intros Hp Hs Hk. unfold leaf_price_data. rewrite Hk, new_node_key_eq by lia.
  rewrite Z.shiftr_div_pow2 by lia. change (2 ^ 64) with 18446744073709551616.
  assert (0 <= key_low s seq < 18446744073709551616) by (unfold key_low; destruct s; lia).
  rewrite Z.div_add_l by lia. rewrite Z.div_small by lia. rewrite Z.add_0_r.
  apply as_u64_id. lia.
Qed.

Lemma oracle_pegged_price_data_eq off :
  -9223372036854775808 <= off <= 9223372036854775807 ->
  oracle_pegged_price_data off = off + 9223372036854775808.
Proof.
  intros H. unfold oracle_pegged_price_data, as_u64, two64, two63.
  rewrite Zplus_mod_idemp_l. apply Z.mod_small. lia.
Qed.

Lemma oracle_pegged_price_offset_eq pd :
  0 <= pd <= 18446744073709551615 ->
  oracle_pegged_price_offset pd = pd - 9223372036854775808.
Proof.
  intros H. unfold oracle_pegged_price_offset, as_i64, as_u64, two64, two63. cbv zeta.
  rewrite Zmod_mod.
  destruct (Z.ltb_spec pd 9223372036854775808).
  - replace ((pd - 9223372036854775808) mod 18446744073709551616)
      with (pd + 9223372036854775808).
    + replace (_ <? _) with false by lia. lia.
    + rewrite <- (Z.mod_small (pd + 9223372036854775808) 18446744073709551616) by lia.
      rewrite <- (Z_mod_plus_full (pd - 9223372036854775808) 1 18446744073709551616).
      f_equal. lia.
  - rewrite Z.mod_small by lia. replace (_ <? _) with true by lia. reflexivity.
Qed.

Lemma fixed_price_data_ok p v : -9223372036854775808 <= p <= 9223372036854775807 ->
  fixed_price_data p = Ok v -> 1 <= p /\ v = p.
Proof.
  intros Hp H. unfold fixed_price_data in H. ok_inv1 H. ok_inv1 E.
  injection H as <-. rewrite as_u64_id by lia. lia.
Qed.

Lemma fixed_price_lots_eq pd : 0 <= pd <= 9223372036854775807 -> fixed_price_lots pd = Ok pd.
Proof.
  intros H. unfold fixed_price_lots, massert, require, i64_max.
  replace (_ <=? _) with true by lia. cbn [bind]. rewrite as_i64_id by lia. reflexivity.
Qed.
