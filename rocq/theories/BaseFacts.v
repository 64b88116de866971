(** Lemmas and tactics about results and checked integers. *)
From Coq Require Import ZArith List Bool Lia ZifyBool.
From Verif Require Import Base.
Import ListNotations.
Open Scope Z_scope.

Lemma bind_ok {A B} (m : res A) (f : A -> res B) b :
  bind m f = Ok b -> exists a, m = Ok a /\ f a = Ok b.
Proof. destruct m; cbn; intros H; [eauto | discriminate]. Qed.

Lemma bind_Ok {A B} (a : A) (f : A -> res B) : bind (Ok a) f = f a.
Proof. reflexivity. Qed.

Lemma require_ok c e u : require c e = Ok u -> c = true.
Proof. unfold require; destruct c; congruence. Qed.
Lemma massert_ok c u : massert c = Ok u -> c = true.
Proof. apply require_ok. Qed.
Lemma unwrap_ok {A} (o : option A) a : unwrap o = Ok a -> o = Some a.
Proof. destruct o; cbn; congruence. Qed.
Lemma chk_ok p z v : chk p z = Ok v -> v = z /\ p z = true.
Proof. unfold chk; destruct (p z); intros H; inversion H; auto. Qed.
Lemma chk_i64_ok z v : chk_i64 z = Ok v ->
  v = z /\ -9223372036854775808 <= z <= 9223372036854775807.
Proof.
  intros H; apply chk_ok in H as [-> H].
  unfold in_i64, in_range, i64_min, i64_max in H. split; [reflexivity | lia].
Qed.
Lemma chk_u64_ok z v : chk_u64 z = Ok v -> v = z /\ 0 <= z <= 18446744073709551615.
Proof.
  intros H; apply chk_ok in H as [-> H].
  unfold in_u64, in_range, u64_max in H. split; [reflexivity | lia].
Qed.
Lemma chk_u128_ok z v : chk_u128 z = Ok v ->
  v = z /\ 0 <= z <= 340282366920938463463374607431768211455.
Proof.
  intros H; apply chk_ok in H as [-> H].
  unfold in_u128, in_range, u128_max in H. split; [reflexivity | lia].
Qed.
Lemma chk_i128_ok z v : chk_i128 z = Ok v ->
  v = z /\ -170141183460469231731687303715884105728 <= z <= 170141183460469231731687303715884105727.
Proof.
  intros H; apply chk_ok in H as [-> H].
  unfold in_i128, in_range, i128_min, i128_max in H. split; [reflexivity | lia].
Qed.

Lemma chk_i64_in z : -9223372036854775808 <= z <= 9223372036854775807 -> chk_i64 z = Ok z.
Proof. intros H. unfold chk_i64, chk, in_i64, in_range, i64_min, i64_max.
  replace (_ && _) with true by lia. reflexivity. Qed.
Lemma chk_u64_in z : 0 <= z <= 18446744073709551615 -> chk_u64 z = Ok z.
Proof. intros H. unfold chk_u64, chk, in_u64, in_range, u64_max.
  replace (_ && _) with true by lia. reflexivity. Qed.
Lemma chk_u128_in z : 0 <= z <= 340282366920938463463374607431768211455 -> chk_u128 z = Ok z.
Proof. intros H. unfold chk_u128, chk, in_u128, in_range, u128_max.
  replace (_ && _) with true by lia. reflexivity. Qed.
Lemma chk_i128_in z :
  -170141183460469231731687303715884105728 <= z <= 170141183460469231731687303715884105727 ->
  chk_i128 z = Ok z.
Proof. intros H. unfold chk_i128, chk, in_i128, in_range, i128_min, i128_max.
  replace (_ && _) with true by lia. reflexivity. Qed.

Lemma as_u64_id z : 0 <= z <= 18446744073709551615 -> as_u64 z = z.
Proof. intros H. unfold as_u64, two64. apply Z.mod_small. lia. Qed.
Lemma as_i64_id z : -9223372036854775808 <= z <= 9223372036854775807 -> as_i64 z = z.
Proof.
  intros H. unfold as_i64, two64, two63. cbv zeta.
  destruct (Z.ltb_spec z 0).
  - replace (z mod 18446744073709551616) with (z + 18446744073709551616).
    + replace (_ <? _) with false by lia. lia.
    + rewrite <- (Z.mod_small (z + 18446744073709551616) 18446744073709551616) by lia.
      rewrite <- (Z_mod_plus_full z 1 18446744073709551616). f_equal; lia.
  - rewrite Z.mod_small by lia. replace (_ <? _) with true by lia. reflexivity.
Qed.

Lemma div_i64_ok a b v : div_i64 a b = Ok v -> b <> 0 /\ v = Z.quot a b /\
  -9223372036854775808 <= v <= 9223372036854775807.
Proof.
  unfold div_i64. destruct (b =? 0) eqn:E; [discriminate|].
  intros H; apply chk_i64_ok in H as [-> H]. split; [lia | auto].
Qed.

(** Break a successful computation into its steps. *)
Ltac chk_inv E :=
  first
    [ apply chk_i64_ok in E as [? E]
    | apply chk_u64_ok in E as [? E]
    | apply chk_u128_ok in E as [? E]
    | apply chk_i128_ok in E as [? E]
    | apply massert_ok in E
    | apply require_ok in E
    | apply unwrap_ok in E
    | apply div_i64_ok in E as (? & ? & E) ].

Ltac ok_inv1 H :=
  lazymatch type of H with
  | bind _ _ = Ok _ =>
      let x := fresh "x" in let E := fresh "E" in
      apply bind_ok in H; destruct H as (x & E & H); cbn beta in H
  | Err _ = Ok _ => discriminate H
  | chk_i64 _ = Ok _ => apply chk_i64_ok in H as [? H]
  | chk_u64 _ = Ok _ => apply chk_u64_ok in H as [? H]
  | chk_u128 _ = Ok _ => apply chk_u128_ok in H as [? H]
  | chk_i128 _ = Ok _ => apply chk_i128_ok in H as [? H]
  | chk _ _ = Ok _ => apply chk_ok in H as [? H]
  | require _ _ = Ok _ => apply require_ok in H
  | massert _ = Ok _ => apply massert_ok in H
  | unwrap _ = Ok _ => apply unwrap_ok in H
  | div_i64 _ _ = Ok _ => apply div_i64_ok in H as (? & ? & H)
  | (let (_, _) := ?p in _) = Ok _ => destruct p
  end.

Lemma upd_same {A} (f : Z -> A) i v : upd f i v i = v.
Proof. unfold upd. rewrite Z.eqb_refl. reflexivity. Qed.
Lemma upd_other {A} (f : Z -> A) i j v : j <> i -> upd f i v j = f j.
Proof. intros H. unfold upd. destruct (Z.eqb_spec j i); congruence. Qed.

Lemma set_nth_length {A} n (v : A) l : length (set_nth n v l) = length l.
Proof. revert n; induction l as [|x l IH]; intros [|n]; cbn; auto. Qed.
Lemma nth_error_set_nth_eq {A} n (v : A) l : (n < length l)%nat -> nth_error (set_nth n v l) n = Some v.
Proof.
  revert n; induction l as [|x l IH]; intros [|n]; cbn; intros H; try lia; auto.
  apply IH. lia.
Qed.
Lemma nth_error_set_nth_neq {A} n m (v : A) l : n <> m -> nth_error (set_nth n v l) m = nth_error l m.
Proof.
  revert n m; induction l as [|x l IH]; intros [|n] [|m]; cbn; intros H; auto; congruence.
Qed.

Lemma sumZ_app l1 l2 : sumZ (l1 ++ l2) = sumZ l1 + sumZ l2.
Proof. unfold sumZ. induction l1 as [|x l IH]; cbn; [lia|]. rewrite IH. lia. Qed.
Lemma sumZ_nonneg l : (forall x, In x l -> 0 <= x) -> 0 <= sumZ l.
Proof.
  unfold sumZ. induction l as [|x l IH]; cbn; intros H; [lia|].
  pose proof (H x (or_introl eq_refl)). pose proof (IH (fun y Hy => H y (or_intror Hy))). lia.
Qed.
