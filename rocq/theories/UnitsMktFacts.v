(** The exported conversions of market.ts. *)
From Coq Require Import ZArith Reals Psatz Bool List SpecFloat.
From Flocq Require Import Core.
From Verif Require Import Base Nodes OrderTree BookSide Heap Market OpenOrders Order Book Instructions Bytes
  SpecFees SpecOrder SpecSystem Oracle SpecOracle FloatFacts OracleFacts Units SpecUnits UnitsFacts UnitsMkt.
Import ListNotations.
Open Scope R_scope.

Lemma native_exact d N p : (0 <= d <= 15)%Z -> (0 <= N <= 2 ^ 50)%Z -> nearest (tokens N d) p -> ts_to_native p d = Some N.
Proof.
  intros Hd HN Np. pose proof (ten15 _ Hd) as Tb.
  assert (R : tokens N d = IZR N / IZR (10 ^ d)).
  { unfold tokens. destruct (tens _ (proj1 Hd)) as [Eb Pb]. rewrite Eb. reflexivity. }
  destruct (nearest_rel _ p _ (10 ^ d) Np R HN ltac:(lia)) as (Dp & P0 & T & P1 & f & C & E).
  assert (Z1 : 1 <= IZR (10 ^ d)) by (apply IZR_le; lia).
  destruct (to_native_near p d (IZR N) f 1 Dp Hd) as (n & En & N0 & Hn).
  - rewrite <- (Rmult_1_r (real p)), <- (Rinv_r (IZR (10 ^ d))) by lra. rewrite <- Rmult_assoc, E. unfold Rdiv. ring.
  - exact C.
  - lra.
  - split; [apply IZR_le; lia | apply pow50; lia].
  - destruct T as [T|T]; [now left|right]. eapply Rle_trans; [|exact T].
    apply Rinv_le_contravar; [apply pow2_pos|]. apply Rle_pow; [lra|lia].
  - apply same_int in Hn. now subst n.
Qed.

Lemma native_near d p : (0 <= d <= 15)%Z -> double p -> 0 <= real p -> not_tiny (real p) -> real p * IZR (10 ^ d) <= 2 ^ 50 ->
  exists n, ts_to_native p d = Some n /\ (0 <= n)%Z /\ Rabs (IZR n - real p * IZR (10 ^ d)) < 1.
Proof.
  intros Hd Dp P T L. pose proof (ten15 _ Hd) as H10.
  assert (Z1 : 1 <= IZR (10 ^ d)) by (apply IZR_le; lia).
  apply (to_native_near p _ _ 1 0 Dp Hd).
  - field. lra.
  - unfold close. lra.
  - lra.
  - split; [apply Rmult_le_pos; lra | exact L].
  - destruct T as [T|T]; [now left|right]. eapply Rle_trans; [|exact T].
    apply Rinv_le_contravar; [apply pow2_pos|]. apply Rle_pow; [lra|lia].
Qed.

(** A price of whole smallest units. *)
Lemma unit_price x m k j : usual x m -> price_of x m k = tokens j (mr_quote_decimals x) ->
  (k * qls m * 10 ^ mr_base_decimals x = j * bls m)%Z.
Proof.
  intros U E. pose proof U as [Hb Hq HB HQ]. rewrite (price_of_ratio x m k U) in E. unfold tokens in E.
  destruct (tens _ (proj1 Hq)) as [Eq Pq]. rewrite Eq in E.
  assert (B1 : 1 <= IZR (bls m)) by (apply IZR_le; lia).
  rewrite (mult_IZR (bls m)) in E. apply eq_IZR. rewrite (mult_IZR j).
  apply Rmult_eq_reg_r with (/ (IZR (bls m) * IZR (10 ^ mr_quote_decimals x))).
  2:{ apply Rinv_neq_0_compat. apply Rmult_integral_contrapositive. lra. }
  unfold Rdiv in E. rewrite E. field. lra.
Qed.

Theorem ui_price_exact x m k j p : usual x m -> (0 <= k)%Z -> price_of x m k = tokens j (mr_quote_decimals x) -> (j <= 2 ^ 50)%Z ->
  nearest (price_of x m k) p -> ts_ui_price_to_lots x m p = Some k.
Proof.
  intros U K E J Np. pose proof U as [Hb Hq HB HQ]. pose proof (unit_price x m k j U E) as I.
  pose proof (ten15 _ Hb) as Tb. rewrite E in Np.
  assert (J0 : (0 <= j)%Z) by nia.
  unfold ts_ui_price_to_lots. rewrite (decimals_below x m U), (native_exact _ j p Hq ltac:(lia) Np). cbn [option_map]. f_equal.
  rewrite <- I. rewrite <- Z.mul_assoc. apply quot_exact. nia.
Qed.

Theorem ui_base_exact x m n p : usual x m -> (0 <= n)%Z -> (n * bls m <= 2 ^ 50)%Z -> nearest (size_of x m n) p -> ts_ui_base_to_lots x m p = Some n.
Proof. exact (size_exact x m n p). Qed.

Theorem ui_quote_exact x m n p : usual x m -> (0 <= n)%Z -> (n * qls m <= 2 ^ 50)%Z ->
  nearest (tokens (n * qls m) (mr_quote_decimals x)) p -> ts_ui_quote_to_lots x m p = Some n.
Proof.
  intros U N L Np. pose proof U as [Hb Hq HB HQ]. unfold ts_ui_quote_to_lots.
  rewrite (native_exact _ (n * qls m) p Hq ltac:(nia) Np). cbn [option_map]. f_equal. apply quot_exact. lia.
Qed.

Theorem ui_price_near x m p : usual x m -> double p -> 0 <= real p -> not_tiny (real p) ->
  real p * IZR (10 ^ mr_quote_decimals x) <= 2 ^ 50 ->
  exists k, ts_ui_price_to_lots x m p = Some k /\ (0 <= k)%Z /\
  price_of x m k < real p + tokens 1 (mr_quote_decimals x) /\ real p < price_of x m (k + 1) + tokens 1 (mr_quote_decimals x).
Proof.
  intros U Dp P0 T L. pose proof U as [Hb Hq HB HQ].
  pose proof (ten15 _ Hb) as Tb. pose proof (ten15 _ Hq) as Tq.
  destruct (native_near _ p Hq Dp P0 T L) as (n & En & N0 & Hn). apply Rabs_def2 in Hn.
  unfold ts_ui_price_to_lots. rewrite (decimals_below x m U), En. cbn [option_map].
  set (D := (qls m * 10 ^ mr_base_decimals x)%Z). assert (HD : (0 < D)%Z) by (unfold D; nia).
  rewrite Z.quot_div_nonneg by nia.
  pose proof (Z_div_mod_eq_full (n * bls m) D) as E. pose proof (Z.mod_pos_bound (n * bls m) D HD) as M.
  assert (R0 : (0 <= n * bls m / D)%Z) by (apply Z.div_pos; nia).
  set (k := (n * bls m / D)%Z) in *. exists k. split; [reflexivity|]. split; [exact R0|].
  rewrite !price_of_ratio by exact U.
  replace (k * qls m * 10 ^ mr_base_decimals x)%Z with (k * D)%Z by (unfold D; ring).
  replace ((k + 1) * qls m * 10 ^ mr_base_decimals x)%Z with ((k + 1) * D)%Z by (unfold D; ring).
  unfold tokens. destruct (tens _ (proj1 Hq)) as [Eq Pq]. rewrite Eq. rewrite (mult_IZR (bls m)).
  assert (B1 : 1 <= IZR (bls m)) by (apply IZR_le; lia).
  assert (A : (k * D <= n * bls m)%Z) by nia. assert (B : (n * bls m < (k + 1) * D)%Z) by nia.
  apply IZR_le in A. apply IZR_lt in B. rewrite (mult_IZR n) in A, B.
  set (T10 := IZR (10 ^ mr_quote_decimals x)) in *.
  split; apply Rmult_lt_reg_r with (IZR (bls m) * T10); try (apply Rmult_lt_0_compat; lra).
  - replace (IZR (k * D) / (IZR (bls m) * T10) * (IZR (bls m) * T10)) with (IZR (k * D)) by (field; lra).
    replace ((real p + 1 * / T10) * (IZR (bls m) * T10)) with ((real p * T10 + 1) * IZR (bls m)) by (field; lra).
    apply Rle_lt_trans with (IZR n * IZR (bls m)); [exact A|]. apply Rmult_lt_compat_r; lra.
  - replace ((IZR ((k + 1) * D) / (IZR (bls m) * T10) + 1 * / T10) * (IZR (bls m) * T10)) with (IZR ((k + 1) * D) + IZR (bls m)) by (field; lra).
    replace (real p * (IZR (bls m) * T10)) with (real p * T10 * IZR (bls m)) by ring.
    apply Rlt_trans with ((IZR n + 1) * IZR (bls m)); [apply Rmult_lt_compat_r; lra|]. lra.
Qed.

(** Both conversions of a price on a tick agree where both are exact. *)
Theorem ui_price_same x m k j p : usual x m -> (0 <= k)%Z -> price_of x m k = tokens j (mr_quote_decimals x) ->
  (j * bls m <= 2 ^ 50)%Z -> nearest (price_of x m k) p -> ts_ui_price_to_lots x m p = ts_price_lots x m p.
Proof.
  intros U K E J Np. pose proof U as [Hb Hq HB HQ]. pose proof (unit_price x m k j U E) as I.
  pose proof (ten15 _ Hb) as Tb. assert (0 <= j)%Z by nia.
  rewrite (price_exact x m k p U K ltac:(lia) Np). apply (ui_price_exact x m k j); try assumption. nia.
Qed.

(** Quote units for one base unit. *)
Theorem price_native x m k : usual x m -> (0 <= k)%Z ->
  IZR (ts_price_to_native m k) <= price_of x m k * powerRZ 10 (mr_quote_decimals x - mr_base_decimals x) < IZR (ts_price_to_native m k + 1).
Proof.
  intros U K. pose proof U as [Hb Hq HB HQ].
  destruct (tens _ (proj1 Hb)) as [Eb Pb]. destruct (tens _ (proj1 Hq)) as [Eq Pq].
  assert (B1 : 1 <= IZR (bls m)) by (apply IZR_le; lia).
  assert (V : price_of x m k * powerRZ 10 (mr_quote_decimals x - mr_base_decimals x) = IZR (k * qls m) / IZR (bls m)).
  { unfold Z.sub. rewrite powerRZ_add by lra. rewrite price_of_ratio by exact U.
    rewrite Eb, ten_int by lia. rewrite !mult_IZR. field. lra. }
  rewrite V. unfold ts_price_to_native. rewrite Z.quot_div_nonneg by nia.
  pose proof (Z_div_mod_eq_full (k * qls m) (bls m)) as E. pose proof (Z.mod_pos_bound (k * qls m) (bls m) ltac:(lia)) as M.
  set (r := (k * qls m / bls m)%Z) in *.
  assert (A : (r * bls m <= k * qls m)%Z) by nia. assert (B : (k * qls m < (r + 1) * bls m)%Z) by nia.
  apply IZR_le in A. apply IZR_lt in B. rewrite (mult_IZR r) in A. rewrite (mult_IZR (r + 1)) in B.
  split; [apply Rmult_le_reg_r with (IZR (bls m)) | apply Rmult_lt_reg_r with (IZR (bls m))]; try lra;
    unfold Rdiv; rewrite Rmult_assoc, Rinv_l by lra; lra.
Qed.
