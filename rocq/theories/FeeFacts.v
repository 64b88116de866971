(** Arithmetic of fees. *)
From Coq Require Import ZArith List Bool Lia ZifyBool.
From Verif Require Import Base Nodes Market BaseFacts SpecFees.
Import ListNotations.
Open Scope Z_scope.

Lemma fee_up_bounds f a : a * f <= fee_up f a * 1000000 < a * f + 1000000.
Proof.
  unfold fee_up. pose proof (Z.div_mod (- (a * f)) 1000000 ltac:(lia)).
  pose proof (Z.mod_pos_bound (- (a * f)) 1000000 ltac:(lia)). lia.
Qed.
Lemma fee_down_bounds f a : fee_down f a * 1000000 <= a * f < fee_down f a * 1000000 + 1000000.
Proof.
  unfold fee_down. pose proof (Z.div_mod (a * f) 1000000 ltac:(lia)).
  pose proof (Z.mod_pos_bound (a * f) 1000000 ltac:(lia)). lia.
Qed.
Lemma fee_up_nonneg f a : 0 <= f -> 0 <= a -> 0 <= fee_up f a.
Proof. intros Hf Ha. pose proof (fee_up_bounds f a). nia. Qed.
Lemma fee_down_nonneg f a : 0 <= f -> 0 <= a -> 0 <= fee_down f a.
Proof. intros Hf Ha. pose proof (fee_down_bounds f a). nia. Qed.
Lemma fee_up_le f a : f <= 1000000 -> 0 <= a -> fee_up f a <= a.
Proof. intros Hf Ha. pose proof (fee_up_bounds f a). nia. Qed.
Lemma fee_down_le f a : f <= 1000000 -> 0 <= a -> fee_down f a <= a.
Proof. intros Hf Ha. pose proof (fee_down_bounds f a). nia. Qed.
Lemma fee_down_up f a : fee_down f a <= fee_up f a.
Proof. pose proof (fee_down_bounds f a). pose proof (fee_up_bounds f a). lia. Qed.
Lemma fee_split f a b : fee_down f a + fee_up f b <= fee_up f (a + b).
Proof.
  pose proof (fee_down_bounds f a). pose proof (fee_up_bounds f b). pose proof (fee_up_bounds f (a + b)). lia.
Qed.
Lemma fee_down_mono f a b : 0 <= f -> a <= b -> fee_down f a <= fee_down f b.
Proof. intros Hf H. unfold fee_down. apply Z.div_le_mono; [lia|]. nia. Qed.
Lemma fee_up_mono f a b : 0 <= f -> a <= b -> fee_up f a <= fee_up f b.
Proof.
  intros Hf H. pose proof (fee_up_bounds f a). pose proof (fee_up_bounds f b). nia.
Qed.
Lemma fee_down_rate f g a : 0 <= a -> f <= g -> fee_down f a <= fee_down g a.
Proof. intros Ha H. unfold fee_down. apply Z.div_le_mono; [lia|]. nia. Qed.
Lemma fee_up_zero f : fee_up f 0 = 0.
Proof. reflexivity. Qed.
Lemma fee_down_zero f : fee_down f 0 = 0.
Proof. reflexivity. Qed.
Lemma fee_up_rate0 a : fee_up 0 a = 0.
Proof. unfold fee_up. rewrite Z.mul_0_r. reflexivity. Qed.
Lemma fee_down_rate0 a : fee_down 0 a = 0.
Proof. unfold fee_down. rewrite Z.mul_0_r. reflexivity. Qed.

Lemma fee_down_sum f l : 0 <= f -> (forall x, In x l -> 0 <= x) -> sumZ (map (fee_down f) l) <= fee_down f (sumZ l).
Proof.
  intros Hf. induction l as [|x l IH]; intros H; [cbn; lia|].
  cbn [map sumZ fold_right]. fold (sumZ (map (fee_down f) l)). fold (sumZ l).
  specialize (IH (fun y Hy => H y (or_intror Hy))).
  pose proof (fee_down_bounds f x). pose proof (fee_down_bounds f (sumZ l)).
  pose proof (fee_down_bounds f (x + sumZ l)). lia.
Qed.

(** ** The program's functions compute them *)
Lemma quot_nonneg a b : 0 <= a -> 0 < b -> Z.quot a b = a / b.
Proof. intros. apply Z.quot_div_nonneg; assumption. Qed.

Lemma ceil_fee_division_ok n v : 0 <= n -> ceil_fee_division n = Ok v -> v = - ((- n) / 1000000).
Proof.
  intros Hn H. unfold ceil_fee_division, FEES_SCALE in H. apply bind_ok in H as (x & E & H).
  apply chk_i128_ok in E as [-> _]. injection H as <-. rewrite quot_nonneg by lia.
  pose proof (Z.div_mod (n + 999999) 1000000 ltac:(lia)) as H1. pose proof (Z.mod_pos_bound (n + 999999) 1000000 ltac:(lia)) as H2.
  pose proof (Z.div_mod (- n) 1000000 ltac:(lia)) as H3. pose proof (Z.mod_pos_bound (- n) 1000000 ltac:(lia)) as H4.
  set (q1 := (n + 999999) / 1000000) in *. set (q2 := (- n) / 1000000) in *.
  set (r1 := (n + 999999) mod 1000000) in *. set (r2 := (- n) mod 1000000) in *.
  clearbody q1 q2 r1 r2. lia.
Qed.

Lemma chk_any_ok p z v : chk p z = Ok v -> v = z.
Proof. intros H. apply chk_ok in H as [-> _]. reflexivity. Qed.

Lemma taker_fees_ceil_ok p m a v : 0 <= taker_fee m -> 0 <= a ->
  taker_fees_ceil (chk p) m a = Ok v -> v = taker_pays m a.
Proof.
  intros Hf Ha H. unfold taker_fees_ceil in H. apply bind_ok in H as (n & E & H). apply chk_i128_ok in E as [-> _].
  apply bind_ok in H as (c & E & H). apply ceil_fee_division_ok in E; [|nia]. apply chk_any_ok in H. subst. reflexivity.
Qed.

Lemma maker_fees_ceil_ok p m a v : 0 <= a -> maker_fees_ceil (chk p) m a = Ok v -> v = maker_locks m a.
Proof.
  intros Ha H. unfold maker_fees_ceil, maker_locks in *. destruct (0 <? maker_fee m) eqn:E0; [|congruence].
  apply bind_ok in H as (x & E & H). apply chk_i64_ok in E as [-> _].
  apply bind_ok in H as (n & E & H). apply chk_i128_ok in E as [-> _].
  apply bind_ok in H as (c & E & H). rewrite Z.abs_eq in E by lia.
  apply ceil_fee_division_ok in E; [|nia]. apply chk_any_ok in H. subst. reflexivity.
Qed.

Lemma unsigned_floor_ok m a v : 0 <= a -> unsigned_maker_fees_floor m a = Ok v -> v = fee_down (Z.abs (maker_fee m)) a.
Proof.
  intros Ha H. unfold unsigned_maker_fees_floor in H.
  apply bind_ok in H as (x & E & H). apply chk_i64_ok in E as [-> _].
  apply bind_ok in H as (n & E & H). apply chk_i128_ok in E as [-> _].
  apply chk_u64_ok in H as [-> _]. unfold FEES_SCALE. rewrite quot_nonneg by nia. reflexivity.
Qed.

Lemma maker_fees_floor_ok m a v : 0 <= a -> maker_fees_floor m a = Ok v -> v = maker_pays m a.
Proof.
  intros Ha H. unfold maker_fees_floor, maker_pays in *. destruct (0 <? maker_fee m) eqn:E; [|congruence].
  apply unsigned_floor_ok in H; [|exact Ha]. rewrite Z.abs_eq in H by lia. exact H.
Qed.
Lemma maker_rebate_floor_ok m a v : 0 <= a -> maker_rebate_floor m a = Ok v -> v = maker_gets m a.
Proof.
  intros Ha H. unfold maker_rebate_floor, maker_gets in *. destruct (0 <? maker_fee m) eqn:E; [congruence|].
  apply unsigned_floor_ok in H; [|exact Ha]. rewrite Z.abs_neq in H by lia. exact H.
Qed.

(** Success of the same functions on 64-bit amounts. *)
Lemma fee_in_u64 f a : 0 <= f <= 1000000 -> 0 <= a <= 18446744073709551615 -> 0 <= a * f <= 18446744073709551615000000.
Proof. nia. Qed.

Lemma maker_fees_floor_in m a : cfg_sound (m_cfg m) -> 0 <= a <= 18446744073709551615 ->
  maker_fees_floor m a = Ok (maker_pays m a).
Proof.
  intros [_ _ Hm _ _] Ha. unfold FEES_SCALE in Hm. unfold maker_fees_floor, maker_pays, unsigned_maker_fees_floor. fold (maker_fee m) in *.
  destruct (0 <? maker_fee m) eqn:E; [|reflexivity]. fold (maker_fee m) in Hm.
  rewrite Z.abs_eq by lia. rewrite chk_i64_in by lia. cbn [bind].
  pose proof (fee_in_u64 (maker_fee m) a ltac:(lia) Ha) as Hb.
  rewrite chk_i128_in by lia. cbn [bind]. unfold FEES_SCALE. rewrite quot_nonneg by lia.
  fold (fee_down (maker_fee m) a). apply chk_u64_in.
  pose proof (fee_down_nonneg (maker_fee m) a). pose proof (fee_down_le (maker_fee m) a). lia.
Qed.
Lemma maker_rebate_floor_in m a : cfg_sound (m_cfg m) -> 0 <= a <= 18446744073709551615 ->
  maker_rebate_floor m a = Ok (maker_gets m a).
Proof.
  intros [_ _ Hm _ _] Ha. unfold FEES_SCALE in Hm. unfold maker_rebate_floor, maker_gets, unsigned_maker_fees_floor. fold (maker_fee m) in *.
  destruct (0 <? maker_fee m) eqn:E; [reflexivity|]. fold (maker_fee m) in Hm.
  rewrite Z.abs_neq by lia. rewrite chk_i64_in by lia. cbn [bind].
  pose proof (fee_in_u64 (- maker_fee m) a ltac:(lia) Ha) as Hb.
  rewrite chk_i128_in by lia. cbn [bind]. unfold FEES_SCALE. rewrite quot_nonneg by lia.
  fold (fee_down (- maker_fee m) a). apply chk_u64_in.
  pose proof (fee_down_nonneg (- maker_fee m) a). pose proof (fee_down_le (- maker_fee m) a). lia.
Qed.
Lemma ceil_fee_division_in n : 0 <= n <= 18446744073709551615000000 -> ceil_fee_division n = Ok (- ((- n) / 1000000)).
Proof.
  intros Hn. destruct (ceil_fee_division n) as [v|e] eqn:E.
  - apply ceil_fee_division_ok in E; [congruence|lia].
  - exfalso. unfold ceil_fee_division, FEES_SCALE in E. rewrite chk_i128_in in E by lia. discriminate E.
Qed.
Lemma maker_fees_ceil_in p m a : cfg_sound (m_cfg m) -> 0 <= a <= 18446744073709551615 ->
  maker_fees_ceil (chk p) m a = if 0 <? maker_fee m then chk p (maker_locks m a) else Ok 0.
Proof.
  intros [_ _ Hm _ _] Ha. unfold FEES_SCALE in Hm. unfold maker_fees_ceil, maker_locks. fold (maker_fee m) in *.
  destruct (0 <? maker_fee m) eqn:E; [|reflexivity]. fold (maker_fee m) in Hm.
  rewrite Z.abs_eq by lia. rewrite chk_i64_in by lia. cbn [bind].
  pose proof (fee_in_u64 (maker_fee m) a ltac:(lia) Ha) as Hb.
  rewrite chk_i128_in by lia. cbn [bind]. rewrite ceil_fee_division_in by lia. reflexivity.
Qed.
Lemma taker_fees_ceil_in p m a : cfg_sound (m_cfg m) -> 0 <= a <= 18446744073709551615 ->
  taker_fees_ceil (chk p) m a = chk p (taker_pays m a).
Proof.
  intros [_ _ _ Ht _] Ha. unfold FEES_SCALE in Ht. fold (taker_fee m) in Ht. unfold taker_fees_ceil, taker_pays.
  pose proof (fee_in_u64 (taker_fee m) a ltac:(lia) Ha) as Hb.
  rewrite chk_i128_in by lia. cbn [bind]. rewrite ceil_fee_division_in by lia. reflexivity.
Qed.

Lemma maker_pays_bounds m a : cfg_sound (m_cfg m) -> 0 <= a -> 0 <= maker_pays m a <= a.
Proof.
  intros [_ _ Hm _ _] Ha. unfold FEES_SCALE in Hm. fold (maker_fee m) in Hm. unfold maker_pays. destruct (0 <? maker_fee m) eqn:E; [|lia].
  pose proof (fee_down_nonneg (maker_fee m) a). pose proof (fee_down_le (maker_fee m) a). lia.
Qed.
Lemma maker_gets_bounds m a : cfg_sound (m_cfg m) -> 0 <= a -> 0 <= maker_gets m a <= a.
Proof.
  intros [_ _ Hm _ _] Ha. unfold FEES_SCALE in Hm. fold (maker_fee m) in Hm. unfold maker_gets. destruct (0 <? maker_fee m) eqn:E; [lia|].
  pose proof (fee_down_nonneg (- maker_fee m) a). pose proof (fee_down_le (- maker_fee m) a). lia.
Qed.
Lemma maker_locks_bounds m a : cfg_sound (m_cfg m) -> 0 <= a -> 0 <= maker_locks m a <= a.
Proof.
  intros [_ _ Hm _ _] Ha. unfold FEES_SCALE in Hm. fold (maker_fee m) in Hm. unfold maker_locks. destruct (0 <? maker_fee m) eqn:E; [|lia].
  pose proof (fee_up_nonneg (maker_fee m) a). pose proof (fee_up_le (maker_fee m) a). lia.
Qed.
Lemma taker_pays_bounds m a : cfg_sound (m_cfg m) -> 0 <= a -> 0 <= taker_pays m a <= a.
Proof.
  intros [_ _ _ Ht _] Ha. unfold FEES_SCALE in Ht. fold (taker_fee m) in Ht. unfold taker_pays.
  pose proof (fee_up_nonneg (taker_fee m) a). pose proof (fee_up_le (taker_fee m) a). lia.
Qed.
Lemma maker_locks_split m a b : maker_pays m a + maker_locks m b <= maker_locks m (a + b).
Proof. unfold maker_pays, maker_locks. destruct (0 <? maker_fee m); [apply fee_split|lia]. Qed.
Lemma maker_pays_le_locks m a : maker_pays m a <= maker_locks m a.
Proof. unfold maker_pays, maker_locks. destruct (0 <? maker_fee m); [apply fee_down_up|lia]. Qed.
Lemma maker_pays_mono m a b : a <= b -> maker_pays m a <= maker_pays m b.
Proof. intros H. unfold maker_pays. destruct (0 <? maker_fee m) eqn:E; [|lia]. apply fee_down_mono; lia. Qed.
Lemma maker_locks_zero m : maker_locks m 0 = 0.
Proof. unfold maker_locks. destruct (0 <? maker_fee m); reflexivity. Qed.
Lemma maker_pays_zero m : maker_pays m 0 = 0.
Proof. unfold maker_pays. destruct (0 <? maker_fee m); reflexivity. Qed.
Lemma maker_gets_zero m : maker_gets m 0 = 0.
Proof. unfold maker_gets. destruct (0 <? maker_fee m); reflexivity. Qed.

Lemma rebates_le_taker m l : cfg_sound (m_cfg m) -> (forall x, In x l -> 0 <= x) ->
  sumZ (map (maker_gets m) l) <= taker_pays m (sumZ l).
Proof.
  intros Hc H. pose proof (sumZ_nonneg l H) as Hs. pose proof (taker_pays_bounds m (sumZ l) Hc Hs) as Hb.
  destruct Hc as [_ _ _ Ht Hr]. unfold maker_gets. destruct (0 <? maker_fee m) eqn:E.
  - assert (sumZ (map (fun _ => 0) l) = 0); [|lia].
    clear. induction l as [|x l IH]; [reflexivity|]. cbn [map sumZ fold_right]. fold (sumZ (map (fun _ : Z => 0) l)). lia.
  - eapply Z.le_trans; [apply fee_down_sum; [lia|exact H]|].
    eapply Z.le_trans; [apply (fee_down_rate _ (taker_fee m)); [exact Hs|unfold taker_fee, maker_fee in *; lia]|].
    apply fee_down_up.
Qed.

(** Budgets. *)
Lemma subtract_taker_fees_ok m q v : 0 <= taker_fee m -> 0 <= q -> subtract_taker_fees m q = Ok v ->
  v = q * 1000000 / (1000000 + taker_fee m).
Proof.
  intros Hf Hq H. unfold subtract_taker_fees, FEES_SCALE in H.
  apply bind_ok in H as (n & E & H). apply chk_i128_ok in E as [-> _].
  apply bind_ok in H as (d & E & H). apply chk_i128_ok in E as [-> _].
  replace (1000000 + taker_fee m =? 0) with false in H by lia. apply chk_i64_ok in H as [-> _].
  apply quot_nonneg; lia.
Qed.

Lemma budget_fee m q : 0 <= taker_fee m -> 0 <= q ->
  let v := q * 1000000 / (1000000 + taker_fee m) in
  0 <= v <= q /\ forall x, 0 <= x <= v -> x + taker_pays m x <= q.
Proof.
  intros Hf Hq v. set (t := taker_fee m) in *.
  pose proof (Z.div_mod (q * 1000000) (1000000 + t) ltac:(lia)).
  pose proof (Z.mod_pos_bound (q * 1000000) (1000000 + t) ltac:(lia)). fold v in H. clearbody v.
  split; [nia|]. intros x Hx. unfold taker_pays. fold t. pose proof (fee_up_bounds t x). nia.
Qed.
