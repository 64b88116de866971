(** Proofs of the claims about oracle prices (C41, C42). *)
From Coq Require Import ZArith Reals Psatz Bool List SpecFloat.
From Flocq Require Import Core BinarySingleNaN.
From Verif Require Import Base Nodes OrderTree BookSide Heap Market OpenOrders Order Book Instructions
  SpecBook Oracle SpecOracle FloatFacts OracleFacts PriceFacts OracleUse.
Open Scope Z_scope.

Lemma no_oracle m c a b slot : c_oracle_a (m_cfg m) = 0 -> oracle_price_lots m c a b slot = Ok None.
Proof. intros H. unfold oracle_price_lots, oracle_price. rewrite H. reflexivity. Qed.

Lemma used_fresh m c a b slot v :
  oracle_price_lots m c a b slot = Ok (Some v) ->
  exists acc, a = Some acc /\ oa_key acc = c_oracle_a (m_cfg m) /\ fresh c slot (oa_data acc) /\
  (c_oracle_b (m_cfg m) <> 0 ->
   exists acc2, b = Some acc2 /\ oa_key acc2 = c_oracle_b (m_cfg m) /\ fresh c slot (oa_data acc2)).
Proof.
  intros H. destruct (lots_inv _ _ _ _ _ _ H) as (p & E & _).
  destruct (price_inv _ _ _ _ _ _ E) as (_ & [(Eb & acc & o & adj & -> & K & U & S & _)|
    (Eb & acc1 & acc2 & o1 & o2 & adj & -> & -> & K1 & K2 & U1 & U2 & S1 & S2 & _)]).
  - exists acc. split; [reflexivity|]. split; [exact K|]. split; [exact (unchecked_fresh _ _ _ _ U S)|].
    intros N. contradiction.
  - exists acc1. split; [reflexivity|]. split; [exact K1|]. split; [exact (unchecked_fresh _ _ _ _ U1 S1)|].
    intros _. exists acc2. split; [reflexivity|]. split; [exact K2|exact (unchecked_fresh _ _ _ _ U2 S2)].
Qed.

Lemma used_confident m c a b slot v acc p d :
  oracle_price_lots m c a b slot = Ok (Some v) -> c_oracle_b (m_cfg m) = 0 -> a = Some acc ->
  states (oa_data acc) p d -> double p -> double d -> double (oc_conf_filter c) ->
  at_most (real d) (real (oc_conf_filter c) * real p).
Proof.
  intros H Hb Ha St Dp Dd Dc. destruct (lots_inv _ _ _ _ _ _ H) as (q & E & _).
  destruct (price_inv _ _ _ _ _ _ E) as (_ & [(Eb & acc' & o & adj & Ea & K & U & S & V & _)|(Eb & _)]); [|contradiction].
  rewrite Ha in Ea. injection Ea as <-. destruct (states_unchecked _ _ _ _ St U) as [<- <-].
  exact (confidence_bound o c Dc Dp Dd V).
Qed.

Lemma used_pyth_confident m c a b slot v acc p k :
  oracle_price_lots m c a b slot = Ok (Some v) -> c_oracle_b (m_cfg m) = 0 -> a = Some acc ->
  pyth_states (oa_data acc) p k -> Z.abs p <= 2 ^ 64 -> 0 <= k <= 2 ^ 64 ->
  double (oc_conf_filter c) -> (0 <= real (oc_conf_filter c))%R ->
  0 <= p /\ (IZR k <= real (oc_conf_filter c) * IZR p * (1 + / 2 ^ 48) + / 2 ^ 1000)%R.
Proof.
  intros H Hb Ha St Hp Hk Dc Pc. destruct (lots_inv _ _ _ _ _ _ H) as (q & E & _).
  destruct (price_inv _ _ _ _ _ _ E) as (_ & [(Eb & acc' & o & adj & Ea & K & U & S & V & _)|(Eb & _)]); [|contradiction].
  rewrite Ha in Ea. injection Ea as <-.
  exact (pyth_confidence acc o c p k St Hp Hk Dc Pc U V).
Qed.

Lemma used_pair_confident m c a b slot v acc1 acc2 p1 d1 p2 d2 :
  oracle_price_lots m c a b slot = Ok (Some v) -> c_oracle_b (m_cfg m) <> 0 ->
  a = Some acc1 -> b = Some acc2 ->
  states (oa_data acc1) p1 d1 -> states (oa_data acc2) p2 d2 ->
  double p1 -> double d1 -> double p2 -> double d2 -> double (oc_conf_filter c) ->
  (Rabs (real (oc_conf_filter c)) <= 2 ^ 64)%R -> (real p1 <> 0)%R ->
  (real p2 <> 0)%R /\
  ((real d1 / real p1) ^ 2 + (real d2 / real p2) ^ 2
     <= real (oc_conf_filter c) ^ 2 * (1 + / 2 ^ 49) + / 2 ^ 1000)%R.
Proof.
  intros H Hb Ha Hb2 St1 St2 Dp1 Dd1 Dp2 Dd2 Dc Bc N1. destruct (lots_inv _ _ _ _ _ _ H) as (q & E & _).
  destruct (price_inv _ _ _ _ _ _ E) as (_ & [(Eb & _)|
    (Eb & acc1' & acc2' & o1 & o2 & adj & Ea & Eb2 & K1 & K2 & U1 & U2 & S1 & S2 & V & D & I)]); [contradiction|].
  rewrite Ha in Ea. injection Ea as <-. rewrite Hb2 in Eb2. injection Eb2 as <-.
  destruct (states_unchecked _ _ _ _ St1 U1) as [<- <-]. destruct (states_unchecked _ _ _ _ St2 U2) as [<- <-].
  assert (T : exists dd, power_of_ten_float dd = Ok adj).
  { unfold decimal_adjustment in D. destruct (chk_i8 _) as [dd|]; cbn [bind] in D; [|discriminate]. now exists dd. }
  destruct T as [dd T].
  destruct (quotient_finite _ _ _ _ _ Dp1 Dp2 T I) as (N2 & _).
  split; [exact N2|].
  unfold has_valid_combined_confidence in V. apply negb_true_iff in V.
  pose proof (combined_steps _ _ _ _ _ Dd1 Dp1 Dd2 Dp2 Dc N1 N2 Bc V) as B.
  pose proof (combined_bound _ _ _ Bc B) as R.
  assert (Sq : forall x, (x ^ 2 = x * x)%R) by (intros x; ring). rewrite !Sq. exact R.
Qed.

Lemma input_is_price m c a b now slot v :
  oracle_input m (env_of_oracles now slot m c a b) = Ok (Some v) ->
  oracle_price_lots m c a b slot = Ok (Some v).
Proof.
  unfold oracle_input, env_of_oracles. cbn [e_oracle]. destruct (_ =? 0); [discriminate|].
  destruct (oracle_price_lots m c a b slot) as [[p|]|]; cbn [bind]; try discriminate.
  destruct (massert (in_i64 p)); cbn [bind]; try discriminate. trivial.
Qed.

Lemma unusable_pegs_rest c a b now slot s i s' out sd L :
  reachable s -> oracle_price_lots (w_mkt (s_w s)) c a b slot = Ok None ->
  exec (env_of_oracles now slot (w_mkt (s_w s)) c a b) s i = Ok (s', out) ->
  trades_with i = Some sd -> lists (w_book (s_w s) sd) OraclePegged L ->
  lists (w_book (s_w s') sd) OraclePegged L.
Proof.
  intros Hr Ho. apply instr_pegs_rest; [exact Hr|].
  unfold oracle_input, env_of_oracles. cbn [e_oracle]. rewrite Ho. cbn [bind]. destruct (_ =? 0); reflexivity.
Qed.

Lemma price_accurate m c a b slot p acc x d :
  oracle_price m c a b slot = Ok (Some p) -> c_oracle_b (m_cfg m) = 0 -> a = Some acc ->
  states (oa_data acc) x d -> double x ->
  0 <= oc_base_decimals c <= 127 -> 0 <= oc_quote_decimals c <= 127 ->
  about_equal (fixed_real p) (exact_native c (real x)).
Proof.
  intros E Hb Ha St Dx B Q.
  destruct (price_inv _ _ _ _ _ _ E) as (_ & [(Eb & acc' & o & adj & Ea & K & U & S & V & D & I)|(Eb & _)]); [|contradiction].
  rewrite Ha in Ea. injection Ea as <-. destruct (states_unchecked _ _ _ _ St U) as [Ex _]. rewrite <- Ex in *.
  exact (single_accuracy _ _ _ _ Dx (decimal_adjustment_pow _ _ B Q D) I).
Qed.

Lemma pair_price_accurate m c a b slot p acc1 acc2 x1 d1 x2 d2 :
  oracle_price m c a b slot = Ok (Some p) -> c_oracle_b (m_cfg m) <> 0 -> a = Some acc1 -> b = Some acc2 ->
  states (oa_data acc1) x1 d1 -> states (oa_data acc2) x2 d2 -> double x1 -> double x2 ->
  0 <= oc_base_decimals c <= 127 -> 0 <= oc_quote_decimals c <= 127 ->
  about_equal (fixed_real p) (exact_native c (real x1 / real x2)).
Proof.
  intros E Hb Ha Hb2 St1 St2 Dx1 Dx2 B Q.
  destruct (price_inv _ _ _ _ _ _ E) as (_ & [(Eb & _)|
    (Eb & acc1' & acc2' & o1 & o2 & adj & Ea & Eb2 & K1 & K2 & U1 & U2 & S1 & S2 & V & D & I)]); [contradiction|].
  rewrite Ha in Ea. injection Ea as <-. rewrite Hb2 in Eb2. injection Eb2 as <-.
  destruct (states_unchecked _ _ _ _ St1 U1) as [Ex1 _]. destruct (states_unchecked _ _ _ _ St2 U2) as [Ex2 _].
  rewrite <- Ex1, <- Ex2 in *.
  exact (pair_accuracy _ _ _ _ _ Dx1 Dx2 (decimal_adjustment_pow _ _ B Q D) I).
Qed.
