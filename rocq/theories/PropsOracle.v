(** Properties C41 and C42: prices from oracles. *)
From Coq Require Import ZArith Reals List Bool SpecFloat Psatz.
From Flocq Require Import Core BinarySingleNaN.
From Verif Require Import Base Nodes OrderTree BookSide Heap Market OpenOrders Order Book Instructions
  SpecBook SpecOrder Oracle SpecOracle FloatFacts OracleFacts PriceFacts OracleUse OracleProofs Samples.
Import ListNotations.
Open Scope Z_scope.

(** C41: a market without oracle never gets a price. *)
Theorem C41_no_oracle m c a b slot :
  c_oracle_a (m_cfg m) = 0 -> oracle_price_lots m c a b slot = Ok None.
Proof. exact (no_oracle m c a b slot). Qed.
Print Assumptions C41_no_oracle.

Definition no_oracle_market : market :=
  mkMarket (mkCfg 10 100 0 0 40 50 70 0 0 71 0 0 61 62 51 52) 0 0 0 0 0 0 0 0 0 0.
Example C41_no_oracle_case : c_oracle_a (m_cfg no_oracle_market) = 0.
Proof. reflexivity. Qed.

(** C41: a price is used only if it comes from the configured oracles and each of them was
    updated within the configured number of slots. *)
Theorem C41_fresh m c a b slot v :
  oracle_price_lots m c a b slot = Ok (Some v) ->
  exists acc, a = Some acc /\ oa_key acc = c_oracle_a (m_cfg m) /\ fresh c slot (oa_data acc) /\
  (c_oracle_b (m_cfg m) <> 0 ->
   exists acc2, b = Some acc2 /\ oa_key acc2 = c_oracle_b (m_cfg m) /\ fresh c slot (oa_data acc2)).
Proof. exact (used_fresh m c a b slot v). Qed.
Print Assumptions C41_fresh.

(** A confidence bound of one eighth, 100 slots, base with 9 and quote with 6 decimals. *)
Definition conf8 : oracle_cfg := mkOracleCfg (f64_near 1 (-3)) 100 9 6.
Definition one_oracle : market :=
  mkMarket (mkCfg 10 100 0 0 40 50 70 0 0 71 77 0 61 62 51 52) 0 0 0 0 0 0 0 0 0 0.
Definition two_oracles : market :=
  mkMarket (mkCfg 10 100 0 0 40 50 70 0 0 71 77 78 61 62 51 52) 0 0 0 0 0 0 0 0 0 0.
(** 20000 +- 1000 in slot 5000. *)
Definition stub77 : oracle_acc := mkOracleAcc 77 (DStub (f64_of 20000) (f64_of 1000) 5000).
(** 20000.00000 +- 1000.00000 in slot 5000, not trading now. *)
Definition pyth77 : oracle_acc :=
  mkOracleAcc 77 (DPyth false 1 1 6000 2000000000 100000000 5000 (-5)).
(** 2 +- 0.125 in slot 5050. *)
Definition sb78 : oracle_acc :=
  mkOracleAcc 78 (DSwitchboardV1 (f64_of 2) (f64_near 31 (-4)) (f64_near 33 (-4)) 5050).

Example C41_fresh_case :
  oracle_price_lots one_oracle conf8 (Some stub77) None 5100 = Ok (Some 200) /\
  oracle_price_lots one_oracle conf8 (Some stub77) None 5101 = Ok None /\
  oracle_price_lots one_oracle conf8 (Some pyth77) None 5100 = Ok (Some 200) /\
  oracle_price_lots one_oracle conf8 (Some pyth77) None 5101 = Ok None /\
  oracle_price_lots two_oracles conf8 (Some stub77) (Some sb78) 5100 = Ok (Some 100) /\
  oracle_price_lots two_oracles conf8 (Some stub77) (Some sb78) 5101 = Ok None.
Proof. vm_compute. repeat split. Qed.

(** C41: with one oracle, the stated uncertainty is at most the configured fraction of the
    price, up to the rounding of the product.  Missing for the full claim: an uncertainty that
    is not a finite number, for which it is false (see C41_nan_refuted). *)
Theorem C41_confident_partial m c a b slot v acc p d :
  oracle_price_lots m c a b slot = Ok (Some v) -> c_oracle_b (m_cfg m) = 0 -> a = Some acc ->
  states (oa_data acc) p d -> double p -> double d -> double (oc_conf_filter c) ->
  at_most (real d) (real (oc_conf_filter c) * real p).
Proof. exact (used_confident m c a b slot v acc p d). Qed.
Print Assumptions C41_confident_partial.

(** C41: the same for Pyth, in terms of the integers on chain; the price is not negative. *)
Theorem C41_pyth_confident m c a b slot v acc p k :
  oracle_price_lots m c a b slot = Ok (Some v) -> c_oracle_b (m_cfg m) = 0 -> a = Some acc ->
  pyth_states (oa_data acc) p k -> Z.abs p <= 2 ^ 64 -> 0 <= k <= 2 ^ 64 ->
  double (oc_conf_filter c) -> (0 <= real (oc_conf_filter c))%R ->
  0 <= p /\ (IZR k <= real (oc_conf_filter c) * IZR p * (1 + / 2 ^ 48) + / 2 ^ 1000)%R.
Proof. exact (used_pyth_confident m c a b slot v acc p k). Qed.
Print Assumptions C41_pyth_confident.

(** C41: with two oracles, the squares of the relative uncertainties add up to at most the
    square of the bound, and the second price is not zero.  Missing for the full claim: values
    that are not finite numbers and a first price of zero, for which it is false (see
    C41_zero_price_refuted). *)
Theorem C41_pair_confident_partial m c a b slot v acc1 acc2 p1 d1 p2 d2 :
  oracle_price_lots m c a b slot = Ok (Some v) -> c_oracle_b (m_cfg m) <> 0 ->
  a = Some acc1 -> b = Some acc2 ->
  states (oa_data acc1) p1 d1 -> states (oa_data acc2) p2 d2 ->
  double p1 -> double d1 -> double p2 -> double d2 -> double (oc_conf_filter c) ->
  (Rabs (real (oc_conf_filter c)) <= 2 ^ 64)%R -> (real p1 <> 0)%R ->
  (real p2 <> 0)%R /\
  ((real d1 / real p1) ^ 2 + (real d2 / real p2) ^ 2
     <= real (oc_conf_filter c) ^ 2 * (1 + / 2 ^ 49) + / 2 ^ 1000)%R.
Proof. exact (used_pair_confident m c a b slot v acc1 acc2 p1 d1 p2 d2). Qed.
Print Assumptions C41_pair_confident_partial.

(** With a bound of one eighth, 20000 +- 2500 is used and 20000 +- 2501 is not; neither is
    2 +- 0.125 together with an uncertainty of an eighth. *)
Definition stub_with (dev : Z) : oracle_acc := mkOracleAcc 77 (DStub (f64_of 20000) (f64_of dev) 5000).
Definition pyth_with (conf : Z) : oracle_acc :=
  mkOracleAcc 77 (DPyth true 2000000000 conf 5000 1 1 1 (-5)).
Example C41_confident_case :
  oracle_price_lots one_oracle conf8 (Some (stub_with 2500)) None 5100 = Ok (Some 200) /\
  oracle_price_lots one_oracle conf8 (Some (stub_with 2501)) None 5100 = Ok None /\
  states (oa_data (stub_with 2500)) (f64_of 20000) (f64_of 2500) /\
  double (f64_of 20000) /\ double (f64_of 2500) /\ double (oc_conf_filter conf8).
Proof.
  split; [vm_compute; reflexivity|]. split; [vm_compute; reflexivity|]. split; [constructor|].
  repeat split; vm_compute; reflexivity.
Qed.
Example C41_pyth_confident_case :
  oracle_price_lots one_oracle conf8 (Some (pyth_with 250000000)) None 5100 = Ok (Some 200) /\
  oracle_price_lots one_oracle conf8 (Some (pyth_with 250000001)) None 5100 = Ok None /\
  pyth_states (oa_data (pyth_with 250000000)) 2000000000 250000000 /\
  (0 <= real (oc_conf_filter conf8))%R.
Proof.
  split; [vm_compute; reflexivity|]. split; [vm_compute; reflexivity|].
  split; [split; reflexivity|]. unfold conf8, real. cbn [oc_conf_filter].
  change (f64_near 1 (-3)) with (S754_finite false 4503599627370496 (-55)).
  unfold SF2R. apply F2R_ge_0. discriminate.
Qed.
Example C41_pair_confident_case :
  oracle_price_lots two_oracles conf8 (Some stub77) (Some sb78) 5100 = Ok (Some 100) /\
  oracle_price_lots two_oracles conf8 (Some (stub_with 2500)) (Some sb78) 5100 = Ok None /\
  states (oa_data sb78) (f64_of 2) (f64_near 1 (-3)).
Proof.
  split; [vm_compute; reflexivity|]. split; [vm_compute; reflexivity|].
  change (f64_near 1 (-3)) with (f64_sub (f64_near 33 (-4)) (f64_near 31 (-4))). constructor.
Qed.

(** C41 does not hold for an uncertainty that is not a number: the comparison is false and
    the price is used.  A stub oracle, or Switchboard V1 with both responses infinite. *)
Theorem C41_nan_refuted : exists m c acc slot v,
  oracle_price_lots m c (Some acc) None slot = Ok (Some v) /\ c_oracle_b (m_cfg m) = 0 /\
  states (oa_data acc) (f64_of 20000) S754_nan.
Proof.
  exists one_oracle, conf8,
    (mkOracleAcc 77 (DSwitchboardV1 (f64_of 20000) (S754_infinity false) (S754_infinity false) 5000)), 5100, 200.
  split; [vm_compute; reflexivity|]. split; [reflexivity|].
  change S754_nan with (f64_sub (S754_infinity false) (S754_infinity false)). constructor.
Qed.
Print Assumptions C41_nan_refuted.

(** C41 does not hold for the second oracle of a pair if the first one reports 0 +- 0: the
    check of the combined uncertainty passes whatever the second oracle says. *)
Theorem C41_zero_price_refuted : exists m c acc1 acc2 slot v d,
  oracle_price_lots m c (Some acc1) (Some acc2) slot = Ok (Some v) /\ c_oracle_b (m_cfg m) <> 0 /\
  states (oa_data acc2) (f64_of 2) d /\ double d /\ (real (oc_conf_filter c) * 2 < real d)%R.
Proof.
  exists two_oracles, conf8, (mkOracleAcc 77 (DStub (f64_of 0) (f64_of 0) 5000)),
    (mkOracleAcc 78 (DStub (f64_of 2) (f64_of 2) 5000)), 5100, 0, (f64_of 2).
  split; [vm_compute; reflexivity|]. split; [discriminate|]. split; [constructor|].
  split; [split; vm_compute; reflexivity|].
  unfold conf8, real. cbn [oc_conf_filter].
  change (f64_near 1 (-3)) with (S754_finite false 4503599627370496 (-55)).
  change (f64_of 2) with (S754_finite false 4503599627370496 (-51)).
  unfold SF2R, F2R. cbn [cond_Zopp Fnum Fexp].
  change (-55) with (-51 + -4). rewrite bpow_plus.
  assert (0 < bpow radix2 (-51))%R by apply bpow_gt_0.
  replace (bpow radix2 (-4)) with (/ 16)%R by (cbn; lra).
  nra.
Qed.
Print Assumptions C41_zero_price_refuted.

(** C41: an instruction in a world with such oracles uses that price and no other, *)
Theorem C41_instructions m c a b now slot v :
  oracle_input m (env_of_oracles now slot m c a b) = Ok (Some v) ->
  oracle_price_lots m c a b slot = Ok (Some v).
Proof. exact (input_is_price m c a b now slot v). Qed.
Print Assumptions C41_instructions.

(** and without a usable price it fails or trades with no oracle-pegged order, *)
Theorem C41_pegs_rest c a b now slot s i s' out sd L :
  reachable s -> oracle_price_lots (w_mkt (s_w s)) c a b slot = Ok None ->
  exec (env_of_oracles now slot (w_mkt (s_w s)) c a b) s i = Ok (s', out) ->
  trades_with i = Some sd -> lists (w_book (s_w s) sd) OraclePegged L ->
  lists (w_book (s_w s') sd) OraclePegged L.
Proof. exact (unusable_pegs_rest c a b now slot s i s' out sd L). Qed.
Print Assumptions C41_pegs_rest.

(** and cannot place an oracle-pegged order. *)
Theorem C41_peg_needs_price w o taker owner now limit rem offset pt peg :
  o_params o = OOraclePegged offset pt peg ->
  new_order w o None taker owner now limit rem = Err OraclePegInvalidOracleState.
Proof. exact (peg_order_needs_price w o taker owner now limit rem offset pt peg). Qed.
Print Assumptions C41_peg_needs_price.

(** In the first sample (lots of 10 and 100) the oracle at 10000 +- 0 gives 100 lots; user 3
    then buys at 105, 106 (pegged) and 107, and when the oracle is stale at 105 and 107. *)
Definition stub10000 : oracle_acc := mkOracleAcc 77 (DStub (f64_of 10000) (f64_of 0) 5000).
Definition buy107 : instr := limit_order 3 Bid 107 60 9.
Example C41_pegs_rest_case :
  let e slot := env_of_oracles 120 slot (w_mkt (s_w sample1)) conf8 (Some stub10000) None in
  reachable sample1 /\
  oracle_price_lots (w_mkt (s_w sample1)) conf8 (Some stub10000) None 5100 = Ok (Some 100) /\
  oracle_price_lots (w_mkt (s_w sample1)) conf8 (Some stub10000) None 5101 = Ok None /\
  trades_with buy107 = Some Ask /\
  map fst (ids_on sample1 Ask) = [Fixed; Fixed; OraclePegged] /\
  map fst (ids_on (after (e 5100) sample1 buy107) Ask) = [Fixed] /\
  map fst (ids_on (after (e 5101) sample1 buy107) Ask) = [OraclePegged].
Proof. cbv zeta. split; [exact sample1_reachable|]. vm_compute. repeat split. Qed.

(** C42: converting a native price to lots never panics, *)
Theorem C42_no_panic m p :
  (exists v, native_price_to_lot m p = Ok v) \/ native_price_to_lot m p = Err InvalidOraclePrice.
Proof. exact (lots_no_panic m p). Qed.
Print Assumptions C42_no_panic.

(** and for a price that is not negative gives the exact value rounded down, unless that is
    too large. *)
Theorem C42_exact m p :
  0 <= p -> 1 <= bls m -> 1 <= qls m ->
  native_price_to_lot m p =
  if (p * bls m <? 2 ^ 127) && (exact_lots m p <=? i64_max) then Ok (exact_lots m p)
  else Err InvalidOraclePrice.
Proof. exact (lots_exact m p). Qed.
Print Assumptions C42_exact.

(** 3.75 native units are 37 lots. *)
Example C42_exact_case : 1 <= bls one_oracle /\ 1 <= qls one_oracle /\
  native_price_to_lot one_oracle (15 * 2 ^ 46) = Ok 37 /\
  native_price_to_lot one_oracle (2 ^ 126) = Err InvalidOraclePrice /\
  native_price_to_lot one_oracle (- 15 * 2 ^ 46) = Ok (-38).
Proof. split; [discriminate|]. split; [discriminate|]. vm_compute. repeat split. Qed.

(** C42: a price in lots converted to native units and back loses at most one lot. *)
Theorem C42_roundtrip m l :
  0 <= l < 2 ^ 63 -> 1 <= bls m -> 1 <= qls m -> l * qls m < 2 ^ 79 -> bls m <= qls m * 2 ^ 48 ->
  exists p, lot_to_native_price m l = Ok p /\
  (native_price_to_lot m p = Ok l \/ native_price_to_lot m p = Ok (l - 1)).
Proof. exact (lots_roundtrip m l). Qed.
Print Assumptions C42_roundtrip.

Definition thirds : market :=
  mkMarket (mkCfg 1 3 0 0 40 50 70 0 0 71 77 0 61 62 51 52) 0 0 0 0 0 0 0 0 0 0.
Example C42_roundtrip_case : 7 * qls thirds < 2 ^ 79 /\ bls thirds <= qls thirds * 2 ^ 48 /\
  (p <- lot_to_native_price thirds 7 ;; native_price_to_lot thirds p) = Ok 6 /\
  (p <- lot_to_native_price thirds 6 ;; native_price_to_lot thirds p) = Ok 6.
Proof. vm_compute. repeat split. discriminate. Qed.

(** C42: the native price taken from one oracle, or from the quotient of two, is the exact
    one up to rounding. *)
Theorem C42_price_accurate m c a b slot p acc x d :
  oracle_price m c a b slot = Ok (Some p) -> c_oracle_b (m_cfg m) = 0 -> a = Some acc ->
  states (oa_data acc) x d -> double x ->
  0 <= oc_base_decimals c <= 127 -> 0 <= oc_quote_decimals c <= 127 ->
  about_equal (fixed_real p) (exact_native c (real x)).
Proof. exact (price_accurate m c a b slot p acc x d). Qed.
Print Assumptions C42_price_accurate.

Theorem C42_pair_accurate m c a b slot p acc1 acc2 x1 d1 x2 d2 :
  oracle_price m c a b slot = Ok (Some p) -> c_oracle_b (m_cfg m) <> 0 -> a = Some acc1 -> b = Some acc2 ->
  states (oa_data acc1) x1 d1 -> states (oa_data acc2) x2 d2 -> double x1 -> double x2 ->
  0 <= oc_base_decimals c <= 127 -> 0 <= oc_quote_decimals c <= 127 ->
  about_equal (fixed_real p) (exact_native c (real x1 / real x2)).
Proof. exact (pair_price_accurate m c a b slot p acc1 acc2 x1 d1 x2 d2). Qed.
Print Assumptions C42_pair_accurate.

(** 20000 * 10^(6-9) = 20 and 20000 / 2 * 10^(6-9) = 10. *)
Example C42_accurate_case :
  oracle_price one_oracle conf8 (Some stub77) None 5100 = Ok (Some (20 * 2 ^ 48)) /\
  oracle_price two_oracles conf8 (Some stub77) (Some sb78) 5100 = Ok (Some (10 * 2 ^ 48)).
Proof. vm_compute. split; reflexivity. Qed.
