(** Property C87: the conversions of prices and sizes that the TypeScript client exports beside
    those of its class [Market].  Vocabulary: SpecUnits.v. *)
From Coq Require Import ZArith Reals List Bool Lia Lra SpecFloat.
From Flocq Require Import Core.
From Verif Require Import Base Nodes OrderTree BookSide Heap Market OpenOrders Order Book Instructions Bytes
  SpecBook SpecFees SpecOrder SpecSystem Oracle SpecOracle Units SpecUnits UnitsFacts PropsUnits UnitsMkt UnitsMktFacts.
Import ListNotations.
Open Scope Z_scope.

(** A price on a tick becomes that many ticks if it is so many of the quote token's smallest units
    ([j]).  What is missing: ticks finer than that (C87_price_refuted) and prices from 2^50 units. *)
Theorem C87_price_partial x m k j p : usual x m -> 0 <= k -> price_of x m k = tokens j (mr_quote_decimals x) -> j <= 2 ^ 50 ->
  nearest (price_of x m k) p -> ts_ui_price_to_lots x m p = Some k.
Proof. exact (ui_price_exact x m k j p). Qed.
Print Assumptions C87_price_partial.

(** A size of whole lots becomes that many lots, in base and in quote lots. *)
Theorem C87_size_partial x m n p : usual x m -> 0 <= n -> n * bls m <= 2 ^ 50 ->
  nearest (size_of x m n) p -> ts_ui_base_to_lots x m p = Some n.
Proof. exact (ui_base_exact x m n p). Qed.
Print Assumptions C87_size_partial.
Theorem C87_quote_partial x m n p : usual x m -> 0 <= n -> n * qls m <= 2 ^ 50 ->
  nearest (tokens (n * qls m) (mr_quote_decimals x)) p -> ts_ui_quote_to_lots x m p = Some n.
Proof. exact (ui_quote_exact x m n p). Qed.
Print Assumptions C87_quote_partial.

(** Any other price is off by less than a tick and one smallest unit of the quote token, *)
Theorem C87_price_near x m p : usual x m -> double p -> (0 <= real p)%R -> not_tiny (real p) ->
  (real p * IZR (10 ^ mr_quote_decimals x) <= 2 ^ 50)%R ->
  exists k, ts_ui_price_to_lots x m p = Some k /\ 0 <= k /\
  (price_of x m k < real p + tokens 1 (mr_quote_decimals x))%R /\ (real p < price_of x m (k + 1) + tokens 1 (mr_quote_decimals x))%R.
Proof. exact (ui_price_near x m p). Qed.
Print Assumptions C87_price_near.

(** and where both are exact, both conversions of a price agree. *)
Theorem C87_same_partial x m k j p : usual x m -> 0 <= k -> price_of x m k = tokens j (mr_quote_decimals x) ->
  j * bls m <= 2 ^ 50 -> nearest (price_of x m k) p -> ts_ui_price_to_lots x m p = ts_price_lots x m p.
Proof. exact (ui_price_same x m k j p). Qed.
Print Assumptions C87_same_partial.

(** A price in smallest units of quote per smallest unit of base, rounded down. *)
Theorem C87_native x m k : usual x m -> 0 <= k ->
  (IZR (ts_price_to_native m k) <= price_of x m k * powerRZ 10 (mr_quote_decimals x - mr_base_decimals x) < IZR (ts_price_to_native m k + 1))%R.
Proof. exact (price_native x m k). Qed.
Print Assumptions C87_native.

(** Refuted: a token with 5 decimals for USDC with a tick of 0.0000001.  The price 0.0000015, 15
    ticks and sent as such by the class [Market], becomes 20 ticks: a third more. *)
Definition fine_tick : market := mkMarket (mkCfg 1 1000000 0 0 40 50 70 0 0 71 77 0 61 62 51 52) 0 0 0 0 0 0 0 0 0 0.
Lemma usual_fine : usual (rest84 5 6) fine_tick.
Proof. split; cbn [rest84 mr_base_decimals mr_quote_decimals]; unfold bls, qls; cbn [fine_tick m_cfg c_bls c_qls]; lia. Qed.
Theorem C87_price_refuted : exists x m k p, usual x m /\ 0 <= k /\ k * qls m * 10 ^ mr_base_decimals x <= 2 ^ 50 /\ nearest (price_of x m k) p /\
  ts_price_lots x m p = Some k /\ ts_ui_price_to_lots x m p = Some (k + 5) /\ k = 15.
Proof.
  exists (rest84 5 6), fine_tick, 15, (f64_ratio 15 10000000). split; [exact usual_fine|]. split; [lia|]. split; [vm_compute; discriminate|]. split.
  - replace (price_of (rest84 5 6) fine_tick 15) with (IZR 15 / IZR 10000000)%R.
    + apply ratio_nearest; reflexivity || discriminate.
    + rewrite price_of_ratio by exact usual_fine. unfold bls, qls. cbn [fine_tick m_cfg c_bls c_qls rest84 mr_base_decimals mr_quote_decimals].
      change (15 * 1 * 10 ^ 5) with 1500000. change (1000000 * 10 ^ 6) with 1000000000000. field.
  - vm_compute. repeat split.
Qed.
Print Assumptions C87_price_refuted.

(** Refuted: the price in smallest units tells prices apart; 123.457 USDC for a SOL, and every
    price below 1000, is 0. *)
Theorem C87_native_refuted : exists x m, usual x m /\ (price_of x m 123457 = IZR 123457 / 1000)%R /\
  forall k, 0 <= k < 1000000 -> ts_price_to_native m k = 0.
Proof.
  exists (rest84 9 6), sol_usdc. split; [exact usual_sol|]. split.
  - rewrite price_of_ratio by exact usual_sol. unfold bls, qls. cbn [sol_usdc m_cfg c_bls c_qls rest84 mr_base_decimals mr_quote_decimals].
    change (123457 * 1 * 10 ^ 9) with 123457000000000. change (1000000 * 10 ^ 6) with 1000000000000. field.
  - intros k K. unfold ts_price_to_native, bls, qls. cbn [sol_usdc m_cfg c_bls c_qls]. apply Z.quot_small. lia.
Qed.
Print Assumptions C87_native_refuted.

(** With lots of one SOL and a tick of 0.01 USDC the price 8.03 becomes 803 ticks (the class
    [Market] sends 802, C84_price_refuted). *)
Example C87_case : usual (rest84 9 6) whole_sol /\ price_of (rest84 9 6) whole_sol 803 = tokens 8030000 (mr_quote_decimals (rest84 9 6)) /\
  nearest (price_of (rest84 9 6) whole_sol 803) (f64_ratio 803 100) /\
  ts_ui_price_to_lots (rest84 9 6) whole_sol (f64_ratio 803 100) = Some 803 /\
  ts_price_lots (rest84 9 6) whole_sol (f64_ratio 803 100) = Some 802 /\
  ts_ui_price_to_lots (rest84 9 6) sol_usdc (f64_ratio 123457 1000) = Some 123457 /\
  ts_ui_base_to_lots (rest84 9 6) sol_usdc (f64_ratio 7 10) = Some 700 /\ ts_ui_quote_to_lots (rest84 9 6) whole_sol (f64_ratio 7 10) = Some 70 /\
  ts_price_to_native fine_tick 12345678 = 12.
Proof.
  assert (E : price_of (rest84 9 6) whole_sol 803 = (IZR 803 / IZR 100)%R).
  { rewrite price_of_ratio by exact usual_whole. unfold bls, qls. cbn [whole_sol m_cfg c_bls c_qls rest84 mr_base_decimals mr_quote_decimals].
    change (803 * 10000 * 10 ^ 9) with 8030000000000000. change (1000000000 * 10 ^ 6) with 1000000000000000. field. }
  split; [exact usual_whole|]. split; [|split].
  - rewrite E. unfold tokens. cbn [rest84 mr_quote_decimals]. destruct (tens 6 ltac:(lia)) as [-> _]. change (10 ^ 6) with 1000000. field.
  - rewrite E. apply ratio_nearest; reflexivity || discriminate.
  - vm_compute. repeat split.
Qed.
