(** Model of the user units of the TypeScript client: /repo/ts/client/src/accounts/market.ts 35-99,
    /repo/ts/client/src/utils/utils.ts 47-49, /repo/ts/client/src/structs/order.ts 30-36 and
    /repo/ts/client/src/accounts/openOrders.ts 398-423.

    A JavaScript number is the [f64] of Oracle.v.  Simplified: [Math.pow(10, d)] is the double
    nearest to [10^d] (exact up to [d = 22]); big.js has its default settings, 20 decimal places and
    half up; a thrown exception is [None]; the numbers in an order other than price and size are
    integers. *)
From Coq Require Import ZArith List Bool SpecFloat.
From Verif Require Import Base Nodes OrderTree BookSide Heap Market OpenOrders Order Book Instructions Oracle Bytes.
Import ListNotations.
Open Scope Z_scope.

(** [Number] of a decimal text standing for [a / b], not negative: the nearest double. *)
Definition f64_ratio (a b : Z) : f64 :=
  match a, b with
  | Zpos x, Zpos y => let '(m, e, l) := SFdiv_core_binary 53 1024 (Zpos x) 0 (Zpos y) 0 in binary_round_aux 53 1024 false m e l
  | _, _ => S754_zero false
  end.

(** [toFixed(0)] read by [new BN]: the nearest integer, the larger in size of two.  From [10^21] on
    the text has an exponent, which [BN] does not read. *)
Definition js_to_fixed (x : f64) : option Z :=
  match x with
  | S754_zero _ => Some 0
  | S754_finite s m e =>
      let n := if 0 <=? e then Zpos m * 2 ^ e else (2 * Zpos m + 2 ^ (- e)) / (2 * 2 ^ (- e)) in
      if 10 ^ 21 <=? n then None else Some (if s then - n else n)
  | _ => None
  end.

(** utils.ts 47-49 *)
Definition ts_to_native (ui : f64) (decimals : Z) : option Z := js_to_fixed (f64_mul ui (f64_of (10 ^ decimals))).
(** market.ts 80-84 and 85-89; BN's [div] rounds towards zero. *)
Definition ts_base_lots (x : market_rest) (m : market) (ui : f64) : option Z :=
  option_map (fun n => Z.quot n (bls m)) (ts_to_native ui (mr_base_decimals x)).
Definition ts_quote_lots (x : market_rest) (m : market) (ui : f64) : option Z :=
  option_map (fun n => Z.quot n (qls m)) (ts_to_native ui (mr_quote_decimals x)).
(** market.ts 90-99; [new BN] of a number from [2^53] on throws. *)
Definition ts_price_lots (x : market_rest) (m : market) (ui : f64) : option Z :=
  if 2 ^ 53 <=? 10 ^ mr_base_decimals x then None
  else option_map (fun n => Z.quot n (10 ^ mr_base_decimals x * qls m))
         (ts_to_native (f64_mul ui (f64_of (bls m))) (mr_quote_decimals x)).

(** market.ts 48-51: the size of a tick as big.js has it, times [10^20]. *)
Definition ts_tick (x : market_rest) (m : market) : Z :=
  let a := 10 ^ Z.max 0 (mr_base_decimals x - mr_quote_decimals x) * qls m in
  let b := 10 ^ Z.max 0 (mr_quote_decimals x - mr_base_decimals x) * bls m in
  (2 * 10 ^ 20 * a + b) / (2 * b).
(** market.ts 63-65 and 75-77: what [Order.size] and [Order.price] show. *)
Definition ts_show_size (x : market_rest) (m : market) (lots : Z) : f64 := f64_ratio (lots * bls m) (10 ^ mr_base_decimals x).
Definition ts_show_price (x : market_rest) (m : market) (lots : Z) : f64 := f64_ratio (lots * ts_tick x m) (10 ^ 20).

(** openOrders.ts 31-41 *)
Record order_to_place : Type := mkToPlace {
  op_side : side; op_price : f64; op_size : f64; op_quote_limit : option Z; op_client_id : option Z;
  op_type : option place_order_type; op_expiry : option Z; op_self_trade : option self_trade; op_limit : option Z }.
Definition or_else {A} (o : option A) (d : A) : A := match o with Some v => v | None => d end.
(** [a ? a : d] and [a || d] on numbers: 0 counts as missing. *)
Definition or_truthy (o : option Z) (d : Z) : Z := match o with Some v => if v =? 0 then d else v | None => d end.
(** openOrders.ts 398-423: the arguments of [placeOrder]; [now] is [Date.now()]. *)
Definition ts_place_args (x : market_rest) (m : market) (now : Z) (o : order_to_place) : option place_args :=
  match ts_price_lots x m (op_price o), ts_base_lots x m (op_size o) with
  | Some price, Some base =>
      Some (mkPlaceArgs (op_side o) price base (or_truthy (op_quote_limit o) i64_max) (or_truthy (op_client_id o) now)
              (or_else (op_type o) POLimit) (or_else (op_expiry o) 0) (or_else (op_self_trade o) DecrementTake) (or_else (op_limit o) 16))
  | _, _ => None
  end.
