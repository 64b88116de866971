(** Model of the conversions exported by /repo/ts/client/src/market.ts 145-161, which exist beside
    those of the class [Market] (Units.v) and are given the market's account.  Simplified as in
    Units.v. *)
From Coq Require Import ZArith List Bool SpecFloat.
From Verif Require Import Base Nodes OrderTree BookSide Heap Market OpenOrders Order Book Instructions Oracle Bytes Units.
Import ListNotations.
Open Scope Z_scope.

(** market.ts 145-149: the price is rounded to the quote token's smallest unit first; [new BN] of
    a number from [2^53] on throws. *)
Definition ts_ui_price_to_lots (x : market_rest) (m : market) (ui : f64) : option Z :=
  if 2 ^ 53 <=? 10 ^ mr_base_decimals x then None
  else option_map (fun n => Z.quot (n * bls m) (qls m * 10 ^ mr_base_decimals x)) (ts_to_native ui (mr_quote_decimals x)).
(** market.ts 151-153 *)
Definition ts_ui_base_to_lots (x : market_rest) (m : market) (ui : f64) : option Z :=
  option_map (fun n => Z.quot n (bls m)) (ts_to_native ui (mr_base_decimals x)).
(** market.ts 155-157 *)
Definition ts_ui_quote_to_lots (x : market_rest) (m : market) (ui : f64) : option Z :=
  option_map (fun n => Z.quot n (qls m)) (ts_to_native ui (mr_quote_decimals x)).
(** market.ts 159-161: quote units per base unit, rounded down. *)
Definition ts_price_to_native (m : market) (lots : Z) : Z := Z.quot (lots * qls m) (bls m).
