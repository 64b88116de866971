(** Specification vocabulary for prices and sizes in user units. *)
From Coq Require Import ZArith Reals Bool SpecFloat.
From Flocq Require Import Core.
From Verif Require Import Base Market Oracle SpecOracle Bytes.
Open Scope R_scope.

(** [x] is the double a program has for the number [v]: the nearest one. *)
Definition nearest (v : R) (x : f64) : Prop := double x /\ real x = round radix2 (FLT_exp (-1074) 53) ZnearestE v.

(** Whole tokens in so many of a token's smallest units. *)
Definition tokens (native decimals : Z) : R := IZR native * powerRZ 10 (- decimals).
(** Tokens in so many base lots, and the price of so many ticks in quote tokens per base token. *)
Definition size_of (x : market_rest) (m : market) (lots : Z) : R := tokens (lots * bls m) (mr_base_decimals x).
Definition price_of (x : market_rest) (m : market) (lots : Z) : R :=
  tokens (lots * qls m) (mr_quote_decimals x) / tokens (bls m) (mr_base_decimals x).

(** Terms whose numbers a double can hold. *)
Record usual (x : market_rest) (m : market) : Prop := {
  us_bd : (0 <= mr_base_decimals x <= 15)%Z; us_qd : (0 <= mr_quote_decimals x <= 15)%Z;
  us_bls : (1 <= bls m < 2 ^ 53)%Z; us_qls : (1 <= qls m)%Z }.
(** The tick has at most twenty decimal places. *)
Definition short_tick (x : market_rest) (m : market) : Prop :=
  exists n, price_of x m 1 = tokens n 20.
(** A number a double represents with full precision. *)
Definition not_tiny (v : R) : Prop := v = 0 \/ / 2 ^ 900 <= v.
