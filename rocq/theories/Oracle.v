(** Model of /repo/programs/openbook-v2/src/state/oracle.rs and of the price functions
    of market.rs.

    [f64] is [spec_float] of the standard library with 53 bits of precision and maximal
    exponent 1024, round to nearest even: IEEE 754 binary64 with a single NaN, as plain
    data.  [I80F48] and [U64F64] are the integers of their bits. *)
From Coq Require Import ZArith List Bool SpecFloat.
From Verif Require Import Base Nodes OrderTree BookSide Heap Market OpenOrders Order Book Instructions.
Import ListNotations.
Open Scope Z_scope.

Definition f64 : Type := spec_float.
Definition f64_mul : f64 -> f64 -> f64 := SFmul 53 1024.
Definition f64_div : f64 -> f64 -> f64 := SFdiv 53 1024.
Definition f64_add : f64 -> f64 -> f64 := SFadd 53 1024.
Definition f64_sub : f64 -> f64 -> f64 := SFsub 53 1024.
(** [a > b] and [a >= b]; both false if one of them is NaN. *)
Definition f64_gt (a b : f64) : bool := SFltb b a.
Definition f64_ge (a b : f64) : bool := SFleb b a.
(** The double nearest to [z * 2^e]; [z as f64] for [e = 0]. *)
Definition f64_near (z e : Z) : f64 := binary_normalize 53 1024 z e false.
Definition f64_of (z : Z) : f64 := f64_near z 0.

(** oracle.rs 14-22.  [10^k] is exact for [0 <= k <= 12] and [10^(-k)] is the literal
    [1e-k], the double nearest to it: the correctly rounded quotient of two exact
    doubles.  [decimals + 12] overflows i8 above 115; the cast to usize of a negative
    value and an index above 24 are out of bounds. *)
Definition power_of_ten_float (decimals : Z) : res f64 :=
  _ <- massert ((-12 <=? decimals) && (decimals <=? 12)) ;;
  Ok (if 0 <=? decimals then f64_of (10 ^ decimals)
      else f64_div (f64_of 1) (f64_of (10 ^ (- decimals)))).

(** oracle.rs 35-39 and 53-59: no limit is -1.  market.rs: the decimals of the mints. *)
Record oracle_cfg : Type := mkOracleCfg {
  oc_conf_filter : f64;
  oc_max_staleness : Z;
  oc_base_decimals : Z;
  oc_quote_decimals : Z }.

(** The oracle accounts, already decoded: oracle.rs 141-171 tells them apart by magic
    bytes or owning program.  For Switchboard V2 [sb_result] and [sb_deviation] are the
    results of the decimal conversions of the Switchboard library, which may fail. *)
Inductive oracle_data : Type :=
| DStub (price deviation : f64) (last_update_slot : Z)
| DPyth (trading : bool) (agg_price agg_conf agg_slot prev_price prev_conf prev_slot expo : Z)
| DSwitchboardV2 (sb_result sb_deviation : res f64) (round_open_slot : Z)
| DSwitchboardV1 (result min_response max_response : f64) (round_open_slot : Z)
| DRaydium (sqrt_price_x64 mint_decimals_0 mint_decimals_1 : Z)
| DBadPyth
| DUnknown.

Record oracle_acc : Type := mkOracleAcc { oa_key : Z; oa_data : oracle_data }.

(** oracle.rs 70-75; the type tag is only used for tests. *)
Record oracle_state : Type := mkOracleState {
  os_price : f64;
  os_deviation : f64;
  os_slot : Z }.

Definition as_i8 (z : Z) : Z := (z + 128) mod 256 - 128.
Definition chk_i8 : Z -> res Z := chk (in_range (-128) 127).

(** [require_gte!(price, 0f64)] *)
Definition require_nonneg (p : f64) : res unit := require (f64_ge p (f64_of 0)) Constraint.

(** oracle.rs 178-200 *)
Definition pyth_get_price (d : oracle_data) : res (Z * Z * Z) :=
  match d with
  | DPyth trading ap ac aslot pp pc pslot _ =>
      Ok (if trading then (ap, ac, aslot) else (pp, pc, pslot))
  | _ => Err Panic
  end.

(** oracle.rs 208-309.  [U64F64] multiplication wraps: the fixed crate checks for
    overflow with a debug assertion. *)
Definition oracle_state_unchecked (a : oracle_acc) : res oracle_state :=
  match oa_data a with
  | DStub price deviation slot =>
      Ok (mkOracleState price deviation (if slot =? 0 then u64_max else slot))
  | DPyth _ _ _ _ _ _ _ expo =>
      '(p, c, slot) <- pyth_get_price (oa_data a) ;;
      adj <- power_of_ten_float (as_i8 expo) ;;
      let price := f64_mul (f64_of p) adj in
      let deviation := f64_mul (f64_of c) adj in
      _ <- require_nonneg price ;;
      Ok (mkOracleState price deviation slot)
  | DSwitchboardV2 result deviation slot =>
      price <- result ;;
      dev <- deviation ;;
      _ <- require_nonneg price ;;
      Ok (mkOracleState price dev slot)
  | DSwitchboardV1 result mn mx slot =>
      _ <- require_nonneg result ;;
      Ok (mkOracleState result (f64_sub mx mn) slot)
  | DRaydium sqrt d0 d1 =>
      dec <- chk_i8 (as_i8 d0 - as_i8 d1) ;;
      adj <- power_of_ten_float dec ;;
      let sq := Z.shiftr (sqrt * sqrt) 64 mod 2 ^ 128 in
      let price := f64_mul (f64_near sq (-64)) adj in
      _ <- require_nonneg price ;;
      Ok (mkOracleState price (f64_of 0) u64_max)
  | DBadPyth => Err Panic
  | DUnknown => Err UnknownOracleType
  end.

(** oracle.rs 78-97 *)
Definition is_stale (o : oracle_state) (c : oracle_cfg) (now_slot : Z) : bool :=
  (0 <=? oc_max_staleness c)
  && (Z.min u64_max (os_slot o + as_u64 (oc_max_staleness c)) <? now_slot).

(** oracle.rs 99-112 *)
Definition has_valid_confidence (o : oracle_state) (c : oracle_cfg) : bool :=
  negb (f64_gt (os_deviation o) (f64_mul (oc_conf_filter c) (os_price o))).

(** oracle.rs 114-134; [powi(2)] is the product with itself. *)
Definition has_valid_combined_confidence (a b : oracle_state) (c : oracle_cfg) : bool :=
  let ra := f64_div (os_deviation a) (os_price a) in
  let rb := f64_div (os_deviation b) (os_price b) in
  let var := f64_add (f64_mul ra ra) (f64_mul rb rb) in
  let target := f64_mul (oc_conf_filter c) (oc_conf_filter c) in
  negb (f64_gt var target).

(** [I80F48::checked_from_num] of a double: nearest multiple of [2^-48], ties to even;
    [None] for NaN, infinities and values that do not fit 128 bits. *)
Definition round_shift (m k : Z) : Z :=
  if k <=? 0 then m * 2 ^ (- k)
  else
    let q := m / 2 ^ k in
    let r := m mod 2 ^ k in
    let half := 2 ^ (k - 1) in
    if r <? half then q
    else if half <? r then q + 1
    else if Z.even q then q else q + 1.

Definition i80f48_of_f64 (x : f64) : option Z :=
  match x with
  | S754_zero _ => Some 0
  | S754_finite s m e =>
      let v := round_shift (Z.pos m) (- (e + 48)) in
      let v := if s then - v else v in
      if in_i128 v then Some v else None
  | _ => None
  end.

(** market.rs 215-219: [lot_to_native_price].  The fixed crate's plain operators wrap
    instead of panicking; a zero divisor panics. *)
Definition as_i128 (z : Z) : Z := (z + 2 ^ 127) mod 2 ^ 128 - 2 ^ 127.
Definition lot_to_native_price (m : market) (price : Z) : res Z :=
  let a := as_i128 (Z.shiftr ((price * 2 ^ 48) * (qls m * 2 ^ 48)) 48) in
  _ <- massert (negb (bls m =? 0)) ;;
  Ok (as_i128 (Z.quot (a * 2 ^ 48) (bls m * 2 ^ 48))).

(** market.rs 221-227.  Products of [I80F48] are shifted right by 48 bits, quotients
    truncate toward zero, and the conversion to i64 rounds toward minus infinity. *)
Definition checked_i128 (z : Z) : option Z := if in_i128 z then Some z else None.
Definition i80f48_checked_mul (a b : Z) : option Z := checked_i128 (Z.shiftr (a * b) 48).
Definition i80f48_checked_div (a b : Z) : option Z :=
  if b =? 0 then None else checked_i128 (Z.quot (a * 2 ^ 48) b).
Definition i80f48_to_i64 (a : Z) : option Z :=
  let v := Z.shiftr a 48 in if in_i64 v then Some v else None.

Definition native_price_to_lot (m : market) (price : Z) : res Z :=
  match i80f48_checked_mul price (bls m * 2 ^ 48) with
  | None => Err InvalidOraclePrice
  | Some x =>
      match i80f48_checked_div x (qls m * 2 ^ 48) with
      | None => Err InvalidOraclePrice
      | Some y =>
          match i80f48_to_i64 y with
          | None => Err InvalidOraclePrice
          | Some v => Ok v
          end
      end
  end.

(** market.rs 270-272 and 295-297 *)
Definition decimal_adjustment (c : oracle_cfg) : res f64 :=
  d <- chk_i8 (as_i8 (oc_quote_decimals c) - as_i8 (oc_base_decimals c)) ;;
  power_of_ten_float d.

(** market.rs 257-275 *)
Definition oracle_price_from_a (m : market) (c : oracle_cfg) (acc : oracle_acc) (now_slot : Z)
  : res (option Z) :=
  _ <- massert (c_oracle_a (m_cfg m) =? oa_key acc) ;;
  o <- oracle_state_unchecked acc ;;
  if is_stale o c now_slot || negb (has_valid_confidence o c) then Ok None
  else
    adj <- decimal_adjustment c ;;
    Ok (i80f48_of_f64 (f64_mul (os_price o) adj)).

(** market.rs 277-299 *)
Definition oracle_price_from_a_and_b (m : market) (c : oracle_cfg) (acc_a acc_b : oracle_acc)
  (now_slot : Z) : res (option Z) :=
  _ <- massert (c_oracle_a (m_cfg m) =? oa_key acc_a) ;;
  _ <- massert (c_oracle_b (m_cfg m) =? oa_key acc_b) ;;
  a <- oracle_state_unchecked acc_a ;;
  b <- oracle_state_unchecked acc_b ;;
  if is_stale a c now_slot || is_stale b c now_slot
     || negb (has_valid_combined_confidence a b c)
  then Ok None
  else
    adj <- decimal_adjustment c ;;
    Ok (i80f48_of_f64 (f64_mul (f64_div (os_price a) (os_price b)) adj)).

(** market.rs 242-255 *)
Definition oracle_price (m : market) (c : oracle_cfg) (acc_a acc_b : option oracle_acc)
  (now_slot : Z) : res (option Z) :=
  if negb (c_oracle_a (m_cfg m) =? 0) && negb (c_oracle_b (m_cfg m) =? 0) then
    a <- unwrap acc_a ;; b <- unwrap acc_b ;; oracle_price_from_a_and_b m c a b now_slot
  else if negb (c_oracle_a (m_cfg m) =? 0) then
    a <- unwrap acc_a ;; oracle_price_from_a m c a now_slot
  else Ok None.

(** market.rs 229-240 *)
Definition oracle_price_lots (m : market) (c : oracle_cfg) (acc_a acc_b : option oracle_acc)
  (now_slot : Z) : res (option Z) :=
  p <- oracle_price m c acc_a acc_b now_slot ;;
  match p with
  | Some p => v <- native_price_to_lot m p ;; Ok (Some v)
  | None => Ok None
  end.

(** The environment of an instruction ([env] of Instructions.v) made from the oracle
    accounts on chain: place_order.rs 37-42 and its siblings. *)
Definition env_of_oracles (now slot : Z) (m : market) (c : oracle_cfg) (a b : option oracle_acc) : env :=
  mkEnv now (oracle_price_lots m c a b slot).
