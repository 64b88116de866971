(** Results, panics and machine integers.

    Rust's [Result] and panics are one type: [Ok a] or [Err e], where [Panic] is one
    of the errors.  Both make a Solana transaction fail as a whole.  The workspace's
    release profile sets [overflow-checks = true] (/repo/Cargo.toml), so every
    [+ - *] of the program panics on overflow: [chk_*] below.  [as] casts wrap. *)
From Coq Require Import ZArith List Bool Lia.
Import ListNotations.
Open Scope Z_scope.

(** Error values.  Names follow /repo/programs/openbook-v2/src/error.rs where they
    come from there.  [Constraint] stands for any failed Anchor account constraint,
    [BorrowFailed] for a second mutable borrow of an account, [AccountMissing] for an
    account that does not exist, [TokenError] for a failed SPL token transfer and
    [OutOfFuel] for a bounded recursion of the model that ran out. *)
Inductive err : Type :=
| Panic | OutOfFuel | Constraint | BorrowFailed | AccountMissing | TokenError
| SomeError | InvalidInputLots | InvalidInputLotsSize | InvalidInputPriceLots
| InvalidInputPegLimit | InvalidInputOrderId | InvalidInputOrderType
| InvalidInputHeapSlots | InvalidInputCancelSize | InvalidInputMarketFees
| InvalidInputMarketExpired | InvalidInputOrdersAmounts | InvalidInputNameLength
| InvalidPriceLots | InvalidPostAmount | InvalidOrderPostMarket | InvalidOrderPostIOC
| OraclePegInvalidOracleState | DisabledOraclePeg | InvalidSecondOracle | InvalidOracleTypes
| InvalidOraclePrice | UnknownOracleType
| WouldSelfTrade | WouldExecutePartially
| OpenOrdersFull | OpenOrdersOrderNotFound | OrderIdNotFound
| MarketHasExpired | MarketHasNotExpired | NonEmptyMarket
| BookContainsElements | EventHeapContainsElements
| NonEmptyOpenOrdersPosition | IndexerActiveOO
| NoOwnerOrDelegate | InvalidMarketVault | InvalidOpenOrdersAdmin
| InvalidConsumeEventsAdmin | NoCloseMarketAdmin | InvalidCloseMarketAdmin.

Inductive res (A : Type) : Type :=
| Ok (a : A)
| Err (e : err).
Arguments Ok {A} _.
Arguments Err {A} _.

Definition bind {A B} (m : res A) (f : A -> res B) : res B :=
  match m with Ok a => f a | Err e => Err e end.

Declare Scope res_scope.
Notation "x <- e ;; k" := (bind e (fun x => k))
  (at level 61, e at next level, right associativity) : res_scope.
Notation "' p <- e ;; k" := (bind e (fun x => let p := x in k))
  (at level 61, p pattern, e at next level, right associativity) : res_scope.
Open Scope res_scope.

(** [require!(c, e)] and [assert!(c)] *)
Definition require (c : bool) (e : err) : res unit := if c then Ok tt else Err e.
Definition massert (c : bool) : res unit := require c Panic.
(** [Option::unwrap] *)
Definition unwrap {A} (o : option A) : res A :=
  match o with Some a => Ok a | None => Err Panic end.

Definition i64_min : Z := -9223372036854775808.
Definition i64_max : Z := 9223372036854775807.
Definition u8_max : Z := 255.
Definition u16_max : Z := 65535.
Definition u32_max : Z := 4294967295.
Definition u64_max : Z := 18446744073709551615.
Definition two63 : Z := 9223372036854775808.
Definition two64 : Z := 18446744073709551616.
Definition i128_min : Z := -170141183460469231731687303715884105728.
Definition i128_max : Z := 170141183460469231731687303715884105727.
Definition u128_max : Z := 340282366920938463463374607431768211455.

Definition in_range (lo hi z : Z) : bool := (lo <=? z) && (z <=? hi).
Definition in_i64 (z : Z) : bool := in_range i64_min i64_max z.
Definition in_u64 (z : Z) : bool := in_range 0 u64_max z.
Definition in_u128 (z : Z) : bool := in_range 0 u128_max z.
Definition in_i128 (z : Z) : bool := in_range i128_min i128_max z.

Definition chk (p : Z -> bool) (z : Z) : res Z := if p z then Ok z else Err Panic.
Definition chk_i64 := chk in_i64.
Definition chk_u64 := chk in_u64.
Definition chk_u128 := chk in_u128.
Definition chk_i128 := chk in_i128.

(** [x as u64] and [x as i64] *)
Definition as_u64 (z : Z) : Z := z mod two64.
Definition as_i64 (z : Z) : Z :=
  let w := z mod two64 in if w <? two63 then w else w - two64.

(** Rust integer division truncates toward zero and panics on zero. *)
Definition div_i64 (a b : Z) : res Z :=
  if b =? 0 then Err Panic else chk_i64 (Z.quot a b).

(** Update of a total map. *)
Definition upd {A} (f : Z -> A) (i : Z) (v : A) : Z -> A :=
  fun j => if j =? i then v else f j.

(** Update of a list position. *)
Fixpoint set_nth {A} (n : nat) (v : A) (l : list A) : list A :=
  match l, n with
  | [], _ => []
  | _ :: r, O => v :: r
  | x :: r, S n => x :: set_nth n v r
  end.

Definition sumZ (l : list Z) : Z := fold_right Z.add 0 l.
