(** Model of /repo/programs/openbook-v2/src/state/orderbook/nodes.rs and of the
    [Side] type of order_type.rs. *)
From Coq Require Import ZArith List Bool.
From Verif Require Import Base.
Import ListNotations.
Open Scope Z_scope.

(** order_type.rs 128-133 *)
Inductive side : Type := Bid | Ask.

Definition side_eqb (a b : side) : bool :=
  match a, b with Bid, Bid | Ask, Ask => true | _, _ => false end.

(** order_type.rs 136-141 *)
Definition invert_side (s : side) : side := match s with Bid => Ask | Ask => Bid end.

(** order_type.rs 152-157 *)
Definition is_price_better (s : side) (lhs rhs : Z) : bool :=
  match s with Bid => rhs <? lhs | Ask => lhs <? rhs end.

(** order_type.rs 160-165 *)
Definition is_price_within_limit (s : side) (price limit : Z) : bool :=
  match s with Bid => price <=? limit | Ask => limit <=? price end.

(** bookside.rs 19-22 *)
Inductive otree_id : Type := Fixed | OraclePegged.

Definition otree_eqb (a b : otree_id) : bool :=
  match a, b with Fixed, Fixed | OraclePegged, OraclePegged => true | _, _ => false end.

(** nodes.rs 32-37.  [!seq] on u64 is [2^64 - 1 - seq]. *)
Definition new_node_key (s : side) (price_data seq : Z) : Z :=
  let seq' := match s with Bid => u64_max - seq | Ask => seq end in
  Z.lor (Z.shiftl price_data 64) seq'.

(** nodes.rs 42-48: [(offset as u64).wrapping_add(u64::MAX / 2 + 1)] *)
Definition oracle_pegged_price_data (offset : Z) : Z := as_u64 (as_u64 offset + two63).

(** nodes.rs 53-55: [price_data.wrapping_sub(u64::MAX / 2 + 1) as i64] *)
Definition oracle_pegged_price_offset (pd : Z) : Z := as_i64 (as_u64 (pd - two63)).

(** nodes.rs 60-63.  The anchor error of [require_gte!] without code is [Constraint]. *)
Definition fixed_price_data (price_lots : Z) : res Z :=
  _ <- require (1 <=? price_lots) Constraint ;; Ok (as_u64 price_lots).

(** nodes.rs 68-71 *)
Definition fixed_price_lots (pd : Z) : res Z :=
  _ <- massert (pd <=? i64_max) ;; Ok (as_i64 pd).

(** nodes.rs 78-100.  [children] and [child_earliest_expiry] are two fields each. *)
Record inner : Type := mkInner {
  in_prefix : Z;
  in_key : Z;
  in_c0 : Z;
  in_c1 : Z;
  in_e0 : Z;
  in_e1 : Z }.

Definition in_child (i : inner) (b : bool) : Z := if b then in_c1 i else in_c0 i.
Definition in_exp (i : inner) (b : bool) : Z := if b then in_e1 i else in_e0 i.
Definition in_set_exp (i : inner) (b : bool) (e : Z) : inner :=
  if b then mkInner (in_prefix i) (in_key i) (in_c0 i) (in_c1 i) (in_e0 i) e
  else mkInner (in_prefix i) (in_key i) (in_c0 i) (in_c1 i) e (in_e1 i).

(** nodes.rs 120-124: bit [127 - prefix_len] of the search key, and that child. *)
Definition crit_bit_of (prefix key : Z) : bool :=
  negb (Z.land key (Z.shiftl 1 (127 - prefix)) =? 0).
Definition walk_down (i : inner) (key : Z) : Z * bool :=
  let b := crit_bit_of (in_prefix i) key in (in_child i b, b).

(** nodes.rs 128-130 *)
Definition inner_earliest_expiry (i : inner) : Z := Z.min (in_e0 i) (in_e1 i).

(** nodes.rs 146-179 *)
Record leaf : Type := mkLeaf {
  lf_slot : Z;
  lf_tif : Z;
  lf_key : Z;
  lf_owner : Z;
  lf_qty : Z;
  lf_ts : Z;
  lf_peg_limit : Z;
  lf_client_id : Z }.

Definition lf_set_qty (l : leaf) (q : Z) : leaf :=
  mkLeaf (lf_slot l) (lf_tif l) (lf_key l) (lf_owner l) q (lf_ts l) (lf_peg_limit l) (lf_client_id l).

(** nodes.rs 217-219: [(key >> 64) as u64] *)
Definition leaf_price_data (l : leaf) : Z := as_u64 (Z.shiftr (lf_key l) 64).

(** nodes.rs 223-229.  [timestamp + time_in_force] cannot overflow u64 because the
    timestamp comes from the non-negative i64 clock; the addition is unchecked here. *)
Definition leaf_expiry (l : leaf) : Z :=
  if lf_tif l =? 0 then u64_max else lf_ts l + lf_tif l.

(** nodes.rs 233-235 *)
Definition leaf_is_expired (l : leaf) (now : Z) : bool :=
  (0 <? lf_tif l) && (lf_ts l + lf_tif l <=? now).

(** nodes.rs 15-21 and 252-256: a tagged union instead of a byte array with a tag.
    Free nodes carry their [next] handle. *)
Inductive node : Type :=
| NUninit
| NInner (i : inner)
| NLeaf (l : leaf)
| NFree (next : Z)
| NLastFree (next : Z).

(** nodes.rs 342-347; [None] is the panic on a node that is neither inner nor leaf. *)
Definition node_earliest_expiry (n : node) : res Z :=
  match n with
  | NInner i => Ok (inner_earliest_expiry i)
  | NLeaf l => Ok (leaf_expiry l)
  | _ => Err Panic
  end.

(** [u128::leading_zeros] *)
Definition leading_zeros128 (x : Z) : Z := if x =? 0 then 128 else 127 - Z.log2 x.
