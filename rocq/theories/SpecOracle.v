(** Specification vocabulary for oracle prices. *)
From Coq Require Import ZArith Reals Bool SpecFloat.
From Flocq Require Import Core BinarySingleNaN.
From Verif Require Import Base Nodes Market Instructions Oracle.
Open Scope R_scope.

(** The real number a double stands for (0 for NaN and infinities). *)
Definition real (x : f64) : R := SF2R radix2 x.
(** A finite double. *)
Definition double (x : f64) : Prop := valid_binary 53 1024 x = true /\ is_finite_SF x = true.

(** The slot an oracle was last updated in, for the kinds of oracle that say so. *)
Definition last_update (d : oracle_data) : option Z :=
  match d with
  | DStub _ _ slot => if Z.eqb slot 0 then None else Some slot
  | DPyth trading _ _ agg_slot _ _ prev_slot _ => Some (if trading then agg_slot else prev_slot)
  | DSwitchboardV2 _ _ slot => Some slot
  | DSwitchboardV1 _ _ _ slot => Some slot
  | _ => None
  end.

(** At [now_slot] the oracle is not older than the configured number of slots. *)
Definition fresh (c : oracle_cfg) (now_slot : Z) (d : oracle_data) : Prop :=
  (0 <= oc_max_staleness c)%Z -> forall slot, last_update d = Some slot ->
  (now_slot <= slot + oc_max_staleness c)%Z.

(** The oracle states price [p] and uncertainty [d] as doubles. *)
Inductive states : oracle_data -> f64 -> f64 -> Prop :=
| st_stub p d slot : states (DStub p d slot) p d
| st_v2 p d slot : states (DSwitchboardV2 (Ok p) (Ok d) slot) p d
| st_v1 p lo hi slot : states (DSwitchboardV1 p lo hi slot) p (f64_sub hi lo).

(** A Pyth feed: price and confidence are [p * 10^expo] and [c * 10^expo]. *)
Definition pyth_states (d : oracle_data) (p c : Z) : Prop :=
  match d with
  | DPyth trading ap ac _ pp pc _ _ => p = (if trading then ap else pp) /\ c = (if trading then ac else pc)
  | _ => False
  end.

(** [x] exceeds [y] at most by the rounding of one multiplication. *)
Definition at_most (x y : R) : Prop := x <= y + Rabs y / 2 ^ 53 + / 2 ^ 1075.

(** The exact price in lots of a native price, an I80F48 given by its bits. *)
Definition exact_lots (m : market) (p : Z) : Z := (p * bls m / (qls m * 2 ^ 48))%Z.

(** An instruction that takes from the other side: the side it trades against. *)
Definition trades_with (i : instr) : option side :=
  match i with
  | IPlaceOrder _ g => Some (invert_side (pa_side g))
  | IPlacePegged _ g => Some (invert_side (ga_side g))
  | IPlaceTake _ g => Some (invert_side (ta_side g))
  | _ => None
  end.

(** The exact native price: [price] units of quote per unit of base, in smallest units. *)
Definition exact_native (c : oracle_cfg) (price : R) : R :=
  price * powerRZ 10 (oc_quote_decimals c - oc_base_decimals c).
(** [v] is [x] up to a relative error of [2^-50] and an absolute one of [2^-48]. *)
Definition about_equal (v x : R) : Prop := Rabs (v - x) <= Rabs x / 2 ^ 50 + / 2 ^ 48.
(** The I80F48 with bits [p]. *)
Definition fixed_real (p : Z) : R := IZR p / 2 ^ 48.
