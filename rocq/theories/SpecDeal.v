(** Specification vocabulary for what an order may cost its sender. *)
From Coq Require Import ZArith List Bool.
From Verif Require Import Base Nodes OrderTree BookSide Heap Market OpenOrders Order Book Instructions
  SpecFees SpecOrder SpecSystem SpecTrade.
Import ListNotations.
Open Scope Z_scope.

(** The worst a trade of [n] base lots at the price of [p] may be: what a buyer pays at most, fee
    included, and what a seller gets at least, fee deducted. *)
Definition dearest (m : market) (n p : Z) : Z := n * p * qls m + taker_pays m (n * p * qls m).
Definition cheapest (m : market) (n p : Z) : Z := n * p * qls m - taker_pays m (n * p * qls m).

(** An order through an account: who sends it, its side, and the most it may trade. *)
Definition asked_by (i : instr) : option (place_ctx * side * Z * Z) :=
  match i with
  | IPlaceOrder x g => Some (x, pa_side g, pa_max_base g, pa_max_quote g)
  | IEditOrder x _ _ g => Some (x, pa_side g, pa_max_base g, pa_max_quote g)
  | IPlacePegged x g => Some (x, ga_side g, ga_max_base g, ga_max_quote g)
  | IEditPegged x _ _ g => Some (x, ga_side g, ga_max_base g, ga_max_quote g)
  | _ => None
  end.
