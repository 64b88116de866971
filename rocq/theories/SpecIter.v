(** Specification vocabulary for what iterating a book side lists of its pegged orders. *)
From Coq Require Import ZArith List.
From Verif Require Import Base Nodes OrderTree BookSide SpecBook.
Import ListNotations.
Open Scope Z_scope.

(** The pegged orders among those listed, in the order listed. *)
Definition pegged_of (items : list item) : list leaf :=
  map im_leaf (filter (fun i => match im_tree i with Fixed => false | OraclePegged => true end) items).

(** The best limit order comes before the pegged order [b]: better price, or the same price
    and older. *)
Definition overtaken (s : side) (oracle : Z) (limit_orders : list leaf) (b : leaf) : Prop :=
  exists f r, limit_orders = f :: r /\
    better_order s (exact_price Fixed oracle f) (seq_of s f) (exact_price OraclePegged oracle b) (seq_of s b).

(** The pegged orders listed when [before] are the pegged orders out of range ahead of those
    in range, and [inside] those in range: all, unless something is out of range ahead of
    them.  Then one order in range is lost: the first if a limit order is listed before it,
    the second otherwise. *)
Definition pegged_listed (s : side) (oracle : Z) (limit_orders before inside listed : list leaf) : Prop :=
  match before, inside with
  | [], _ => listed = inside
  | _, [] => listed = []
  | _, b :: r =>
      (overtaken s oracle limit_orders b -> listed = r) /\
      (~ overtaken s oracle limit_orders b -> listed = b :: tl r)
  end.
