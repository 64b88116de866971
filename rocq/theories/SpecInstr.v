(** Specification vocabulary for single instructions. *)
From Coq Require Import ZArith List Bool.
From Verif Require Import Base Nodes Order Instructions SpecBook.
Import ListNotations.
Open Scope Z_scope.

(** The instructions that place one order on the book: its side and expiry timestamp. *)
Definition placing (i : instr) : option (side * Z) :=
  match i with
  | IPlaceOrder _ g | IEditOrder _ _ _ g => Some (pa_side g, pa_expiry g)
  | IPlacePegged _ g | IEditPegged _ _ _ g => Some (ga_side g, ga_expiry g)
  | _ => None
  end.

(** The account an instruction places for. *)
Definition placing_for (i : instr) : option Z :=
  match i with
  | IPlaceOrder x _ | IEditOrder x _ _ _ | IPlacePegged x _ | IEditPegged x _ _ _ => Some (px_acct x)
  | _ => None
  end.

(** An order placed at [now] with expiry timestamp [expiry], 0 for none, can trade before
    that time and at most 65535 seconds. *)
Definition expires_at (now expiry : Z) (l : leaf) : Prop :=
  (expiry = 0 -> forall u, live u l) /\
  (expiry <> 0 -> now < expiry /\ forall u, live u l <-> u < Z.min expiry (now + 65535)).
