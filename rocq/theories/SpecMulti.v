(** Specification of placing several orders at once. *)
From Coq Require Import ZArith List Bool Lia.
From Verif Require Import Base Nodes OrderTree BookSide Book Instructions SpecBook SpecEvents SpecSystem.
Import ListNotations.
Open Scope Z_scope.

(** [signer] owns the token account [user], and all of it fits into [vault]. *)
Definition can_pay (t : tokens) (signer user vault : Z) : Prop :=
  exists u v, t user = Some u /\ t vault = Some v /\ t_owner u = signer /\ 0 <= t_amount u /\ t_amount u + t_amount v <= u64_max.

(** Every order of account [k] on the book is among [ids]. *)
Definition all_among (ids : list (option Z)) (k : Z) (w : world) : Prop :=
  forall sd t l, In (t, l) (orders w sd) -> lf_owner l = k -> In (Some (lf_key l)) ids.
