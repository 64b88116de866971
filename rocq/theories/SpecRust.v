(** Specification vocabulary for the further parts of the Rust client. *)
From Coq Require Import ZArith List Bool.
From Verif Require Import Base Nodes OrderTree BookSide Heap Market OpenOrders Order Book Instructions Program SpecProgram ChainData SpecChain.
Import ListNotations.
Open Scope Z_scope.

(** Every order of the given number of quote lots is within a budget, and no larger number has
    that property. *)
Definition largest_within (lot budget n : Z) : Prop := n * lot <= budget /\ budget < (n + 1) * lot.

(** [k] is a token account of the user for the mint, with room for all that the vault holds. *)
Definition has_room (t : tokens) (k mint user vault : Z) : Prop :=
  exists x v, t k = Some x /\ t_mint x = mint /\ t_owner x = user /\ t vault = Some v /\
  t_amount x + t_amount v <= 18446744073709551615.

(** An owner's account that has just been opened on a market at an address not used before. *)
Record opened (addr : Z -> Z -> Z) (p p' : prog) (m k owner delegate : Z) : Prop := {
  op_new : forall m' a, ~ account_in p m' k a;
  op_acct : exists a, account_in p' m k a /\ a_owner a = owner /\ a_delegate a = delegate /\
    k = addr owner (a_num a) /\ counted p' owner = a_num a /\
    a_pos a = position0 /\ forall oo, In oo (a_orders a) -> oo = open_order0;
  op_others : forall m' k' a, k' <> k -> account_in p' m' k' a <-> account_in p m' k' a }.

(** What the cache is told when a node's answers are fetched until one is for slot [min] or a
    later one. *)
Fixpoint heard (c : chain_data) (k min : Z) (answers : list write) : list news :=
  match answers with
  | [] => []
  | w :: r =>
      match update_from_rpc c k w with
      | Ok c' => rpc_stub c w ++ [NWrite k w] ++ (if min <=? wr_slot w then [] else heard c' k min r)
      | Err _ => []
      end
  end.
