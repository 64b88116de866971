(** Specification vocabulary for the claim that it does not matter in the end which accounts are
    passed along with an order. *)
From Coq Require Import ZArith List Bool.
From Verif Require Import Base Nodes OrderTree BookSide Heap Market OpenOrders Order Book Instructions SpecBook.
Import ListNotations.
Open Scope Z_scope.

(** The instruction with other accounts passed along (the remaining accounts of placing an order). *)
Definition with_rem (i : instr) (r : list Z) : instr :=
  let p x := mkPlaceCtx (px_signer x) (px_acct x) (px_admin x) (px_user_token x) (px_vault x) r in
  match i with
  | IPlaceOrder x g => IPlaceOrder (p x) g
  | IPlacePegged x g => IPlacePegged (p x) g
  | IEditOrder x cid expected g => IEditOrder (p x) cid expected g
  | IEditPegged x cid expected g => IEditPegged (p x) cid expected g
  | IPlaceTake x g => IPlaceTake (mkTakeCtx (tx_signer x) (tx_admin x) (tx_user_base x) (tx_user_quote x) r) g
  | IPlaceMulti x cancel t bids asks limit =>
      IPlaceMulti (mkMultiCtx (mx_signer x) (mx_acct x) (mx_admin x) (mx_user_quote x) (mx_user_base x) r) cancel t bids asks limit
  | _ => i
  end.

(** The open orders account an order is placed through, if any. *)
Definition placed_by (i : instr) : option Z :=
  match i with
  | IPlaceOrder x _ | IPlacePegged x _ | IEditOrder x _ _ _ | IEditPegged x _ _ _ => Some (px_acct x)
  | IPlaceMulti x _ _ _ _ _ => Some (mx_acct x)
  | _ => None
  end.

(** Everything of [a] but the count of penalties it owes. *)
Definition but_penalty (a : ooa) : ooa := a_set_pos a (p_set_penalty (a_pos a) 0).

(** The same market, books, accounts and tokens; account [k] may owe one penalty more or less. *)
Record same_end (k : option Z) (s1 s2 : sys) : Prop := {
  sm_market : w_mkt (s_w s1) = w_mkt (s_w s2);
  sm_books : forall s, w_book (s_w s1) s = w_book (s_w s2) s;
  sm_tokens : s_tok s1 = s_tok s2;
  sm_closed : s_closed s1 = s_closed s2;
  sm_others : forall j, k <> Some j -> acct_get j (w_accts (s_w s1)) = acct_get j (w_accts (s_w s2));
  sm_own : forall j a1, k = Some j -> acct_get j (w_accts (s_w s1)) = Some a1 ->
    exists a2, acct_get j (w_accts (s_w s2)) = Some a2 /\ but_penalty a1 = but_penalty a2 /\
      Z.abs (p_penalty (a_pos a1) - p_penalty (a_pos a2)) <= 1 }.
