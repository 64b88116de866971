(** What is said about the SOL paid for events left in the queue. *)
From Coq Require Import ZArith List Bool.
From Verif Require Import Base Nodes OrderTree BookSide Heap Market OpenOrders Order Book Instructions
  SpecBook SpecSystem Sol.
Import ListNotations.
Open Scope Z_scope.

(** The instructions that send orders. *)
Definition sends_orders (i : instr) : bool :=
  match i with
  | IPlaceOrder _ _ | IPlacePegged _ _ | IEditOrder _ _ _ _ | IEditPegged _ _ _ _
  | IPlaceTake _ _ | IPlaceMulti _ _ _ _ _ _ => true
  | _ => false
  end.

(** One for a call that sends orders and leaves more events waiting than there were. *)
Definition litters (s : sys) (i : instr) (s' : sys) : Z :=
  if sends_orders i && (length (waiting (s_w s)) <? length (waiting (s_w s')))%nat then 1 else 0.

(** The penalties an account has not paid yet, and those of all accounts. *)
Definition unpaid_by (k : Z) (w : world) : Z :=
  match acct_get k (w_accts w) with Some a => p_penalty (a_pos a) | None => 0 end.
Definition unpaid (w : world) : Z := fold_right Z.add 0 (map (fun x => p_penalty (a_pos (snd x))) (w_accts w)).

(** The account the sender's penalty is booked on, if the orders are sent for an account. *)
Definition orders_for (i : instr) : option Z :=
  match i with
  | IPlaceOrder x _ | IPlacePegged x _ | IEditOrder x _ _ _ | IEditPegged x _ _ _ => Some (px_acct x)
  | IPlaceMulti x _ _ _ _ _ => Some (mx_acct x)
  | _ => None
  end.
Definition settled_by (i : instr) : option Z :=
  match i with ISettle _ k _ _ _ | ISettleExpired _ k _ _ _ => Some k | _ => None end.

(** How many penalties a call has its payer pay on the spot: an order without an account
    pays for itself, settling an account pays for all its orders. *)
Definition penalties_paid (s : sys) (i : instr) (s' : sys) : Z :=
  match i with
  | IPlaceTake _ _ => litters s i s'
  | _ => match settled_by i with Some k => unpaid_by k (s_w s) | None => 0 end
  end.
Definition closes_market (i : instr) : bool := match i with ICloseMarket _ => true | _ => false end.

(** Executions on a market with address [market] that is not closed on the way: calls by
    anyone, in any order and any number, and gifts of SOL to the market or between other
    accounts.  [n] counts the calls that littered, [g] adds up the gifts to the market. *)
Inductive history (market : Z) (s : sys) (l : lamports) : Z -> Z -> sys -> lamports -> Prop :=
| h_none : history market s l 0 0 s l
| h_call n g s1 l1 e payer dest i s2 l2 out : history market s l n g s1 l1 ->
    exec_sol e market s1 l1 payer dest i = Ok (s2, l2, out) -> (forall u, i <> ICloseMarket u) ->
    history market s l (n + litters s1 i s2) g s2 l2
| h_gift n g s1 l1 from to amount l2 : history market s l n g s1 l1 ->
    sol_transfer l1 market amount from to = Ok l2 ->
    history market s l n (g + if (to =? market) && (0 <? amount) then amount else 0) s1 l2.
