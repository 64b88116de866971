(** Specification vocabulary for closed markets. *)
From Coq Require Import ZArith List Bool.
From Verif Require Import Base Nodes OrderTree BookSide Heap Market OpenOrders Order Book Instructions SpecBook SpecSystem SpecControl.
Import ListNotations.
Open Scope Z_scope.

(** The same owner, balances and orders; only the delegate may differ. *)
Definition same_holdings (a a' : ooa) : Prop :=
  a_pos a' = a_pos a /\ a_owner a' = a_owner a /\ forall i, order_at a' i = order_at a i.

(** No orders, no events, and nobody has or owes anything. *)
Record over (s : sys) : Prop := {
  ov_orders : forall sd, orders (s_w s) sd = [];
  ov_events : waiting (s_w s) = [];
  ov_accts : forall k a, acct_get k (w_accts (s_w s)) = Some a -> empty_handed a;
  ov_base : m_base_total (w_mkt (s_w s)) = 0;
  ov_quote : m_quote_total (w_mkt (s_w s)) = 0 }.

(** Any executions of one market. *)
Inductive goes_on : sys -> sys -> Prop :=
| go_none s : goes_on s s
| go_step e s i s1 out s2 : exec e s i = Ok (s1, out) -> goes_on s1 s2 -> goes_on s s2.
