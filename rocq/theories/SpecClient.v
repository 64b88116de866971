(** Specification vocabulary for the client library's quotes. *)
From Coq Require Import ZArith List Bool.
From Verif Require Import Base Nodes OrderTree BookSide Heap Market OpenOrders Order Book Instructions Client SpecControl.
Import ListNotations.
Open Scope Z_scope.

(** The book a client reads from the chain. *)
Definition book_of (s : sys) : orderbook := mkOrderbook (w_bids (s_w s)) (w_asks (s_w s)).

(** A take by [x] that moves [base] and [quote] and pays [fee], and nothing else: a buyer pays
    the fee on top, a seller out of what is received. *)
Definition take_moves (x : take_ctx) (sd : side) (base quote fee : Z) (s s' : sys) : Prop :=
  let c := m_cfg (w_mkt (s_w s)) in
  transferred
    (match sd with
     | Bid => [(quote + fee, tx_user_quote x, c_quote_vault c); (base, c_base_vault c, tx_user_base x)]
     | Ask => [(base, tx_user_base x, c_base_vault c); (quote - fee, c_quote_vault c, tx_user_quote x)]
     end) (s_tok s) (s_tok s').
