(** A market created at the address of a closed one. *)
From Coq Require Import ZArith List Bool.
From Verif Require Import Base Nodes OrderTree BookSide Heap Market OpenOrders Order Book Instructions.
Import ListNotations.
Open Scope Z_scope.

(** accounts_ix/create_market.rs 11-16: [init] works on the address of a closed market, whose account is
    gone, for who has its private key (instructions/close_market.rs, [close = sol_destination]).  Open
    orders accounts name their market by its address only (state/open_orders_account.rs 18), so those
    of [old] become accounts of the new market as they are.  Simplified: the new books and heap may be
    at any addresses. *)
Definition create_again (now : Z) (old : sys) (c : mcfg) (time_expiry : Z) : res sys :=
  _ <- require (s_closed old) Constraint ;;
  s <- create_market_ix now (s_tok old) c time_expiry ;;
  Ok (s_set_w s (w_set_accts (s_w s) (w_accts (s_w old)))).
