(** ts/client/src/client.ts 424-470: [createOpenOrdersIx], which reads the owner's indexer and
    opens the next account, with an indexer if there is none. *)
From Coq Require Import ZArith List Bool.
From Verif Require Import Base Nodes OrderTree BookSide Heap Market OpenOrders Order Book Instructions Program.
Import ListNotations.
Open Scope Z_scope.

(** Lines 432-451: the number of the account to open; [read] is the indexer as it was read, [None]
    if there is none or reading failed (the [catch]). *)
Definition ts_next_number (read : option indexer) : Z := match read with None => 1 | Some x => ix_counter x + 1 end.
(** Lines 389-402: the number is written in four bytes, a larger one throws. *)
Definition ts_address (addr : Z -> Z -> Z) (owner n : Z) : res Z :=
  _ <- require (n <=? u32_max) SomeError ;; Ok (addr owner n).

(** Sending the instructions built from what was read.  The owner signs.  Anchor compares the
    address given with the one derived from the indexer's counter
    (accounts_ix/create_open_orders_account.rs 25-31).  The address is returned. *)
Definition ts_open (addr : Z -> Z -> Z) (e : env) (p : prog) (read : option indexer) (m owner delegate name_len : Z) : res (prog * Z) :=
  k <- ts_address addr owner (ts_next_number read) ;;
  '(p1, _) <- match read with None => pexec addr e p (PCreateIndexer owner) | Some _ => Ok (p, ONone) end ;;
  x <- al_load owner (p_idx p1) ;;
  _ <- require (k =? addr owner (ix_counter x + 1)) Constraint ;;
  '(p2, _) <- pexec addr e p1 (PCreateAccount m owner delegate name_len) ;;
  Ok (p2, k).
