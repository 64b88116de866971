(** ts/client/src/client.ts 523-577: [depositNativeIx], a transaction of four instructions that
    wraps SOL, deposits and unwraps.  Lamports other than those of the wrapping are left out. *)
From Coq Require Import ZArith List Bool.
From Verif Require Import Base Nodes OrderTree BookSide Heap Market OpenOrders Order Book Instructions TsKeep.
Import ListNotations.
Open Scope Z_scope.

(** Rent of a token account of 165 bytes, in lamports. *)
Definition token_rent : Z := 2039280.

(** The system program's [createAccount] and the token program's [initializeAccount3]: the owner's
    [sol] lamports pay, what exceeds the rent counts as wrapped SOL (mint [native]). *)
Definition open_wrapped (t : tokens) (sol w native owner lamports : Z) : res (tokens * Z) :=
  _ <- require (match t w with None => true | Some _ => false end) Constraint ;;
  _ <- require (lamports <=? sol) TokenError ;;
  Ok (upd t w (Some (mkTacc native owner (lamports - token_rent))), sol - lamports).
(** The token program's [closeAccount] of wrapped SOL. *)
Definition close_wrapped (t : tokens) (sol w owner : Z) : res (tokens * Z) :=
  a <- tok_load t w ;;
  _ <- require (t_owner a =? owner) TokenError ;;
  Ok (upd t w None, sol + t_amount a + token_rent).

(** [w] is the key generated at line 532.  Line 537 adds 10^7 lamports; the deposit at 562-574
    takes the base tokens from the account the caller names, not from [w]. *)
Definition ts_deposit_native (sigs : list Z) (e : env) (s : sys) (sol w native k : Z) (a : ooa) (ub uq base quote : Z) : res (sys * Z) :=
  '(t1, sol1) <- open_wrapped (s_tok s) sol w native (a_owner a) (base + 10 ^ 7) ;;
  '(s2, _) <- keep_send sigs e (s_set_tok s t1) (ts_deposit k a ub uq base quote) ;;
  '(t3, sol3) <- close_wrapped (s_tok s2) sol1 w (a_owner a) ;;
  Ok (s_set_tok s2 t3, sol3).
