(** Model of how the TypeScript client finds markets by their mints, on the bytes of Bytes.v:
    /repo/ts/client/src/market.ts 25-44.  (Ts.v has it on bytes laid out field by field.)

    Simplified: the node's answer is a function of the accounts' bytes. *)
From Coq Require Import ZArith List Bool.
From Verif Require Import Base Bytes.
Import ListNotations.
Open Scope Z_scope.

(** A node's [memcmp] filter: false if the account is too short. *)
Definition memcmp (off : nat) (want data : list Z) : bool :=
  if (length data <? off + length want)%nat then false
  else if list_eq_dec Z.eq_dec want (firstn (length want) (skipn off data)) then true else false.
(** market.ts 31-44: [findAccountsByMints]; does an account pass both filters? *)
Definition ts_found_by_mints (base quote : Z) (data : list Z) : bool :=
  memcmp 792 (le 32 base) data && memcmp 824 (le 32 quote) data.

(** client.ts 70-71: the sizes of the accounts made for a new market. *)
Definition ts_bookside_space : Z := 90944 + 8.
Definition ts_heap_space : Z := 91280 + 8.
