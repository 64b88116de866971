(** Model of the stub oracle's instructions: /repo/programs/openbook-v2/src/instructions/
    stub_oracle_create.rs, stub_oracle_set.rs and stub_oracle_close.rs with their accounts in
    accounts_ix/, and of what a market reads from such an account (state/oracle.rs 152-158, 219-234).

    Simplified: payers and rent are left out; [addr] derives the address from owner and mint. *)
From Coq Require Import ZArith List Bool SpecFloat.
From Verif Require Import Base Nodes OrderTree BookSide Heap Market OpenOrders Order Book Instructions Program Oracle.
Import ListNotations.
Open Scope Z_scope.

(** state/oracle.rs 138-147 (reserved bytes left out) *)
Record stub : Type := mkStub {
  sb_owner : Z; sb_mint : Z; sb_price : f64; sb_last_ts : Z; sb_last_slot : Z; sb_deviation : f64 }.
(** The accounts that are stub oracles, by address. *)
Definition stubs : Type := list (Z * stub).

Inductive stub_ix : Type :=
| SCreate (owner mint : Z) (price : f64)
| SSet (owner oracle : Z) (price : f64)
| SClose (owner oracle : Z).
(** accounts_ix/stub_oracle_*.rs: the owner signs in each. *)
Definition stub_signer (i : stub_ix) : Z :=
  match i with SCreate o _ _ | SSet o _ _ | SClose o _ => o end.

(** instructions/stub_oracle_create.rs 5-16, stub_oracle_set.rs 4-13, stub_oracle_close.rs 4-6 and the
    constraints of accounts_ix/stub_oracle_create.rs 6-20, stub_oracle_set.rs 5-12 and
    stub_oracle_close.rs 7-19; [ts] and [slot] are the clock's. Built with the feature enable-gpl
    (lib.rs 605-621). *)
Definition stub_exec (addr : Z -> Z -> Z) (signed : list Z) (ts slot : Z) (st : stubs) (i : stub_ix) : res stubs :=
  _ <- require (existsb (Z.eqb (stub_signer i)) signed) Constraint ;;
  match i with
  | SCreate owner mint price =>
      (** [init] fails on an account in use; what is not set stays zero. *)
      _ <- require (match al_get (addr owner mint) st with None => true | Some _ => false end) Constraint ;;
      Ok ((addr owner mint, mkStub owner mint price ts slot (f64_of 0)) :: st)
  | SSet owner oracle price =>
      s <- al_load oracle st ;;
      _ <- require (sb_owner s =? owner) Constraint ;;
      Ok (al_set oracle (mkStub (sb_owner s) (sb_mint s) price ts slot (sb_deviation s)) st)
  | SClose owner oracle =>
      s <- al_load oracle st ;;
      _ <- require (sb_owner s =? owner) Constraint ;;
      Ok (al_del oracle st)
  end.

(** What a market gets to read at an address; a closed account has no bytes, and reading the first
    four of them panics (oracle.rs 155). *)
Definition stub_account (st : stubs) (k : Z) : oracle_acc :=
  mkOracleAcc k (match al_get k st with
                 | Some s => DStub (sb_price s) (sb_deviation s) (sb_last_slot s)
                 | None => DBadPyth
                 end).
