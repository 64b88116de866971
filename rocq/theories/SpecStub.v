(** Specification vocabulary for stub oracles. *)
From Coq Require Import ZArith List Bool SpecFloat.
From Verif Require Import Base Oracle Stub.
Import ListNotations.
Open Scope Z_scope.

(** A history of calls that went through, the latest first: who had signed, when, and the call. *)
Record stub_call : Type := mkStubCall { sc_signed : list Z; sc_ts : Z; sc_slot : Z; sc_ix : stub_ix }.
Inductive stub_history (addr : Z -> Z -> Z) : list stub_call -> stubs -> Prop :=
| sh_nil : stub_history addr [] []
| sh_call h st c st' : stub_history addr h st -> stub_exec addr (sc_signed c) (sc_ts c) (sc_slot c) st (sc_ix c) = Ok st' ->
    stub_history addr (c :: h) st'.

(** The price an owner last stated for a mint, and in which slot; none before creation and after
    closing. *)
Fixpoint last_stated (addr : Z -> Z -> Z) (owner mint : Z) (h : list stub_call) : option (f64 * Z) :=
  match h with
  | [] => None
  | c :: h' =>
      match sc_ix c with
      | SCreate o m p => if (o =? owner) && (m =? mint) then Some (p, sc_slot c) else last_stated addr owner mint h'
      | SSet _ k p => if k =? addr owner mint then Some (p, sc_slot c) else last_stated addr owner mint h'
      | SClose _ k => if k =? addr owner mint then None else last_stated addr owner mint h'
      end
  end.

Definition stub_addresses_differ (addr : Z -> Z -> Z) : Prop :=
  forall o m o' m', addr o m = addr o' m' -> o = o' /\ m = m'.
