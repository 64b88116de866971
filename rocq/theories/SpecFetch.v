(** Specification vocabulary for the client's account cache with coalesced requests. *)
From Coq Require Import ZArith List Bool.
From Verif Require Import Base Fetch.
Import ListNotations.
Open Scope Z_scope.

(** Any interleaving of any number of tasks. *)
Definition happens (c : chain) (s : fstate) : Prop := exists es, s = frun c fetch0 es.

(** A listing shows what is on the chain. *)
Definition honest (c : chain) : Prop := forall p t k v, In (k, v) (c_list c p t) -> c_data c k t = Some v.

(** Call number [i], its question and its outcome. *)
Definition returned (s : fstate) (i : nat) (q : query) (r : reply) : Prop :=
  (i < f_ncalls s)%nat /\ f_calls s i = mkCall q (TReturned r).
Definition pending (s : fstate) (i : nat) (q : query) : Prop :=
  (i < f_ncalls s)%nat /\ fc_query (f_calls s i) = q /\ exists j, fc_standing (f_calls s i) = TWaits j.

(** Request number [j] for [q] has not been dealt with; it is on the way if a node has it and the
    answer has not been taken in. *)
Definition unfinished (s : fstate) (j : nat) (q : query) : Prop :=
  (j < f_njobs s)%nat /\ j_query (f_jobs s j) = q /\ forall r, j_phase (f_jobs s j) <> JDone r.
Definition succeeded (s : fstate) (j : nat) (q : query) (l : list (Z * Z)) : Prop :=
  (j < f_njobs s)%nat /\ f_jobs s j = mkJob q (JDone (ROk l)).
Definition failed (s : fstate) (j : nat) (q : query) : Prop :=
  (j < f_njobs s)%nat /\ f_jobs s j = mkJob q (JDone RErr).

(** What a call made now would get at once, without a request. *)
Definition at_once (s : fstate) (q : query) (l : list (Z * Z)) : Prop :=
  returned (call s q) (f_ncalls s) q (ROk l) /\ f_njobs (call s q) = f_njobs s.
(** A call made now would send a request of its own. *)
Definition asks_anew (s : fstate) (q : query) : Prop :=
  unfinished (call s q) (f_njobs s) q /\ f_njobs (call s q) = S (f_njobs s) /\ pending (call s q) (f_ncalls s) q.

(** The data in an answer, as it was on the chain at time [t]. *)
Definition shows (c : chain) (t : Z) (q : query) (l : list (Z * Z)) : Prop :=
  match q with
  | QAccount k => exists v, c_data c k t = Some v /\ l = [(k, v)]
  | QProgram p => l = c_list c p t
  end.

Definition is_clear (e : fevent) : bool := match e with EClear => true | _ => false end.
Definition is_listing (e : fevent) : bool := match e with ECall (QProgram _) => true | _ => false end.
