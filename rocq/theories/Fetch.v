(** Model of the client's account cache with coalesced requests: [CachedAccountFetcher] in
    /repo/lib/client/src/account_fetcher.rs.

    Tasks run concurrently.  The cache is behind a mutex that is never held across an [await], so
    each piece of code between two [await]s is one step; any number of tasks may take steps in any
    order, and a task may be dropped while it waits.  [async_once_cell]'s [Lazy] is a job that runs
    when a task waiting for it is polled; all tasks waiting for it share its outcome. *)
From Coq Require Import ZArith List Bool.
From Verif Require Import Base.
Import ListNotations.
Open Scope Z_scope.

(** The two calls: one account, or all accounts of a program with a discriminator (a number
    stands for the pair). *)
Inductive query : Type := QAccount (k : Z) | QProgram (q : Z).
Definition query_eqb (a b : query) : bool :=
  match a, b with
  | QAccount k, QAccount k' => k =? k'
  | QProgram q, QProgram q' => q =? q'
  | _, _ => false
  end.

(** What a node answers: addresses with their data (for [QAccount k] just [k] with its data), or
    an error. *)
Inductive reply : Type := ROk (l : list (Z * Z)) | RErr.

(** A job: not polled yet; its request is on the way; the node has read the accounts, but the job
    has not been polled since; finished. *)
Inductive phase : Type := JNew | JAsked | JRead (r : reply) | JDone (r : reply).
Record job : Type := mkJob { j_query : query; j_phase : phase }.

(** A call: waiting for a job, returned, dropped, or panicked ([unwrap] on a missing account). *)
Inductive standing : Type := TWaits (j : nat) | TReturned (r : reply) | TDropped | TPanicked.
Record fcall : Type := mkCall { fc_query : query; fc_standing : standing }.

(** The chain: what an account holds at a time and which accounts a program has.  Both are
    inputs; [c_data k t = None] if there is no account. *)
Record chain : Type := mkChain { c_data : Z -> Z -> option Z; c_list : Z -> Z -> list (Z * Z) }.

(** account_fetcher.rs 135-154, with the clock, all jobs and calls so far and how many there are. *)
Record fstate : Type := mkF {
  f_now : Z;
  f_accounts : list (Z * Z);
  f_keys : list (Z * list Z);
  f_index : list (query * nat);
  f_jobs : nat -> job;
  f_njobs : nat;
  f_calls : nat -> fcall;
  f_ncalls : nat }.
Definition fetch0 : fstate := mkF 0 [] [] [] (fun _ => mkJob (QAccount 0) JNew) 0 (fun _ => mkCall (QAccount 0) TDropped) 0.

Definition nset {A} (f : nat -> A) (n : nat) (a : A) : nat -> A := fun x => if Nat.eqb x n then a else f x.
(** [HashMap]: the entry added last counts. *)
Fixpoint zget {A} (k : Z) (m : list (Z * A)) : option A :=
  match m with [] => None | (k', a) :: r => if k =? k' then Some a else zget k r end.
Fixpoint qget (q : query) (m : list (query * nat)) : option nat :=
  match m with [] => None | (q', a) :: r => if query_eqb q q' then Some a else qget q r end.
Definition qdel (q : query) (m : list (query * nat)) : list (query * nat) :=
  filter (fun x => negb (query_eqb q (fst x))) m.

(** 220-226: the accounts of a list of keys; [None] if one is missing. *)
Fixpoint zget_all {A} (ks : list Z) (m : list (Z * A)) : option (list (Z * A)) :=
  match ks with
  | [] => Some []
  | k :: r =>
      match zget k m, zget_all r m with Some a, Some l => Some ((k, a) :: l) | _, _ => None end
  end.
(** 183-185 and 220-226: [None] if it is not in the cache. *)
Definition from_cache (s : fstate) (q : query) : option standing :=
  match q with
  | QAccount k => option_map (fun v => TReturned (ROk [(k, v)])) (zget k (f_accounts s))
  | QProgram p =>
      option_map (fun ks => match zget_all ks (f_accounts s) with
                            | Some l => TReturned (ROk l)
                            | None => TPanicked
                            end) (zget p (f_keys s))
  end.

(** What can happen: time passes; a task makes a call; a waiting task is polled; a node reads the
    accounts for a request or fails; a waiting task is dropped; the cache is cleared. *)
Inductive fevent : Type :=
| ETick
| ECall (q : query)
| EPoll (i : nat)
| ENode (j : nat) (ok : bool)
| EDrop (i : nat)
| EClear.

(** 180-203, 215-248: the locked section at the start of a call, with [run_coalesced] (119-130). *)
Definition call (s : fstate) (q : query) : fstate :=
  let set c index jobs njobs :=
    mkF (f_now s) (f_accounts s) (f_keys s) index jobs njobs (nset (f_calls s) (f_ncalls s) (mkCall q c)) (S (f_ncalls s)) in
  match from_cache s q with
  | Some c => set c (f_index s) (f_jobs s) (f_njobs s)
  | None =>
      match qget q (f_index s) with
      | Some j => set (TWaits j) (f_index s) (f_jobs s) (f_njobs s)
      | None =>
          set (TWaits (f_njobs s)) ((q, f_njobs s) :: f_index s)
            (nset (f_jobs s) (f_njobs s) (mkJob q JNew)) (S (f_njobs s))
      end
  end.

(** 191-201 and 234-246: the end of a job: it leaves the list of jobs, and what it found enters
    the cache. *)
Definition store (s : fstate) (q : query) (r : reply) : list (Z * Z) * list (Z * list Z) :=
  match r with
  | RErr => (f_accounts s, f_keys s)
  | ROk l =>
      (rev l ++ f_accounts s,
       match q with QAccount _ => f_keys s | QProgram p => (p, map fst l) :: f_keys s end)
  end.
Definition finish (s : fstate) (j : nat) (r : reply) : fstate :=
  let q := j_query (f_jobs s j) in
  let (accounts, keys) := store s q r in
  mkF (f_now s) accounts keys (qdel q (f_index s)) (nset (f_jobs s) j (mkJob q (JDone r))) (f_njobs s)
    (f_calls s) (f_ncalls s).
Definition set_phase (s : fstate) (j : nat) (p : phase) : fstate :=
  mkF (f_now s) (f_accounts s) (f_keys s) (f_index s) (nset (f_jobs s) j (mkJob (j_query (f_jobs s j)) p)) (f_njobs s)
    (f_calls s) (f_ncalls s).
Definition set_call (s : fstate) (i : nat) (c : standing) : fstate :=
  mkF (f_now s) (f_accounts s) (f_keys s) (f_index s) (f_jobs s) (f_njobs s) (nset (f_calls s) i (mkCall (fc_query (f_calls s i)) c))
    (f_ncalls s).

(** 205-212 and 250-257: [fetch_job.get().await] polled once.  An error is passed on as another
    error. *)
Definition poll (s : fstate) (i : nat) : fstate :=
  match fc_standing (f_calls s i) with
  | TWaits j =>
      match j_phase (f_jobs s j) with
      | JNew => set_phase s j JAsked
      | JAsked => s
      | JRead r => set_call (finish s j r) i (TReturned r)
      | JDone r => set_call s i (TReturned r)
      end
  | _ => s
  end.

(** 63-72 and 80-101: what the node finds now. *)
Definition node_reads (c : chain) (now : Z) (q : query) : reply :=
  match q with
  | QAccount k => match c_data c k now with Some v => ROk [(k, v)] | None => RErr end
  | QProgram p => ROk (c_list c p now)
  end.

(** One step; events that do not apply change nothing. *)
Definition fstep (c : chain) (s : fstate) (e : fevent) : fstate :=
  match e with
  | ETick => mkF (f_now s + 1) (f_accounts s) (f_keys s) (f_index s) (f_jobs s) (f_njobs s) (f_calls s) (f_ncalls s)
  | ECall q => call s q
  | EPoll i => if Nat.ltb i (f_ncalls s) then poll s i else s
  | ENode j ok =>
      if Nat.ltb j (f_njobs s) then
        match j_phase (f_jobs s j) with
        | JAsked => set_phase s j (JRead (if ok then node_reads c (f_now s) (j_query (f_jobs s j)) else RErr))
        | _ => s
        end
      else s
  | EDrop i =>
      if Nat.ltb i (f_ncalls s) then match fc_standing (f_calls s i) with TWaits _ => set_call s i TDropped | _ => s end else s
  | EClear =>
      (** 149-152 and 171-174: the jobs stay. *)
      mkF (f_now s) [] [] (f_index s) (f_jobs s) (f_njobs s) (f_calls s) (f_ncalls s)
  end.
Definition frun (c : chain) (s : fstate) (es : list fevent) : fstate := fold_left (fstep c) es s.
