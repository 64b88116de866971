(** Property C77: the client's account cache with coalesced requests. *)
From Coq Require Import ZArith List Bool Lia.
From Verif Require Import Base Fetch SpecFetch FetchFacts.
Import ListNotations.
Open Scope Z_scope.

(** The chain of the examples: every account holds a number that grows by one with time; the
    program lists the accounts 7 and 8. *)
Definition growing : chain := mkChain (fun k t => Some (10 * k + t)) (fun _ t => [(7, 70 + t); (8, 80 + t)]).
Lemma growing_honest : honest growing.
Proof. intros p t k v [E|[E|[]]]; injection E as <- <-; cbn; f_equal; lia. Qed.
Definition does (es : list fevent) : fstate := frun growing fetch0 es.
Lemma does_happens es : happens growing (does es).
Proof. exists es. reflexivity. Qed.
(** Two tasks ask for account 7 while one request is on the way; a third asks later. *)
Definition shared : list fevent :=
  [ECall (QAccount 7); EPoll 0; ECall (QAccount 7); ETick; ENode 0 true; ETick; EPoll 1; EPoll 0; ETick; ECall (QAccount 7)].
(** The same with a failing node and a second attempt. *)
Definition retried : list fevent :=
  [ECall (QAccount 7); EPoll 0; ECall (QAccount 7); ENode 0 false; EPoll 1; EPoll 0; ETick; ECall (QAccount 7); EPoll 2; ENode 1 true; EPoll 2].
(** A listing next to a request for one of its accounts. *)
Definition listed : list fevent :=
  [ECall (QProgram 3); EPoll 0; ETick; ENode 0 true; ECall (QAccount 7); EPoll 1; ETick; ENode 1 true; EPoll 0; EPoll 1; ECall (QProgram 3)].

(** Every answer is authentic: an account's data is what it held on the chain at some time so far;
    a listing names the accounts that the program had at some time so far, each with data it held
    at some time so far.  For any number of tasks, any interleaving of their steps, tasks dropped
    anywhere and any clearing of the cache. *)
Theorem C77_authentic c s i q l : honest c -> happens c s -> returned s i q (ROk l) ->
  match q with
  | QAccount k => exists t v, 0 <= t <= f_now s /\ c_data c k t = Some v /\ l = [(k, v)]
  | QProgram p => exists t, 0 <= t <= f_now s /\ map fst l = map fst (c_list c p t) /\
      forall k v, In (k, v) l -> exists t', 0 <= t' <= f_now s /\ c_data c k t' = Some v
  end.
Proof. exact (authentic c s i q l). Qed.
Print Assumptions C77_authentic.
Example C77_authentic_case : honest growing /\ happens growing (does shared) /\ happens growing (does listed) /\
  returned (does shared) 0 (QAccount 7) (ROk [(7, 71)]) /\ returned (does shared) 1 (QAccount 7) (ROk [(7, 71)]) /\
  returned (does shared) 2 (QAccount 7) (ROk [(7, 71)]) /\ f_now (does shared) = 3 /\ f_njobs (does shared) = 1%nat /\
  returned (does listed) 0 (QProgram 3) (ROk [(7, 71); (8, 81)]) /\ returned (does listed) 1 (QAccount 7) (ROk [(7, 72)]) /\
  returned (does listed) 2 (QProgram 3) (ROk [(7, 72); (8, 81)]).
Proof.
  split; [exact growing_honest|]. split; [apply does_happens|]. split; [apply does_happens|].
  unfold returned. vm_compute. repeat split; try reflexivity; lia.
Qed.

(** No call panics: the accounts of a remembered listing are always in the cache. *)
Theorem C77_no_panic c s i : honest c -> happens c s -> (i < f_ncalls s)%nat -> fc_standing (f_calls s i) <> TPanicked.
Proof. exact (no_panic c s i). Qed.
Print Assumptions C77_no_panic.
Example C77_no_panic_case : honest growing /\ happens growing (does (listed ++ [EClear; ECall (QProgram 3)])) /\
  (3 < f_ncalls (does (listed ++ [EClear; ECall (QProgram 3)])))%nat.
Proof. split; [exact growing_honest|]. split; [apply does_happens|vm_compute; lia]. Qed.

(** At most one request for the same thing is ever under way. *)
Theorem C77_one_request c s j j' q : honest c -> happens c s -> unfinished s j q -> unfinished s j' q -> j = j'.
Proof. exact (one_request c s j j' q). Qed.
Print Assumptions C77_one_request.
Example C77_one_request_case : honest growing /\ happens growing (does (firstn 4 shared)) /\
  unfinished (does (firstn 4 shared)) 0 (QAccount 7) /\ f_ncalls (does (firstn 4 shared)) = 2%nat /\
  happens growing (does (firstn 9 listed)) /\ unfinished (does (firstn 9 listed)) 1 (QAccount 7) /\ f_njobs (does (firstn 9 listed)) = 2%nat.
Proof.
  split; [exact growing_honest|]. split; [apply does_happens|].
  split; [unfold unfinished; vm_compute; repeat split; try lia; discriminate|]. split; [reflexivity|]. split; [apply does_happens|].
  split; [unfold unfinished; vm_compute; repeat split; try lia; discriminate|reflexivity].
Qed.

(** No call is stuck, whatever was dropped: it returns after at most three more steps (its task
    sends the request, the node answers, its task takes the answer in). *)
Theorem C77_always_returns c s i q : honest c -> happens c s -> pending s i q ->
  exists es r, (length es <= 3)%nat /\ returned (frun c s es) i q r.
Proof. exact (always_returns c s i q). Qed.
Print Assumptions C77_always_returns.
(** The task that started the request is dropped; the one that joined it gets the answer. *)
Definition orphaned : list fevent := [ECall (QAccount 7); EPoll 0; ECall (QAccount 7); EDrop 0].
Example C77_always_returns_case : honest growing /\ happens growing (does orphaned) /\ pending (does orphaned) 1 (QAccount 7) /\
  returned (frun growing (does orphaned) [ENode 0 true; EPoll 1]) 1 (QAccount 7) (ROk [(7, 70)]).
Proof.
  split; [exact growing_honest|]. split; [apply does_happens|]. split; [|split; [vm_compute; lia|vm_compute; reflexivity]].
  split; [vm_compute; lia|]. split; [reflexivity|exists 0%nat; reflexivity].
Qed.

(** What a request has found is remembered: unless the cache is cleared, every later call for the
    same thing is answered at once and without a request. *)
Theorem C77_remembered c s e j q l es : honest c -> happens c s -> unfinished s j q -> succeeded (fstep c s e) j q l ->
  existsb is_clear es = false -> exists l', at_once (frun c (fstep c s e) es) q l'.
Proof. exact (remembered c s e j q l es). Qed.
Print Assumptions C77_remembered.
Example C77_remembered_case : honest growing /\ happens growing (does (firstn 6 shared)) /\ unfinished (does (firstn 6 shared)) 0 (QAccount 7) /\
  succeeded (fstep growing (does (firstn 6 shared)) (EPoll 1)) 0 (QAccount 7) [(7, 71)] /\ existsb is_clear (skipn 7 shared) = false /\
  at_once (frun growing (fstep growing (does (firstn 6 shared)) (EPoll 1)) (skipn 7 shared)) (QAccount 7) [(7, 71)].
Proof.
  split; [exact growing_honest|]. split; [apply does_happens|].
  split; [unfold unfinished; vm_compute; repeat split; try lia; discriminate|].
  split; [unfold succeeded; vm_compute; split; [lia|reflexivity]|]. split; [reflexivity|].
  unfold at_once, returned. vm_compute. repeat split; lia.
Qed.

(** A failure is not remembered: the next call sends a request of its own, unless the answer was
    in the cache already. *)
Theorem C77_error_forgotten c s e j q : honest c -> happens c s -> unfinished s j q -> failed (fstep c s e) j q ->
  asks_anew (fstep c s e) q \/ exists l, at_once s q l.
Proof. exact (error_forgotten c s e j q). Qed.
Print Assumptions C77_error_forgotten.
Example C77_error_forgotten_case : honest growing /\ happens growing (does (firstn 4 retried)) /\ unfinished (does (firstn 4 retried)) 0 (QAccount 7) /\
  failed (fstep growing (does (firstn 4 retried)) (EPoll 1)) 0 (QAccount 7) /\
  returned (does retried) 0 (QAccount 7) RErr /\ returned (does retried) 1 (QAccount 7) RErr /\ returned (does retried) 2 (QAccount 7) (ROk [(7, 71)]).
Proof.
  split; [exact growing_honest|]. split; [apply does_happens|].
  split; [unfold unfinished; vm_compute; repeat split; try lia; discriminate|].
  unfold failed, returned. vm_compute. repeat split; lia.
Qed.

(** A call for something that is neither in the cache nor being asked for sends its own request,
    and if it returns an answer, then the chain was like that at some time between the call and
    the return, whatever happens in between.  Missing: calls that join a request under way or
    find the answer in the cache, for which it is wrong even right after the cache was cleared
    (the refutations below). *)
Theorem C77_fresh_partial c s q es l : honest c -> happens c s -> (forall l', ~ at_once s q l') -> (forall j, ~ unfinished s j q) ->
  asks_anew s q /\
  (returned (frun c (call s q) es) (f_ncalls s) q (ROk l) ->
   exists t, f_now s <= t <= f_now (frun c (call s q) es) /\ shows c t q l).
Proof. intros Hh Hs H1 H2. pose proof (anew c s q Hh Hs H1 H2) as A. split; [exact A|exact (fresh c s q es l A)]. Qed.
Print Assumptions C77_fresh_partial.
Example C77_fresh_case : honest growing /\ happens growing (does [ETick; ETick]) /\
  (forall l', ~ at_once (does [ETick; ETick]) (QAccount 7) l') /\ (forall j, ~ unfinished (does [ETick; ETick]) j (QAccount 7)) /\
  returned (frun growing (call (does [ETick; ETick]) (QAccount 7)) [EPoll 0; ETick; ENode 0 true; ETick; EPoll 0]) 0 (QAccount 7) (ROk [(7, 73)]).
Proof.
  split; [exact growing_honest|]. split; [apply does_happens|].
  split; [intros l' [[_ H] _]; vm_compute in H; discriminate|]. split; [intros j [H _]; vm_compute in H; lia|].
  unfold returned. vm_compute. split; [lia|reflexivity].
Qed.

(** Without listings, and until the cache is cleared, all successful calls for one account return
    the same data.  Missing: the presence of listings, with which later calls may even return
    older data (the last refutation below). *)
Theorem C77_same_answers_partial c es i i' k l l' : honest c -> existsb is_clear es = false -> existsb is_listing es = false ->
  let s := frun c fetch0 es in
  returned s i (QAccount k) (ROk l) -> returned s i' (QAccount k) (ROk l') -> l = l'.
Proof. exact (same_answers c es i i' k l l'). Qed.
Print Assumptions C77_same_answers_partial.
Example C77_same_answers_case : honest growing /\ existsb is_clear shared = false /\ existsb is_listing shared = false /\
  returned (does shared) 0 (QAccount 7) (ROk [(7, 71)]) /\ returned (does shared) 2 (QAccount 7) (ROk [(7, 71)]).
Proof. split; [exact growing_honest|]. unfold returned. vm_compute. repeat split; lia. Qed.

(** Refuted: clearing the cache does not keep older data out.  A request that is under way when
    the cache is cleared still fills it, and calls made after the clearing are then answered with
    data read before it. *)
Theorem C77_clear_refuted : exists c s es l, honest c /\ happens c s /\
  at_once (frun c (fstep c s EClear) es) (QAccount 7) l /\ existsb is_listing es = false /\
  forall t, f_now s <= t -> ~ shows c t (QAccount 7) l.
Proof.
  exists growing, (does [ECall (QAccount 7); EPoll 0; ENode 0 true; ETick]), [EPoll 0], [(7, 70)].
  split; [exact growing_honest|]. split; [apply does_happens|].
  split; [unfold at_once, returned; vm_compute; repeat split; lia|]. split; [reflexivity|].
  intros t Ht (v & E & El). injection El as <-. change (1 <= t) in Ht. assert (70 + t = 70) by (change (Some (70 + t) = Some 70) in E; congruence). lia.
Qed.
Print Assumptions C77_clear_refuted.

(** Refuted: a call may be answered with data read before it although nothing is in the cache and
    no other task waits: a request abandoned by its task is kept, and whoever asks next gets what
    the node answered then. *)
Theorem C77_abandoned_refuted : exists c s es l, honest c /\ happens c s /\
  (forall l', ~ at_once s (QAccount 7) l') /\ (forall i q, ~ pending s i q) /\
  returned (frun c (call s (QAccount 7)) es) (f_ncalls s) (QAccount 7) (ROk l) /\
  forall t, f_now s <= t -> ~ shows c t (QAccount 7) l.
Proof.
  exists growing, (does [ECall (QAccount 7); EPoll 0; ENode 0 true; EDrop 0; ETick]), [EPoll 1], [(7, 70)].
  split; [exact growing_honest|]. split; [apply does_happens|].
  split; [intros l' [[_ H] _]; vm_compute in H; discriminate|].
  split.
  { intros i q (Hi & _ & j & H). assert (i = 0%nat) as -> by (vm_compute in Hi; lia). vm_compute in H. discriminate. }
  split; [unfold returned; vm_compute; split; [lia|reflexivity]|].
  intros t Ht (v & E & El). injection El as <-. change (1 <= t) in Ht. assert (70 + t = 70) by (change (Some (70 + t) = Some 70) in E; congruence). lia.
Qed.
Print Assumptions C77_abandoned_refuted.

(** Refuted: a later call may return older data than an earlier one, without any clearing: an
    answer for one account that is taken in late overwrites what a newer listing brought. *)
Theorem C77_backwards_refuted : exists c es i i' v v', honest c /\ existsb is_clear es = false /\ (i < i')%nat /\
  returned (frun c fetch0 (firstn 9 es)) i (QAccount 7) (ROk [(7, v)]) /\
  returned (frun c fetch0 es) i' (QAccount 7) (ROk [(7, v')]) /\
  (forall t t', c_data c 7 t = Some v -> c_data c 7 t' = Some v' -> t' < t) /\
  (f_ncalls (frun c fetch0 (firstn 9 es)) <= i')%nat.
Proof.
  exists growing, [ECall (QAccount 7); EPoll 0; ENode 0 true; ETick; ECall (QProgram 3); EPoll 1; ENode 1 true; EPoll 1; ECall (QAccount 7);
    EPoll 0; ECall (QAccount 7)], 2%nat, 3%nat, 71, 70.
  split; [exact growing_honest|]. split; [reflexivity|]. split; [lia|].
  split; [unfold returned; vm_compute; split; [lia|reflexivity]|]. split; [unfold returned; vm_compute; split; [lia|reflexivity]|].
  split; [|vm_compute; lia]. intros t t' E E'. assert (70 + t = 71) by (change (Some (70 + t) = Some 71) in E; congruence). assert (70 + t' = 70) by (change (Some (70 + t') = Some 70) in E'; congruence). lia.
Qed.
Print Assumptions C77_backwards_refuted.
