(** Properties C10 and C11: the event heap.  Vocabulary: SpecHeap.v. *)
From Coq Require Import ZArith List Bool.
From Verif Require Import Base Nodes Heap SpecHeap HeapSpecProofs.
Import ListNotations.
Open Scope Z_scope.

(** C10: from initialisation, every history of pushes, pops and deletions by slot behaves as
    a queue of at most 600 events; iteration, front, length and sequence number agree. *)
Theorem C10_heap_is_queue ops h outs :
  Forall heap_op_ok ops -> Z.of_nat (length ops) < 2 ^ 64 -> heap_run heap_init ops = (h, outs) ->
  exists q, queue_run [] ops outs q /\ heap_iter h = Ok q /\ NoDup (map snd q) /\
    heap_front h = Ok (match q with [] => None | (e, _) :: _ => Some e end) /\
    h_count h = Z.of_nat (length q) /\ h_seq h = Z.of_nat (pushes outs).
Proof. exact (heap_is_queue ops h outs). Qed.
Print Assumptions C10_heap_is_queue.

Definition ev (n : Z) : event := EOut (mkOut Bid 0 0 n 7 1).
Definition C10_ops : list heap_op :=
  [HPush (ev 1); HPush (ev 2); HPush (ev 3); HDelete 1; HPop; HPush (ev 4); HPop; HDelete 599; HPush (ev 5)].
Example C10_case : Forall heap_op_ok C10_ops /\
  snd (heap_run heap_init C10_ops) =
    [HPushed; HPushed; HPushed; HRemoved (ev 2); HRemoved (ev 1); HPushed; HRemoved (ev 3); HFailed; HPushed] /\
  heap_iter (fst (heap_run heap_init C10_ops)) = Ok [(ev 4, 0); (ev 5, 2)].
Proof. split; [repeat constructor; vm_compute; discriminate|vm_compute; auto]. Qed.

(** C11: an event stays readable in its slot until an operation takes that slot out, and that
    operation returns this event. *)
Theorem C11_slot_stable ops h outs q op h' out s e :
  Forall heap_op_ok ops -> Z.of_nat (length ops) < 2 ^ 64 - 1 -> heap_op_ok op ->
  heap_run heap_init ops = (h, outs) -> heap_iter h = Ok q -> heap_step h op = (h', out) ->
  In (e, s) q ->
  at_slot h s = Some e /\
  (~ takes_slot q op s -> at_slot h' s = Some e /\ exists q', heap_iter h' = Ok q' /\ In (e, s) q') /\
  (takes_slot q op s -> out = HRemoved e /\ at_slot h' s = None).
Proof. exact (slot_stable ops h outs q op h' out s e). Qed.
Print Assumptions C11_slot_stable.

(** Reading or deleting a slot without an event. *)
Theorem C11_empty_slot ops h outs q s :
  Forall heap_op_ok ops -> Z.of_nat (length ops) < 2 ^ 64 ->
  heap_run heap_init ops = (h, outs) -> heap_iter h = Ok q -> 0 <= s -> ~ In s (map snd q) ->
  at_slot h s = None /\ heap_step h (HDelete s) = (h, HFailed).
Proof. exact (empty_slot ops h outs q s). Qed.
Print Assumptions C11_empty_slot.

Example C11_case : let h := fst (heap_run heap_init C10_ops) in
  at_slot h 0 = Some (ev 4) /\ at_slot (fst (heap_step h (HPush (ev 6)))) 0 = Some (ev 4) /\
  at_slot (fst (heap_step h (HDelete 2))) 0 = Some (ev 4) /\ at_slot h 1 = None /\ at_slot h 599 = None.
Proof. vm_compute. auto. Qed.
