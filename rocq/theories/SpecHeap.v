(** Specification vocabulary for the event heap: histories and the queue they describe. *)
From Coq Require Import ZArith List Bool.
From Verif Require Import Base Nodes Heap.
Import ListNotations.
Open Scope Z_scope.

Inductive heap_op : Type := HPush (e : event) | HPop | HDelete (slot : Z).
Inductive heap_out : Type := HFailed | HPushed | HRemoved (e : event).

(** A failed operation leaves the heap as it was (the transaction is void). *)
Definition heap_step (h : heap) (op : heap_op) : heap * heap_out :=
  match op with
  | HPush e => match push_back h e with Ok h' => (h', HPushed) | Err _ => (h, HFailed) end
  | HPop => match pop_front h with Ok (h', e) => (h', HRemoved e) | Err _ => (h, HFailed) end
  | HDelete s => match delete_slot h s with Ok (h', e) => (h', HRemoved e) | Err _ => (h, HFailed) end
  end.
Fixpoint heap_run (h : heap) (ops : list heap_op) : heap * list heap_out :=
  match ops with
  | [] => (h, [])
  | op :: r => let (h1, out) := heap_step h op in let (h2, outs) := heap_run h1 r in (h2, out :: outs)
  end.
(** Slots are unsigned. *)
Definition heap_op_ok (op : heap_op) : Prop := match op with HDelete s => 0 <= s | _ => True end.

(** A queue of events, oldest first, each in a slot of its own. *)
Definition queue : Type := list (event * Z).
Inductive queue_step : queue -> heap_op -> heap_out -> queue -> Prop :=
| qs_push q e s : (length q < 600)%nat -> 0 <= s < 600 -> ~ In s (map snd q) ->
    queue_step q (HPush e) HPushed (q ++ [(e, s)])
| qs_full q e : length q = 600%nat -> queue_step q (HPush e) HFailed q
| qs_pop e s q : queue_step ((e, s) :: q) HPop (HRemoved e) q
| qs_empty : queue_step [] HPop HFailed []
| qs_delete q1 e s q2 : queue_step (q1 ++ (e, s) :: q2) (HDelete s) (HRemoved e) (q1 ++ q2)
| qs_nothing q s : ~ In s (map snd q) -> queue_step q (HDelete s) HFailed q.
Inductive queue_run : queue -> list heap_op -> list heap_out -> queue -> Prop :=
| qr_nil q : queue_run q [] [] q
| qr_cons q op out q1 ops outs q2 : queue_step q op out q1 -> queue_run q1 ops outs q2 ->
    queue_run q (op :: ops) (out :: outs) q2.

Definition pushes (outs : list heap_out) : nat :=
  length (filter (fun o => match o with HPushed => true | _ => false end) outs).

(** Operation [op] on queue [q] takes slot [s] out. *)
Definition takes_slot (q : queue) (op : heap_op) (s : Z) : Prop :=
  match op with
  | HPush _ => False
  | HPop => exists e r, q = (e, s) :: r
  | HDelete s' => s' = s
  end.
