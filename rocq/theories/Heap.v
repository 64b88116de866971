(** Model of /repo/programs/openbook-v2/src/state/orderbook/heap.rs. *)
From Coq Require Import ZArith List Bool.
From Verif Require Import Base Nodes.
Import ListNotations.
Open Scope Z_scope.

(** heap.rs 9-10 *)
Definition MAX_EVENTS : Z := 600.
Definition NO_NODE : Z := 65535.

(** heap.rs 239-263 *)
Record fill_event : Type := mkFill {
  fe_taker_side : side;
  fe_maker_out : bool;
  fe_maker_slot : Z;
  fe_ts : Z;
  fe_seq : Z;
  fe_maker : Z;
  fe_maker_ts : Z;
  fe_taker : Z;
  fe_taker_cid : Z;
  fe_price : Z;
  fe_peg_limit : Z;
  fe_qty : Z;
  fe_maker_cid : Z }.

(** heap.rs 314-325 *)
Record out_event : Type := mkOut {
  oe_side : side;
  oe_slot : Z;
  oe_ts : Z;
  oe_seq : Z;
  oe_owner : Z;
  oe_qty : Z }.

(** heap.rs 218-233: the tagged bytes of an [AnyEvent] as a sum. *)
Inductive event : Type := EFill (f : fill_event) | EOut (o : out_event).

(** The zero bytes of a fresh account read as a fill event. *)
Definition event0 : event := EFill (mkFill Bid false 0 0 0 0 0 0 0 0 0 0 0).

(** heap.rs 196-203 *)
Record hnode : Type := mkHnode { hn_next : Z; hn_prev : Z; hn_event : event }.

(** heap.rs 18-22 and 164-171 *)
Record heap : Type := mkHeap {
  h_free : Z;
  h_used : Z;
  h_count : Z;
  h_seq : Z;
  h_nodes : Z -> hnode }.

(** heap.rs 32-46 *)
Definition heap_init : heap :=
  mkHeap 0 NO_NODE 0 0
    (fun i => mkHnode (if i =? MAX_EVENTS - 1 then NO_NODE else i + 1) NO_NODE event0).

(** heap.rs 207-209 *)
Definition hn_is_free (n : hnode) : bool := hn_prev n =? NO_NODE.
Definition set_next (n : hnode) (v : Z) : hnode := mkHnode v (hn_prev n) (hn_event n).
Definition set_prev (n : hnode) (v : Z) : hnode := mkHnode (hn_next n) v (hn_event n).

(** Array access panics out of bounds. *)
Definition heap_idx (i : Z) : res unit := massert ((0 <=? i) && (i <? MAX_EVENTS)).

(** heap.rs 48-58 *)
Definition heap_is_empty (h : heap) : bool := h_count h =? 0.
Definition heap_is_full (h : heap) : bool := h_count h =? MAX_EVENTS.

(** heap.rs 60-66 *)
Definition heap_front (h : heap) : res (option event) :=
  if heap_is_empty h then Ok None
  else _ <- heap_idx (h_used h) ;; Ok (Some (hn_event (h_nodes h (h_used h)))).

(** heap.rs 68-74.  A slot is a usize, so there is nothing at negative ones. *)
Definition at_slot (h : heap) (slot : Z) : option event :=
  if (slot <? 0) || (MAX_EVENTS <=? slot) || hn_is_free (h_nodes h slot) then None
  else Some (hn_event (h_nodes h slot)).

(** heap.rs 76-103.  [count] is at most 600, so its u16 increment is unchecked. *)
Definition push_back (h : heap) (e : event) : res heap :=
  _ <- massert (negb (heap_is_full h)) ;;
  let slot := h_free h in
  _ <- heap_idx slot ;;
  let free' := hn_next (h_nodes h slot) in
  '(used', nn, np, nodes') <-
    (if heap_is_empty h then Ok (slot, slot, slot, h_nodes h)
     else
       let nn := h_used h in
       _ <- heap_idx nn ;;
       let np := hn_prev (h_nodes h nn) in
       _ <- heap_idx np ;;
       let n1 := upd (h_nodes h) np (set_next (h_nodes h np) slot) in
       let n2 := upd n1 nn (set_prev (n1 nn) slot) in
       Ok (h_used h, nn, np, n2)) ;;
  seq' <- chk_u64 (h_seq h + 1) ;;
  Ok (mkHeap free' used' (h_count h + 1) seq' (upd nodes' slot (mkHnode nn np e))).

(** heap.rs 109-133 *)
Definition delete_slot (h : heap) (slot : Z) : res (heap * event) :=
  if (MAX_EVENTS <=? slot) || heap_is_empty h || hn_is_free (h_nodes h slot)
  then Err SomeError
  else
    let ps := hn_prev (h_nodes h slot) in
    let ns := hn_next (h_nodes h slot) in
    let nf := h_free h in
    _ <- heap_idx ps ;;
    let n1 := upd (h_nodes h) ps (set_next (h_nodes h ps) ns) in
    _ <- heap_idx ns ;;
    let n2 := upd n1 ns (set_prev (n1 ns) ps) in
    let used' := if h_count h =? 1 then NO_NODE
                 else if h_used h =? slot then ns else h_used h in
    let ev := hn_event (n2 slot) in
    Ok (mkHeap slot used' (h_count h - 1) (h_seq h) (upd n2 slot (mkHnode nf NO_NODE ev)), ev).

(** heap.rs 105-107 *)
Definition pop_front (h : heap) : res (heap * event) := delete_slot h (h_used h).

(** heap.rs 135-162: the iterator, collected: [count] steps along [next]. *)
Fixpoint heap_iter_loop (n : nat) (h : heap) (slot : Z) : res (list (event * Z)) :=
  match n with
  | O => Ok []
  | S n =>
      _ <- heap_idx slot ;;
      rest <- heap_iter_loop n h (hn_next (h_nodes h slot)) ;;
      Ok ((hn_event (h_nodes h slot), slot) :: rest)
  end.
Definition heap_iter (h : heap) : res (list (event * Z)) :=
  heap_iter_loop (Z.to_nat (h_count h)) h (h_used h).
