(** Specification vocabulary for the client's cache of accounts. *)
From Coq Require Import ZArith List Bool.
From Verif Require Import Base ChainData.
Import ListNotations.
Open Scope Z_scope.

(** What the cache was told, oldest first. *)
Inductive news : Type :=
| NSlot (d : slot_data)
| NWrite (k : Z) (w : write).

(** The stub slot the cache adds for an answer from an RPC node. *)
Definition rpc_stub (c : chain_data) (w : write) : list news :=
  if cd_best c <? wr_slot w then [NSlot (mkSlot (wr_slot w) (Some (cd_best c)) Processed 0)] else [].

(** The caches that can result, with what they were told. *)
Inductive fed : list news -> chain_data -> Prop :=
| fed_new : fed [] chain_new
| fed_slot h c d c' : fed h c -> update_slot c d = Ok c' -> fed (h ++ [NSlot d]) c'
| fed_account h c k w : fed h c -> fed (h ++ [NWrite k w]) (update_account c k w)
| fed_rpc h c k w c' : fed h c -> update_from_rpc c k w = Ok c' -> fed (h ++ rpc_stub c w ++ [NWrite k w]) c'.

(** The writes of an account, as received. *)
Definition writes_of (k : Z) (h : list news) : list write :=
  flat_map (fun n => match n with NWrite k' w => if k' =? k then [w] else [] | NSlot _ => [] end) h.

(** [w] is the newest of the writes in [l] with property [P]: none has a larger slot, and
    none received later has the same slot. *)
Definition newest (P : write -> Prop) (l : list write) (w : write) : Prop :=
  P w /\ exists l1 l2, l = l1 ++ w :: l2 /\
  (forall x, In x l1 -> P x -> wr_slot x <= wr_slot w) /\
  (forall x, In x l2 -> P x -> wr_slot x < wr_slot w).

(** ** What the notifications say about the chain *)
Definition notified (h : list news) (s : Z) : Prop := exists d, In (NSlot d) h /\ sd_slot d = s.
Definition rooted (h : list news) (s : Z) : Prop := exists d, In (NSlot d) h /\ sd_slot d = s /\ sd_status d = Rooted.
(** The first parent announced for a slot. *)
Fixpoint parent_in (h : list news) (s : Z) : option Z :=
  match h with
  | [] => None
  | NSlot d :: r =>
      if sd_slot d =? s then match sd_parent d with Some p => Some p | None => parent_in r s end
      else parent_in r s
  | NWrite _ _ :: r => parent_in r s
  end.
Inductive ancestor (h : list news) : Z -> Z -> Prop :=
| anc_refl s : ancestor h s s
| anc_step s p t : parent_in h s = Some p -> ancestor h p t -> ancestor h s t.
(** The head of the best chain: the highest slot with a known parent (zero if there is none). *)
Fixpoint head_in (h : list news) : Z :=
  match h with
  | [] => 0
  | NSlot d :: r => match sd_parent d with Some _ => Z.max (sd_slot d) (head_in r) | None => head_in r end
  | NWrite _ _ :: r => head_in r
  end.
(** Slots whose writes count: known slots on the best chain or above its head, and slots of
    the best chain at or below a rooted one. *)
Definition counts (h : list news) (s : Z) : Prop :=
  (notified h s /\ (ancestor h (head_in h) s \/ head_in h < s)) \/
  (ancestor h (head_in h) s /\ exists r, rooted h r /\ s <= r).

(** ** Orderly notifications *)
Definition orderly_slot (h : list news) (d : slot_data) : Prop :=
  1 <= sd_slot d /\ sd_chain d = 0 /\
  (* parents have smaller numbers *)
  (forall p, sd_parent d = Some p -> p < sd_slot d) /\
  (* a slot is announced before it is named as a parent, or not at all *)
  (~ notified h (sd_slot d) -> forall s, parent_in h s <> Some (sd_slot d)) /\
  (* rooted slots were announced before, and so were the slots of the writes up to there,
     unless they are on the best chain *)
  (sd_status d = Rooted -> notified h (sd_slot d) /\
     forall k w, In (NWrite k w) h -> wr_slot w <= sd_slot d ->
     notified h (wr_slot w) \/ ancestor h (head_in h) (wr_slot w)) /\
  (* below a rooted slot others are only reported as rooted *)
  (forall r, rooted h r -> sd_slot d < r -> sd_status d = Rooted) /\
  (* no parent is announced for the first time for slots that are or become rooted *)
  (sd_parent d <> None -> parent_in h (sd_slot d) = None ->
     sd_status d <> Rooted /\ forall r, rooted h r -> r < sd_slot d) /\
  (* the best chain contains all rooted slots *)
  (forall r, rooted (h ++ [NSlot d]) r -> ancestor (h ++ [NSlot d]) (head_in (h ++ [NSlot d])) r).

(** A write for a slot at or below a rooted one is for a slot of the best chain. *)
Definition orderly_write (h : list news) (w : write) : Prop :=
  1 <= wr_slot w /\ forall r, rooted h r -> wr_slot w <= r -> ancestor h (head_in h) (wr_slot w).

Inductive orderly : list news -> Prop :=
| ord_nil : orderly []
| ord_slot h d : orderly h -> orderly_slot h d -> orderly (h ++ [NSlot d])
| ord_write h k w : orderly h -> orderly_write h w -> orderly (h ++ [NWrite k w]).

(** ** Every notification names smaller parents *)
Definition forward (h : list news) : Prop := forall d p, In (NSlot d) h -> sd_parent d = Some p -> p < sd_slot d.

(** Calls to the cache, for examples. *)
Inductive event : Type :=
| ESlot (d : slot_data)
| EWrite (k : Z) (w : write)
| ERpc (k : Z) (w : write).
