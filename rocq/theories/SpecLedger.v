(** Specification vocabulary for who is owed what.  An order that was accepted lives on as
    pieces: what is left of it on the book, and the events about it waiting in the heap. *)
From Coq Require Import ZArith List Bool.
From Verif Require Import Base Nodes OrderTree BookSide Heap Market OpenOrders Order Book SpecBook SpecFees.
Import ListNotations.
Open Scope Z_scope.

(** A resting order of tree [t] on side [s], an out event, or a fill event.  [lp] is the price
    the order's funds were locked at and [id] the id of the order an event is about. *)
Inductive piece : Type :=
| PLeaf (s : side) (t : otree_id) (l : leaf) (lp : Z)
| POut (e : out_event) (lp id : Z)
| PFill (f : fill_event) (id : Z).

(** ** A waiting fill *)
(** The side of the resting order, whether maker and taker are the same account, and the
    amounts the maker is to receive and pay for it. *)
Definition fill_side (f : fill_event) : side := invert_side (fe_taker_side f).
Definition fill_self (f : fill_event) : bool := fe_maker f =? fe_taker f.
Definition fill_quote (m : market) (f : fill_event) : Z := fe_qty f * fe_price f * qls m.
Definition fill_rebate (m : market) (f : fill_event) : Z :=
  if fill_self f then 0 else maker_gets m (fill_quote m f).
Definition fill_fee (m : market) (f : fill_event) : Z :=
  if fill_self f then 0 else maker_pays m (fill_quote m f).
(** The price at which quote was locked: a pegged bid locks its peg limit. *)
Definition fill_pegged (f : fill_event) : bool := negb (fe_peg_limit f =? -1) && side_eqb (fill_side f) Bid.
Definition fill_lp (f : fill_event) : Z := if fill_pegged f then fe_peg_limit f else fe_price f.
Definition fill_locked (m : market) (f : fill_event) : Z := fe_qty f * fill_lp f * qls m.

(** ** Pieces *)
Definition pc_owner (p : piece) : Z :=
  match p with PLeaf _ _ l _ => lf_owner l | POut e _ _ => oe_owner e | PFill f _ => fe_maker f end.
Definition pc_slot (p : piece) : Z :=
  match p with PLeaf _ _ l _ => lf_slot l | POut e _ _ => oe_slot e | PFill f _ => fe_maker_slot f end.
Definition pc_side (p : piece) : side :=
  match p with PLeaf s _ _ _ => s | POut e _ _ => oe_side e | PFill f _ => fill_side f end.
Definition pc_qty (p : piece) : Z :=
  match p with PLeaf _ _ l _ => lf_qty l | POut e _ _ => oe_qty e | PFill f _ => fe_qty f end.
Definition pc_lp (p : piece) : Z :=
  match p with PLeaf _ _ _ lp => lp | POut _ lp _ => lp | PFill f _ => fill_lp f end.
Definition pc_id (p : piece) : Z :=
  match p with PLeaf _ _ l _ => lf_key l | POut _ _ id => id | PFill _ id => id end.
(** The last piece of its order: it still occupies a slot of its owner's account. *)
Definition pc_last (p : piece) : bool := match p with PFill f _ => fe_maker_out f | _ => true end.
(** The sequence number in an order id (complemented for bids). *)
Definition id_seq (s : side) (id : Z) : Z :=
  match s with Bid => 2 ^ 64 - 1 - id mod 2 ^ 64 | Ask => id mod 2 ^ 64 end.

(** ** What is owed for a piece, beyond what the accounts already show as free *)
(** Base: the maker of a filled bid receives it, the owner of an ask has it locked. *)
Definition base_claim (m : market) (p : piece) : Z :=
  match p with
  | PFill f _ => match fill_side f with Bid => fe_qty f * bls m | Ask => 0 end
  | _ => match pc_side p with Bid => 0 | Ask => pc_qty p * bls m end
  end.
(** Quote: a bid locks it; the maker of a filled ask receives it, the maker of a filled bid
    gets back what was locked above the price; plus rebates. *)
Definition quote_claim (m : market) (p : piece) : Z :=
  match p with
  | PFill f _ =>
      match fill_side f with
      | Bid => fill_locked m f - fill_quote m f + fill_rebate m f
      | Ask => fill_quote m f + fill_rebate m f
      end
  | _ => match pc_side p with Bid => pc_qty p * pc_lp p * qls m | Ask => 0 end
  end.
(** Maker fees that must be locked for it. *)
Definition fee_need (m : market) (p : piece) : Z :=
  match pc_side p with
  | Ask => 0
  | Bid =>
      match p with
      | PFill f _ => if fill_pegged f then maker_pays m (fill_locked m f) else fill_fee m f
      | _ => maker_locks m (pc_qty p * pc_lp p * qls m)
      end
  end.
(** Quote volume and maker fees not yet counted. *)
Definition vol_wait (m : market) (p : piece) : Z := match p with PFill f _ => fill_quote m f | _ => 0 end.
Definition fee_wait (m : market) (p : piece) : Z := match p with PFill f _ => fill_fee m f | _ => 0 end.

Definition psum (f : piece -> Z) (P : list piece) : Z := sumZ (map f P).
Definition asum (f : position -> Z) (ac : accounts) : Z := sumZ (map (fun ka => f (a_pos (snd ka))) ac).

(** The amount [f] of the pieces of account [k]; of those on side [s]; the number of last
    pieces in slot [i]. *)
Definition of_acct (k : Z) (f : piece -> Z) (p : piece) : Z := if pc_owner p =? k then f p else 0.
Definition of_side (k : Z) (s : side) (f : piece -> Z) (p : piece) : Z :=
  if (pc_owner p =? k) && side_eqb (pc_side p) s then f p else 0.
Definition in_slot (k i : Z) (p : piece) : Z :=
  if pc_last p && (pc_owner p =? k) && (pc_slot p =? i) then 1 else 0.
Definition with_seq (s : side) (q : Z) (p : piece) : Z :=
  if pc_last p && side_eqb (pc_side p) s && (id_seq s (pc_id p) =? q) then 1 else 0.

(** ** The pieces of a world *)
Definition pleaves (s : side) (P : list piece) : list (otree_id * leaf) :=
  flat_map (fun p => match p with
                     | PLeaf s' t l _ => if side_eqb s' s then [(t, l)] else []
                     | _ => [] end) P.
Definition pevents (P : list piece) : list event :=
  flat_map (fun p => match p with PLeaf _ _ _ _ => [] | POut e _ _ => [EOut e] | PFill f _ => [EFill f] end) P.
