(** Specification vocabulary for book sides: histories of operations and what an order's
    price and age are.  Uses the model's data types only, none of its proofs. *)
From Coq Require Import ZArith List Bool Permutation Sorted.
From Verif Require Import Base Nodes OrderTree BookSide.
Import ListNotations.
Open Scope Z_scope.

(** ** Price-time priority of numbers *)
(** [(p1, n1)] has priority over [(p2, n2)]: price first, then the lower number. *)
Definition better_order (s : side) (p1 n1 p2 n2 : Z) : Prop :=
  match s with
  | Bid => p2 < p1 \/ p1 = p2 /\ n1 < n2
  | Ask => p1 < p2 \/ p1 = p2 /\ n1 < n2
  end.
(** Ids are compared as numbers: the higher bid and the lower ask come first. *)
Definition better_id (s : side) (k1 k2 : Z) : Prop :=
  match s with Bid => k2 < k1 | Ask => k1 < k2 end.

Definition is_u64 (z : Z) : Prop := 0 <= z < 2 ^ 64.
Definition is_i64 (z : Z) : Prop := - 2 ^ 63 <= z < 2 ^ 63.
Definition is_u128 (z : Z) : Prop := 0 <= z < 2 ^ 128.

(** ** Histories of one book side *)
Inductive book_op : Type :=
| OpInsert (t : otree_id) (l : leaf)
| OpRemove (t : otree_id) (key : Z).

(** What an operation returned: the order inserted over, the order removed, or failure. *)
Inductive book_out : Type :=
| RFailed
| RInserted (replaced : option leaf)
| RRemoved (removed : option leaf).

(** A failed operation leaves the book as it was (the transaction is void). *)
Definition book_step (bs : bookside) (op : book_op) : bookside * book_out :=
  match op with
  | OpInsert t l =>
      match bs_insert_leaf bs t l with
      | Ok (bs', _, old) => (bs', RInserted old)
      | Err _ => (bs, RFailed)
      end
  | OpRemove t k =>
      match bs_remove_by_key bs t k with
      | Ok (bs', old) => (bs', RRemoved old)
      | Err _ => (bs, RFailed)
      end
  end.

Fixpoint book_run (bs : bookside) (ops : list book_op) : bookside * list book_out :=
  match ops with
  | [] => (bs, [])
  | op :: r =>
      let (bs1, out) := book_step bs op in
      let (bs2, outs) := book_run bs1 r in (bs2, out :: outs)
  end.

(** Two finite maps from keys to orders. *)
Definition spec_book : Type := otree_id -> Z -> option leaf.
Definition spec_empty : spec_book := fun _ _ => None.
Definition spec_put (m : spec_book) (t : otree_id) (k : Z) (v : option leaf) : spec_book :=
  fun t' k' => if otree_eqb t' t && (k' =? k) then v else m t' k'.
(** The map after an operation with the result the book gave. *)
Definition spec_step (m : spec_book) (op : book_op) (out : book_out) : spec_book :=
  match op, out with
  | OpInsert t l, RInserted _ => spec_put m t (lf_key l) (Some l)
  | OpRemove t k, RRemoved _ => spec_put m t k None
  | _, _ => m
  end.
(** The results a map may give: only an insertion can fail. *)
Definition spec_out (m : spec_book) (op : book_op) (out : book_out) : Prop :=
  match op with
  | OpInsert t l => out = RFailed \/ out = RInserted (m t (lf_key l))
  | OpRemove t k => out = RRemoved (m t k)
  end.
Fixpoint spec_run (m : spec_book) (ops : list book_op) (outs : list book_out) : spec_book :=
  match ops, outs with
  | op :: r, out :: outs => spec_run (spec_step m op out) r outs
  | _, _ => m
  end.
Fixpoint spec_outs (m : spec_book) (ops : list book_op) (outs : list book_out) : Prop :=
  match ops, outs with
  | [], [] => True
  | op :: r, out :: outs => spec_out m op out /\ spec_outs (spec_step m op out) r outs
  | _, _ => False
  end.

Definition op_ok (op : book_op) : Prop :=
  match op with OpInsert _ l => is_u128 (lf_key l) | OpRemove _ _ => True end.

(** Orders listed by iterating one tree. *)
Definition lists (bs : bookside) (t : otree_id) (l : list leaf) : Prop :=
  exists items, tree_iter_all (bs_nodes bs) (bs_root bs t) = Ok items /\ map snd items = l.

(** ** Book sides that can occur *)
(** The order's id decodes: it is a 128-bit number and, for a limit order, its upper half
    is a positive 64-bit signed price. *)
Definition order_ok (t : otree_id) (l : leaf) : Prop :=
  is_u128 (lf_key l) /\
  match t with Fixed => 1 <= lf_key l / 2 ^ 64 < 2 ^ 63 | OraclePegged => True end.

Inductive book_reach (s : side) : bookside -> Prop :=
| br_init : book_reach s (bookside_init s)
| br_insert bs t l bs' h old : book_reach s bs -> order_ok t l ->
    bs_insert_leaf bs t l = Ok (bs', h, old) -> book_reach s bs'
| br_remove bs t k bs' old : book_reach s bs -> bs_remove_by_key bs t k = Ok (bs', old) -> book_reach s bs'
| br_expire bs t now bs' old : book_reach s bs -> bs_remove_one_expired bs t now = Ok (bs', old) ->
    book_reach s bs'
| br_worst bs now oracle bs' old : book_reach s bs -> bs_remove_worst bs now oracle = Ok (bs', old) ->
    book_reach s bs'
| br_qty bs t items h l q bs' : book_reach s bs ->
    tree_iter_all (bs_nodes bs) (bs_root bs t) = Ok items -> In (h, l) items ->
    bs_set_qty bs h q = Ok bs' -> book_reach s bs'.

(** ** Nodes of the pool *)
Inductive tree_node (bs : bookside) (t : otree_id) : Z -> Prop :=
| tn_root h : root_handle (bs_root bs t) = Some h -> tree_node bs t h
| tn_child h i b : tree_node bs t h -> a_nodes (bs_nodes bs) h = NInner i -> tree_node bs t (in_child i b).

Fixpoint free_chain (a : arena) (h : Z) (l : list Z) : Prop :=
  match l with
  | [] => True
  | x :: r => h = x /\
      match r with
      | [] => exists n, a_nodes a x = NLastFree n
      | _ => exists n, a_nodes a x = NFree n /\ free_chain a n r
      end
  end.

(** ** Price and age of an order *)
(** The sequence number in an id: complemented for bids. *)
Definition seq_of (s : side) (l : leaf) : Z :=
  match s with Bid => 2 ^ 64 - 1 - lf_key l mod 2 ^ 64 | Ask => lf_key l mod 2 ^ 64 end.
(** Price of a limit order, and of a pegged order as an exact integer (the upper half of
    the id is the offset plus 2^63). *)
Definition exact_price (t : otree_id) (oracle : Z) (l : leaf) : Z :=
  match t with
  | Fixed => lf_key l / 2 ^ 64
  | OraclePegged => oracle + (lf_key l / 2 ^ 64 - 2 ^ 63)
  end.
(** A pegged order is in range when its price is at least 1 and below the largest i64. *)
Definition in_price_range (oracle : Z) (l : leaf) : Prop :=
  1 <= exact_price OraclePegged oracle l < 2 ^ 63 - 1.
(** A price is within an order's peg limit (-1: no limit). *)
Definition within_peg (s : side) (price limit : Z) : Prop :=
  limit = -1 \/ match s with Bid => price <= limit | Ask => limit <= price end.
(** Not expired at [now]. *)
Definition live (now : Z) (l : leaf) : Prop := ~ (0 < lf_tif l /\ lf_ts l + lf_tif l <= now).
(** Expired before [now]: eligible for being dropped when a new order is placed. *)
Definition gone_before (now : Z) (l : leaf) : Prop := lf_tif l <> 0 /\ lf_ts l + lf_tif l < now.
(** [u] is the tree other than [t]. *)
Definition other (t : otree_id) : otree_id := match t with Fixed => OraclePegged | OraclePegged => Fixed end.
(** [L'] is [L] without one occurrence of [x]. *)
Definition without {A} (x : A) (L L' : list A) : Prop := exists B C, L = B ++ x :: C /\ L' = B ++ C.

(** [i] comes before [j]: better price, or the same price and not younger. *)
Definition listed_before (s : side) (i j : item) : Prop :=
  match s with Bid => im_price j < im_price i | Ask => im_price i < im_price j end \/
  im_price i = im_price j /\ seq_of s (im_leaf i) <= seq_of s (im_leaf j).

(** Exactly one of four. *)
Definition one_of (P1 P2 P3 P4 : Prop) : Prop :=
  (P1 /\ ~ P2 /\ ~ P3 /\ ~ P4) \/ (~ P1 /\ P2 /\ ~ P3 /\ ~ P4) \/
  (~ P1 /\ ~ P2 /\ P3 /\ ~ P4) \/ (~ P1 /\ ~ P2 /\ ~ P3 /\ P4).
