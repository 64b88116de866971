(** Specification vocabulary for when matching may stop and which orders may be dropped to
    make room. *)
From Coq Require Import ZArith List Bool.
From Verif Require Import Base Nodes OrderTree BookSide Heap Market OpenOrders Order Book SpecBook SpecFees SpecOrder.
Import ListNotations.
Open Scope Z_scope.

(** The quote lots an order may spend on (or receive from) the orders it meets: a buyer sets
    the taker fee aside first. *)
Definition quote_budget (m : market) (o : order) : Z :=
  match o_side o with
  | Bid => o_max_quote o * 1000000 / (1000000 + taker_fee m)
  | Ask => o_max_quote o
  end.

(** [p] is at least as good as [q] for a taker of side [s]. *)
Definition at_least_as_good (s : side) (p q : Z) : Prop :=
  match s with Bid => p <= q | Ask => q <= p end.

(** A reason for a taker on side [s] to leave something of the listed order [i]: everything
    asked for was traded, or the number of matches allowed is used up, or the quote budget
    does not reach the price of [i] or of an order listed ahead of it. *)
Definition has_reason (w : world) (o : order) (now limit : Z) (items : list item) (acts : list act) (i : item) : Prop :=
  base_lots acts = o_max_base o \/
  Z.of_nat (length (filter is_fill acts)) = limit \/
  exists j, In j items /\ may_trade (invert_side (o_side o)) now j /\
    at_least_as_good (o_side o) (im_price j) (im_price i) /\
    quote_budget (w_mkt w) o - quote_lots acts < im_price j.

(** The price by which orders are compared when one has to make room: pegged orders beyond
    the largest price count as that price, those below 1 as 1. *)
Definition room_price (oracle : option Z) (t : otree_id) (l : leaf) : option Z :=
  match t with
  | Fixed => Some (lf_key l / 2 ^ 64)
  | OraclePegged => match oracle with
                    | Some op => Some (Z.max 1 (Z.min (exact_price OraclePegged op l) (2 ^ 63 - 1)))
                    | None => None
                    end
  end.
(** On side [s], price [p] strictly better than [q]. *)
Definition strictly_better (s : side) (p q : Z) : Prop :=
  match s with Bid => q < p | Ask => p < q end.

(** [l] of tree [t] is thrown off the side, which held [all] and first lost [ge], for the sake
    of the order [put]: it is worse than [put], 512 orders or more were left, and it was the
    worst of them: every other has a better price, or the same price and is not younger. *)
Definition evicts (s : side) (oracle : option Z) (all ge : list (otree_id * leaf)) (t : otree_id) (l : leaf)
  (put : option (otree_id * leaf)) : Prop :=
  exists t' nl price p, put = Some (t', nl) /\ price_is oracle t' nl price /\ room_price oracle t l = Some p /\
    strictly_better s price p /\ (512 + length ge <= length all)%nat /\
    forall u x q, In (u, x) all -> ~ In (u, x) ge -> room_price oracle u x = Some q ->
      strictly_better s q p \/ q = p /\ (2 <= p < 2 ^ 63 - 1 -> seq_of s x <= seq_of s l).
