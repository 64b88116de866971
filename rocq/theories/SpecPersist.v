(** Specification vocabulary for what may happen to an order resting on the book when
    somebody else's instruction is executed. *)
From Coq Require Import ZArith List Bool.
From Verif Require Import Base Nodes OrderTree BookSide Heap Market OpenOrders Order Book Instructions
  SpecBook SpecOrder SpecMatch SpecSystem.
Import ListNotations.
Open Scope Z_scope.

(** The worst price an order accepts, [None] for a market order. *)
Definition worst_accepted (t : place_order_type) (price : Z) : option Z :=
  match t with POMarket => None | _ => Some price end.

(** The orders an instruction asks to place: side and worst price accepted. *)
Definition wanted (oracle : option Z) (i : instr) : list (side * option Z) :=
  match i with
  | IPlaceOrder _ g | IEditOrder _ _ _ g => [(pa_side g, worst_accepted (pa_type g) (pa_price g))]
  | IPlacePegged _ g | IEditPegged _ _ _ g =>
      match oracle with Some op => [(ga_side g, Some (op + ga_offset g))] | None => [] end
  | IPlaceTake _ g => [(ta_side g, worst_accepted (ta_type g) (ta_price g))]
  | IPlaceMulti _ _ t bids asks _ =>
      map (fun g => (Bid, worst_accepted t (ua_price g))) bids ++
      map (fun g => (Ask, worst_accepted t (ua_price g))) asks
  | _ => []
  end.
Definition on_side (sd : side) (W : list (side * option Z)) : nat := length (filter (fun x => side_eqb (fst x) sd) W).

(** The order [l] of tree [t] may trade at price [p] now: not expired, within its peg limit. *)
Definition tradable (sd : side) (now : Z) (t : otree_id) (l : leaf) (p : Z) : Prop :=
  live now l /\ (t = OraclePegged -> within_peg sd p (lf_peg_limit l)).

(** One of the new orders buys from (sells to) [l] at the price of [l]. *)
Definition traded (oracle : option Z) (now : Z) (W : list (side * option Z)) (sd : side) (t : otree_id) (l : leaf) : Prop :=
  exists lim p, In (invert_side sd, lim) W /\ price_is oracle t l p /\ tradable sd now t l p /\
    accepts (invert_side sd) lim p.
(** One of the new orders found that [l] may not trade. *)
Definition lapsed (oracle : option Z) (now : Z) (W : list (side * option Z)) (sd : side) (t : otree_id) (l : leaf) : Prop :=
  exists lim p, In (invert_side sd, lim) W /\ price_is oracle t l p /\ ~ tradable sd now t l p.
(** [l] has expired and makes room for a new order of its side. *)
Definition cleared (now : Z) (W : list (side * option Z)) (sd : side) (l : leaf) : Prop :=
  exists lim, In (sd, lim) W /\ gone_before now l.
(** The side, with [n] orders, is full, and a new order with a better limit takes the place of [l]. *)
Definition displaced (oracle : option Z) (W : list (side * option Z)) (n : nat) (sd : side) (t : otree_id) (l : leaf) : Prop :=
  exists x p, In (sd, Some x) W /\ room_price oracle t l = Some p /\ strictly_better sd x p /\
    (512 < n + on_side sd W)%nat.

(** No order with this id is left in the tree. *)
Definition absent (w : world) (sd : side) (t : otree_id) (id : Z) : Prop :=
  forall l, In (t, l) (orders w sd) -> lf_key l <> id.

(** What became of the order [l] of tree [t], which rested on side [sd] of [w]. *)
Definition fate (oracle : option Z) (now : Z) (W : list (side * option Z)) (w w' : world) (sd : side) (t : otree_id) (l : leaf) : Prop :=
  In (t, l) (orders w' sd) \/
  (traded oracle now W sd t l /\ exists q, 0 < q < lf_qty l /\ In (t, lf_set_qty l q) (orders w' sd)) \/
  (absent w' sd t (lf_key l) /\
   (traded oracle now W sd t l \/ lapsed oracle now W sd t l \/ cleared now W sd l \/
    displaced oracle W (length (orders w sd)) sd t l)).

(** Instructions that neither place nor cancel. *)
Definition never_touches_orders (i : instr) : bool :=
  match i with
  | IPlaceOrder _ _ | IPlacePegged _ _ | IEditOrder _ _ _ _ | IEditPegged _ _ _ _ | IPlaceTake _ _ | IPlaceMulti _ _ _ _ _ _
  | ICancel _ _ _ | ICancelClient _ _ _ | ICancelAll _ _ _ _ | IPrune _ _ _ => false
  | _ => true
  end.
