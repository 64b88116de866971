(** Specification of what others can do to an account: nothing but trade with its orders. *)
From Coq Require Import ZArith List Bool.
From Verif Require Import Base Nodes OrderTree BookSide Heap Market OpenOrders Order Book Instructions
  SpecBook SpecFees SpecOrder SpecLedger SpecEvents SpecSystem SpecControl SpecExit.
Import ListNotations.
Open Scope Z_scope.

(** The orders on both sides of a book. *)
Definition pool : Type := side -> list (otree_id * leaf).

(** ** What a fill brings its maker *)
Definition fill_base (m : market) (f : fill_event) : Z :=
  match fill_side f with Bid => fe_qty f * bls m | Ask => - (fe_qty f * bls m) end.
Definition fill_proceeds (m : market) (f : fill_event) : Z :=
  match fill_side f with Bid => - fill_quote m f | Ask => fill_quote m f end +
  maker_gets m (fill_quote m f) - maker_pays m (fill_quote m f).
(** Fees are locked rounded up and paid rounded down: a bid may leave one native unit of quote per
    fill behind, if makers pay fees. *)
Definition rounding (m : market) (F : list fill_event) : Z :=
  if 0 <? maker_fee m then Z.of_nat (length (filter (fun f => side_eqb (fill_side f) Bid) F)) else 0.

(** ** Fills of the orders of an account *)
(** The price and time are ones the order [l] agreed to: its own price, or the oracle's with its
    offset, within its limit; and before it expired. *)
Definition fair (t : otree_id) (l : leaf) (f : fill_event) : Prop :=
  (exists oracle, price_is oracle t l (fe_price f)) /\
  (t = OraclePegged -> within_peg (fill_side f) (fe_price f) (lf_peg_limit l)) /\ live (fe_ts f) l.
(** Lots of the order in slot [i] on side [s]. *)
Definition filled_lots (F : list fill_event) (s : side) (i : Z) : Z :=
  sumZ (map (fun f => if side_eqb (fill_side f) s && (fe_maker_slot f =? i) then fe_qty f else 0) F).

(** From the orders [L] to the orders [L'] the orders of account [k] took part in the fills [F]
    and in no others, and no order of [k] was added or changed otherwise. *)
Record only_fills (k : Z) (L L' : pool) (F : list fill_event) : Prop := {
  of_fill : forall f, In f F -> fe_maker f = k /\ exists t l, In (t, l) (L (fill_side f)) /\ lf_owner l = k /\
    lf_slot l = fe_maker_slot f /\ 1 <= fe_qty f /\ fair t l f;
  of_left : forall s t l', In (t, l') (L' s) -> lf_owner l' = k -> exists l, In (t, l) (L s) /\
    l' = lf_set_qty l (lf_qty l') /\ lf_qty l' + filled_lots F s (lf_slot l) = lf_qty l;
  of_most : forall s t l, In (t, l) (L s) -> lf_owner l = k -> filled_lots F s (lf_slot l) <= lf_qty l }.

(** ** What others do *)
(** From [a] in [w] to [a'] in [w'], what the account [k] is due changed by the fills [F] and
    nothing else. *)
Record traded (k : Z) (w : world) (a : ooa) (w' : world) (a' : ooa) (F : list fill_event) : Prop := {
  td_only : only_fills k (orders w) (orders w') F;
  td_base : base_due k a' w' = base_due k a w + sumZ (map (fill_base (w_mkt w)) F);
  td_quote : exists r, 0 <= r <= rounding (w_mkt w) F /\
    quote_due k a' w' = quote_due k a w + sumZ (map (fill_proceeds (w_mkt w)) F) - r }.
(** Instructions that do not act for [k], in any number, at any times and oracle prices. *)
Inductive others (k : Z) : sys -> sys -> Prop :=
| os_none s : others k s s
| os_more e s i s1 out s2 : ~ acts_for i k -> exec e s i = Ok (s1, out) -> others k s1 s2 -> others k s s2.
