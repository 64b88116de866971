(** Specification vocabulary for whole executions: what can be read off a market, and the
    amounts its orders and waiting events stand for. *)
From Coq Require Import ZArith List Bool Permutation.
From Verif Require Import Base Nodes OrderTree BookSide Heap Market OpenOrders Order Book Instructions SpecBook SpecFees SpecLedger SpecEvents.
Import ListNotations.
Open Scope Z_scope.

(** ** What can be read off a market *)
(** The orders resting on a side, with the tree they are in, and the waiting events. *)
Definition tree_orders (bs : bookside) (t : otree_id) : list leaf :=
  match tree_iter_all (bs_nodes bs) (bs_root bs t) with Ok items => map snd items | Err _ => [] end.
Definition orders (w : world) (s : side) : list (otree_id * leaf) :=
  map (pair Fixed) (tree_orders (w_book w s) Fixed) ++
  map (pair OraclePegged) (tree_orders (w_book w s) OraclePegged).
Definition queue_of (w : world) : list (event * Z) := match heap_iter (w_heap w) with Ok l => l | Err _ => [] end.
Definition waiting (w : world) : list event := map fst (queue_of w).
(** Reading never fails. *)
Definition readable (w : world) : Prop :=
  (forall s t, exists items, tree_iter_all (bs_nodes (w_book w s)) (bs_root (w_book w s) t) = Ok items) /\
  exists l, heap_iter (w_heap w) = Ok l.

(** Sums over the accounts, over the waiting fills, and over everything that stands for
    (a part of) an accepted order. *)
Definition accounts_sum (f : position -> Z) (w : world) : Z := sumZ (map (fun ka => f (a_pos (snd ka))) (w_accts w)).
Definition fills_sum (f : fill_event -> Z) (w : world) : Z :=
  sumZ (map (fun e => match e with EFill g => f g | EOut _ => 0 end) (waiting w)).
Definition things_sum (fo : side -> otree_id -> leaf -> Z) (fe : event -> Z) (w : world) : Z :=
  sumZ (map (fun x => fo Bid (fst x) (snd x)) (orders w Bid)) +
  sumZ (map (fun x => fo Ask (fst x) (snd x)) (orders w Ask)) + sumZ (map fe (waiting w)).

(** ** Fills on the way *)
(** The maker of a waiting fill still shows the filled lots as locked and has not received
    the other side; an ask's maker is missing quote and has too much base locked. *)
Definition base_on_way (m : market) (f : fill_event) : Z :=
  match fill_side f with Bid => fe_qty f * bls m | Ask => - (fe_qty f * bls m) end.
Definition quote_on_way (m : market) (f : fill_event) : Z :=
  match fill_side f with Bid => - fill_quote m f | Ask => fill_quote m f end + fill_rebate m f.

(** ** Executions that remember the positions of closed accounts *)
Definition closing (s : sys) (i : instr) : list position :=
  match i with
  | ICloseAccount _ k => match acct_get k (w_accts (s_w s)) with Some a => [a_pos a] | None => [] end
  | _ => []
  end.
Inductive history : sys -> list position -> Prop :=
| hist_create now t c te s : create_market_ix now t c te = Ok s -> history s []
| hist_step e s i s' out gone : history s gone -> exec e s i = Ok (s', out) -> history s' (closing s i ++ gone).

(** ** Whose order, in which slot *)
Definition one_if (b : bool) : Z := if b then 1 else 0.
(** How many resting orders and final events claim slot [i] of account [k]. *)
Definition occupants (k i : Z) (w : world) : Z :=
  things_sum (fun _ _ l => one_if ((lf_owner l =? k) && (lf_slot l =? i)))
    (fun e => one_if (ev_final e && (ev_owner e =? k) && (ev_slot e =? i))) w.
Definition slot_used (a : ooa) (i : Z) : bool := match order_at a i with Ok oo => negb (oo_free oo) | Err _ => false end.

(** Lots of account [k] on side [s], on the book and in waiting events. *)
Definition lots (k : Z) (s : side) (w : world) : Z :=
  things_sum (fun s' _ l => if (lf_owner l =? k) && side_eqb s' s then lf_qty l else 0)
    (fun e => if (ev_owner e =? k) && side_eqb (ev_side e) s then ev_qty e else 0) w.
(** The price at which an order's quote was locked: its own price, or the peg limit. *)
Definition order_lock (t : otree_id) (l : leaf) : Z :=
  match t with Fixed => lf_key l / 2 ^ 64 | OraclePegged => lf_peg_limit l end.
(** For an out event it is noted in the order's slot. *)
Definition event_lock (w : world) (e : event) : Z :=
  match e with
  | EFill f => fill_lp f
  | EOut o => match acct_get (oe_owner o) (w_accts w) with
              | Some a => match order_at a (oe_slot o) with Ok oo => oo_locked_price oo | Err _ => 0 end
              | None => 0
              end
  end.
Definition bid_quote (k : Z) (w : world) : Z :=
  things_sum (fun s t l => if (lf_owner l =? k) && side_eqb s Bid then lf_qty l * order_lock t l else 0)
    (fun e => if (ev_owner e =? k) && side_eqb (ev_side e) Bid then ev_qty e * event_lock w e else 0) w.
(** Maker fees that account [k] will owe for its bids at most. *)
Definition fees_to_come (k : Z) (w : world) : Z :=
  let m := w_mkt w in
  things_sum (fun s t l => if (lf_owner l =? k) && side_eqb s Bid then maker_locks m (lf_qty l * order_lock t l * qls m) else 0)
    (fun e => if (ev_owner e =? k) && side_eqb (ev_side e) Bid then
       match e with
       | EOut o => maker_locks m (oe_qty o * event_lock w e * qls m)
       | EFill f => if fill_pegged f then maker_pays m (fill_locked m f) else fill_fee m f
       end else 0) w.

(** The slot [oo] holds the order [l] of tree [t] and side [s]. *)
Definition holds (oo : open_order) (s : side) (t : otree_id) (l : leaf) : Prop :=
  oo_free oo = false /\ oo_id oo = lf_key l /\ oo_side oo = s /\ oo_tree oo = t /\
  (s = Bid -> oo_locked_price oo = order_lock t l).

(** Accounts and the book agree. *)
Record backed (w : world) : Prop := {
  bk_read : readable w;
  (** A resting order is in the slot it names, and in no other. *)
  bk_order : forall s t l, In (t, l) (orders w s) -> exists a oo,
    acct_get (lf_owner l) (w_accts w) = Some a /\ order_at a (lf_slot l) = Ok oo /\ holds oo s t l /\
    forall k b i oo', acct_get k (w_accts w) = Some b -> order_at b i = Ok oo' -> oo_free oo' = false ->
      oo_side oo' = s -> oo_id oo' = lf_key l -> k = lf_owner l /\ i = lf_slot l;
  (** An event is about an existing account. *)
  bk_event : forall e, In e (waiting w) -> exists a, acct_get (ev_owner e) (w_accts w) = Some a;
  bk_slots : forall k a i, acct_get k (w_accts w) = Some a -> occupants k i w = one_if (slot_used a i);
  bk_bids : forall k a, acct_get k (w_accts w) = Some a -> p_bids_base (a_pos a) = lots k Bid w;
  bk_asks : forall k a, acct_get k (w_accts w) = Some a -> p_asks_base (a_pos a) = lots k Ask w;
  bk_quote : forall k a, acct_get k (w_accts w) = Some a -> p_bids_quote (a_pos a) = bid_quote k w;
  bk_fees : forall k a, acct_get k (w_accts w) = Some a -> fees_to_come k w <= p_locked_fees (a_pos a) }.

(** ** Vaults *)
Record solvent (s : sys) : Prop := {
  sv_base : exists v, s_tok s (c_base_vault (m_cfg (w_mkt (s_w s)))) = Some v /\
    t_owner v = c_authority (m_cfg (w_mkt (s_w s))) /\ t_mint v = c_base_mint (m_cfg (w_mkt (s_w s))) /\
    m_base_total (w_mkt (s_w s)) <= t_amount v;
  sv_quote : exists v, s_tok s (c_quote_vault (m_cfg (w_mkt (s_w s)))) = Some v /\
    t_owner v = c_authority (m_cfg (w_mkt (s_w s))) /\ t_mint v = c_quote_mint (m_cfg (w_mkt (s_w s))) /\
    m_quote_total (w_mkt (s_w s)) <= t_amount v;
  (** What users can take out now. *)
  sv_free_base : accounts_sum p_base_free (s_w s) <= m_base_total (w_mkt (s_w s));
  sv_free_quote : accounts_sum (fun p => p_quote_free p + p_rebates p + p_locked_fees p) (s_w s)
    + m_fees_available (w_mkt (s_w s)) <= m_quote_total (w_mkt (s_w s)) }.

(** ** Cancelling *)
(** The order [l] leaves the book and its owner gets back all that was locked for it;
    nothing else changes. *)
Record taken_off (w : world) (s : side) (t : otree_id) (l : leaf) (w' : world) : Prop := {
  to_orders : Permutation (orders w s) ((t, l) :: orders w' s);
  to_other : w_book w' (invert_side s) = w_book w (invert_side s);
  to_acct : exists a, acct_get (lf_owner l) (w_accts w) = Some a /\
    w_accts w' = acct_set (lf_owner l) (cancelled (w_mkt w) a (lf_slot l) (lf_qty l)) (w_accts w);
  to_mkt : w_mkt w' = w_mkt w;
  to_heap : w_heap w' = w_heap w }.
Inductive taken_off_all : world -> list (side * otree_id * leaf) -> world -> Prop :=
| ta_none w : taken_off_all w [] w
| ta_more w s t l w1 r w2 : taken_off w s t l w1 -> taken_off_all w1 r w2 -> taken_off_all w ((s, t, l) :: r) w2.
(** The orders of account [k] that the side and client id, if given, select. *)
Definition selected (k : Z) (so : option side) (co : option Z) (a : ooa) (s : side) (l : leaf) : Prop :=
  lf_owner l = k /\ match so with Some s' => s = s' | None => True end /\
  match co with
  | Some c => exists oo, order_at a (lf_slot l) = Ok oo /\ oo_client_id oo = c
  | None => True
  end.

(** ** Consuming events *)
(** The entries [done] leave the queue and reach the accounts they are about, in that order;
    nothing else changes. *)
Definition consumes (s : sys) (done : list (event * Z)) (s' : sys) : Prop :=
  queue_of (s_w s') = without done (queue_of (s_w s)) /\
  s_w s' = w_set_heap (deliver (s_w s) (map fst done)) (w_heap (s_w s')) /\
  s_tok s' = s_tok s /\ s_closed s' = s_closed s.
