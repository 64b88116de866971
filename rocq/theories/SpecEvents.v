(** What a cancellation and a waiting event do to an account, in closed form. *)
From Coq Require Import ZArith List Bool.
From Verif Require Import Base Nodes OrderTree BookSide Heap Market OpenOrders Order Book Instructions SpecBook SpecFees SpecLedger.
Import ListNotations.
Open Scope Z_scope.

(** ** Cancelling [qty] lots of an order whose funds were locked at [lp] *)
(** A bid gives back its quote and the maker fees locked for it, an ask its base. *)
Definition cancelled_pos (m : market) (p : position) (s : side) (qty lp : Z) : position :=
  let q := qty * lp * qls m in
  match s with
  | Bid => mkPos (p_bids_base p - qty) (p_asks_base p) (p_base_free p) (p_quote_free p + (q + maker_locks m q))
             (p_locked_fees p - maker_locks m q) (p_rebates p) (p_penalty p) (p_maker_volume p) (p_taker_volume p)
             (p_bids_quote p - qty * lp)
  | Ask => mkPos (p_bids_base p) (p_asks_base p - qty) (p_base_free p + qty * bls m) (p_quote_free p) (p_locked_fees p)
             (p_rebates p) (p_penalty p) (p_maker_volume p) (p_taker_volume p) (p_bids_quote p)
  end.
Definition freed (a : ooa) (i : Z) (p : position) : ooa := set_order_at (a_set_pos a p) i open_order0.

(** Account [a] without the order in its slot [i], [qty] lots of which are given back. *)
Definition cancelled (m : market) (a : ooa) (i qty : Z) : ooa :=
  match order_at a i with
  | Ok oo => freed a i (cancelled_pos m (a_pos a) (oo_side oo) qty (oo_locked_price oo))
  | Err _ => a
  end.

(** ** Crediting a fill to its maker *)
Definition filled_pos (m : market) (p : position) (f : fill_event) : position :=
  match fill_side f with
  | Bid =>
      let locked := if fill_pegged f then maker_pays m (fill_locked m f) else fill_fee m f in
      mkPos (p_bids_base p - fe_qty f) (p_asks_base p) (p_base_free p + fe_qty f * bls m)
        (p_quote_free p + (fill_rebate m f + (fill_locked m f - fill_quote m f + (locked - fill_fee m f))))
        (p_locked_fees p - locked) (p_rebates p + fill_fee m f) (p_penalty p)
        (p_maker_volume p + fill_quote m f) (p_taker_volume p) (p_bids_quote p - fe_qty f * fill_lp f)
  | Ask =>
      mkPos (p_bids_base p) (p_asks_base p - fe_qty f) (p_base_free p)
        (p_quote_free p + (fill_quote m f + fill_rebate m f - fill_fee m f)) (p_locked_fees p)
        (p_rebates p + fill_fee m f) (p_penalty p) (p_maker_volume p + fill_quote m f) (p_taker_volume p) (p_bids_quote p)
  end.
Definition filled_mkt (m : market) (f : fill_event) : market :=
  m_set_fees_accrued (m_set_maker_volume (m_set_rebates_accrued m (m_rebates_accrued m + fill_fee m f))
    (m_maker_volume m + fill_quote m f)) (m_fees_accrued m + fill_fee m f).
Definition filled (m : market) (a : ooa) (f : fill_event) : ooa :=
  if fe_maker_out f then freed a (fe_maker_slot f) (filled_pos m (a_pos a) f) else a_set_pos a (filled_pos m (a_pos a) f).

(** ** Waiting events *)
Definition ev_owner (e : event) : Z := match e with EFill f => fe_maker f | EOut o => oe_owner o end.
Definition ev_slot (e : event) : Z := match e with EFill f => fe_maker_slot f | EOut o => oe_slot o end.
Definition ev_side (e : event) : side := match e with EFill f => fill_side f | EOut o => oe_side o end.
Definition ev_qty (e : event) : Z := match e with EFill f => fe_qty f | EOut o => oe_qty o end.
(** The event ends its order. *)
Definition ev_final (e : event) : bool := match e with EFill f => fe_maker_out f | EOut _ => true end.

(** The event reaches the account it is about; the book and the queue stay. *)
Definition delivered (w : world) (e : event) : world :=
  match acct_get (ev_owner e) (w_accts w) with
  | None => w
  | Some a =>
      match e with
      | EFill f => w_set_acct (w_set_mkt w (filled_mkt (w_mkt w) f)) (fe_maker f) (filled (w_mkt w) a f)
      | EOut o => w_set_acct w (oe_owner o) (cancelled (w_mkt w) a (oe_slot o) (oe_qty o))
      end
  end.
Definition deliver (w : world) (es : list event) : world := fold_left delivered es w.

(** ** Queues *)
(** The account an entry is about is among those passed along. *)
Definition present (rem : list Z) (x : event * Z) : bool := mem_key (ev_owner (fst x)) rem.
(** Queue [q] without the entries [done]; the others keep their order and slots. *)
Definition without (done q : list (event * Z)) : list (event * Z) :=
  filter (fun x => negb (mem_key (snd x) (map snd done))) q.
(** The entries in the given slots, in that order. *)
Definition at_slots (q : list (event * Z)) (ss : list Z) : list (event * Z) :=
  flat_map (fun s => filter (fun x => snd x =? s) q) ss.
(** First occurrences. *)
Definition dedup (l : list Z) : list Z := fold_left (fun acc x => if mem_key x acc then acc else acc ++ [x]) l [].
(** The entries a call looks at: those in the occupied slots it names, each once, then the
    oldest others, [n] in all. *)
Definition looked_at (q : list (event * Z)) (slots : list Z) (n : nat) : list (event * Z) :=
  at_slots q (firstn n (dedup (filter (fun s => mem_key s (map snd q)) slots ++ map snd q))).

(** ** Calls that consume events *)
Definition is_consume (i : instr) : bool := match i with IConsume _ _ _ | IConsumeGiven _ _ _ => true | _ => false end.
Inductive consumed : sys -> sys -> Prop :=
| cd_none s : consumed s s
| cd_more e s i s1 out s2 : is_consume i = true -> exec e s i = Ok (s1, out) -> consumed s1 s2 -> consumed s s2.
(** The calls [l], one after the other, all succeed and lead from [s] to [s']. *)
Inductive executes (e : env) : sys -> list instr -> sys -> Prop :=
| xs_none s : executes e s [] s
| xs_more s i s1 out l s2 : exec e s i = Ok (s1, out) -> executes e s1 l s2 -> executes e s (i :: l) s2.
