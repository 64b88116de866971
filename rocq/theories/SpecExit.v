(** Specification vocabulary for leaving a market: all that an account is due, and the calls
    its owner makes to take it. *)
From Coq Require Import ZArith List Bool.
From Verif Require Import Base Nodes OrderTree BookSide Heap Market OpenOrders Order Book Instructions
  SpecBook SpecFees SpecLedger SpecEvents SpecSystem SpecControl.
Import ListNotations.
Open Scope Z_scope.

(** ** What an account is due *)
(** Base: an ask gives back what it has locked, on the book or dropped from it; a filled bid
    brings the lots bought. *)
Definition event_base (m : market) (e : event) : Z :=
  match e, ev_side e with
  | EFill f, Bid => fe_qty f * bls m
  | EOut o, Ask => oe_qty o * bls m
  | _, _ => 0
  end.
Definition open_base (k : Z) (w : world) : Z :=
  things_sum (fun s _ l => if (lf_owner l =? k) && side_eqb s Ask then lf_qty l * bls (w_mkt w) else 0)
    (fun e => if ev_owner e =? k then event_base (w_mkt w) e else 0) w.
(** Quote: a bid gives back what it has locked with the fees for it; a filled bid what it
    has locked above its price, with the fees for that; a filled ask brings the price less fees. *)
Definition with_fees (m : market) (q : Z) : Z := q + maker_locks m q.
Definition event_quote (w : world) (e : event) : Z :=
  let m := w_mkt w in
  match e, ev_side e with
  | EFill f, Bid =>
      fill_rebate m f + (fill_locked m f - fill_quote m f) +
      (if fill_pegged f then maker_pays m (fill_locked m f) - fill_fee m f else 0)
  | EFill f, Ask => fill_quote m f + fill_rebate m f - fill_fee m f
  | EOut o, Bid => with_fees m (oe_qty o * event_lock w e * qls m)
  | EOut _, Ask => 0
  end.
Definition open_quote (k : Z) (w : world) : Z :=
  things_sum (fun s t l => if (lf_owner l =? k) && side_eqb s Bid then with_fees (w_mkt w) (lf_qty l * order_lock t l * qls (w_mkt w)) else 0)
    (fun e => if ev_owner e =? k then event_quote w e else 0) w.
(** With what is free already. *)
Definition base_due (k : Z) (a : ooa) (w : world) : Z := p_base_free (a_pos a) + open_base k w.
Definition quote_due (k : Z) (a : ooa) (w : world) : Z := p_quote_free (a_pos a) + open_quote k w.

(** ** Leaving *)
(** What is needed from outside: token accounts [ub] and [uq] of the owner with room for all
    the vaults hold, and numbers within machine range. *)
Record can_leave (s : sys) (a : ooa) (ub uq : Z) : Prop := {
  cl_lots : p_bids_base (a_pos a) + p_asks_base (a_pos a) < 2 ^ 63;
  cl_penalty : p_penalty (a_pos a) * 500 <= 18446744073709551615;
  cl_base : exists x v, s_tok s ub = Some x /\ s_tok s (c_base_vault (m_cfg (w_mkt (s_w s)))) = Some v /\
    t_mint x = c_base_mint (m_cfg (w_mkt (s_w s))) /\ t_owner x = a_owner a /\ t_amount x + t_amount v <= 18446744073709551615;
  cl_quote : exists x v, s_tok s uq = Some x /\ s_tok s (c_quote_vault (m_cfg (w_mkt (s_w s)))) = Some v /\
    t_mint x = c_quote_mint (m_cfg (w_mkt (s_w s))) /\ t_owner x = a_owner a /\ t_amount x + t_amount v <= 18446744073709551615 }.

(** The calls: cancel all orders, have the account's own events delivered (the only call not
    signed by the owner, and only if the market has an admin for it), settle, close. *)
Definition leaving (m : market) (u k ub uq : Z) (slots : list Z) : list instr :=
  ICancelAll u k None 24 :: map (fun i => IConsumeGiven (c_consume_events_admin (m_cfg m)) [i] [k]) slots ++
  [ISettle u k ub uq None; ICloseAccount u k].
