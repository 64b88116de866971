(** Specification vocabulary for winding down a market, and for its terms. *)
From Coq Require Import ZArith List Bool.
From Verif Require Import Base Nodes OrderTree BookSide Heap Market OpenOrders Order Book Instructions SpecControl.
Import ListNotations.
Open Scope Z_scope.

(** ** Winding down *)
(** The token account [d] is of that mint and has room for all that [vault] holds. *)
Definition has_room (t : tokens) (d vault mint : Z) : Prop :=
  exists x v, t d = Some x /\ t vault = Some v /\ t_mint x = mint /\ t_amount x + t_amount v <= 18446744073709551615.
Definition owned_by (t : tokens) (d u : Z) : Prop := exists x, t d = Some x /\ t_owner x = u.

(** What winding down needs from outside: token accounts of the users to pay into,
    [fst (dest k)] and [snd (dest k)] for account [k], and one for the fees; and numbers that
    no market gets near to, all lots of an account and its penalties within machine range. *)
Record ready (s : sys) (dest : Z -> Z * Z) (receiver : Z) : Prop := {
  rd_lots : forall k a, acct_get k (w_accts (s_w s)) = Some a -> p_bids_base (a_pos a) + p_asks_base (a_pos a) < 2 ^ 63;
  rd_penalty : forall k a, acct_get k (w_accts (s_w s)) = Some a -> p_penalty (a_pos a) * 500 <= 18446744073709551615;
  rd_base : forall k a, acct_get k (w_accts (s_w s)) = Some a ->
    has_room (s_tok s) (fst (dest k)) (c_base_vault (m_cfg (w_mkt (s_w s)))) (c_base_mint (m_cfg (w_mkt (s_w s)))) /\
    owned_by (s_tok s) (fst (dest k)) (a_owner a);
  rd_quote : forall k a, acct_get k (w_accts (s_w s)) = Some a ->
    has_room (s_tok s) (snd (dest k)) (c_quote_vault (m_cfg (w_mkt (s_w s)))) (c_quote_mint (m_cfg (w_mkt (s_w s)))) /\
    owned_by (s_tok s) (snd (dest k)) (a_owner a);
  rd_fees : has_room (s_tok s) receiver (c_quote_vault (m_cfg (w_mkt (s_w s)))) (c_quote_mint (m_cfg (w_mkt (s_w s)))) }.

(** Instructions that the market's admins sign and no user has to: cancelling the orders of
    an account, consuming events, paying an account's balances to its owner's token accounts,
    and collecting the fees. *)
Definition admin_only (m : market) (dest : Z -> Z * Z) (receiver : Z) (i : instr) : Prop :=
  match i with
  | IPrune u _ _ => u = c_close_market_admin (m_cfg m)
  | IConsumeGiven u _ _ => u = c_consume_events_admin (m_cfg m)
  | ISettleExpired u k ub uq ref => u = c_close_market_admin (m_cfg m) /\ (ub, uq) = dest k /\ ref = None
  | ISweep u r => u = c_collect_fee_admin (m_cfg m) /\ r = receiver
  | _ => False
  end.

(** ** The terms of a market *)
(** Lot sizes, fees, mints, vaults, oracles and admins stay; counters only grow; the only
    change to the expiry time is to expire at once. *)
Record ages (m m' : market) : Prop := {
  ag_cfg : m_cfg m' = m_cfg m;
  ag_seq : m_seq m <= m_seq m';
  ag_fees : m_fees_accrued m <= m_fees_accrued m';
  ag_referrers : m_fees_to_referrers m <= m_fees_to_referrers m';
  ag_maker : m_maker_volume m <= m_maker_volume m';
  ag_taker : m_taker_volume_wo_oo m <= m_taker_volume_wo_oo m';
  ag_expiry : m_time_expiry m' = m_time_expiry m \/ m_time_expiry m' = -1 }.
