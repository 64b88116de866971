(** The width of every number kept in an account. *)
From Coq Require Import ZArith List Bool.
From Verif Require Import Base Nodes OrderTree BookSide Heap Market OpenOrders Order Book Instructions SpecBook SpecLedger SpecSystem.
Import ListNotations.
Open Scope Z_scope.

Definition is_u8 (z : Z) : Prop := 0 <= z < 2 ^ 8.
Definition is_u16 (z : Z) : Prop := 0 <= z < 2 ^ 16.
Definition is_u32 (z : Z) : Prop := 0 <= z < 2 ^ 32.
(** Addresses have 32 bytes; 0 stands for none. *)
Definition is_address (z : Z) : Prop := 0 <= z < 2 ^ 256.

(** ** Calls as they arrive on chain *)
(** The clock is a machine integer, addresses have 32 bytes, the number of an account comes
    from a 32-bit counter, and a list of orders is as long as a transaction allows: its length
    is sent in 32 bits.  (Other arguments outside their types make the call fail.) *)
Definition machine_call (e : env) (i : instr) : Prop :=
  e_now e < 2 ^ 63 /\
  match i with
  | IPlaceOrder x _ | IPlacePegged x _ | IEditOrder x _ _ _ | IEditPegged x _ _ _ => is_address (px_acct x)
  | IPlaceTake x _ => is_address (tx_signer x)
  | IPlaceMulti x _ _ bids asks _ => is_address (mx_acct x) /\ Z.of_nat (length bids) < 2 ^ 32 /\ Z.of_nat (length asks) < 2 ^ 32
  | ICreateAccount _ owner delegate num => is_address owner /\ is_address delegate /\ is_u32 num
  | ISetDelegate _ _ delegate => is_address delegate
  | _ => True
  end.
Inductive run_on_chain : sys -> Prop :=
| on_create now t c te s : create_market_ix now t c te = Ok s -> run_on_chain s
| on_step e s i s' out : run_on_chain s -> machine_call e i -> exec e s i = Ok (s', out) -> run_on_chain s'.

(** ** Resting orders (nodes.rs 148-181) *)
Record leaf_fits (l : leaf) : Prop := {
  lt_slot : 0 <= lf_slot l < 24;
  lt_tif : is_u16 (lf_tif l);
  lt_key : is_u128 (lf_key l);
  lt_owner : is_address (lf_owner l);
  lt_qty : 0 < lf_qty l < 2 ^ 63;
  lt_ts : 0 <= lf_ts l < 2 ^ 63;
  lt_peg : is_i64 (lf_peg_limit l);
  lt_cid : is_u64 (lf_client_id l) }.

(** ** Events (heap.rs 274-297 and 352-366) *)
Record fill_fits (f : fill_event) : Prop := {
  ff_slot : 0 <= fe_maker_slot f < 24;
  ff_ts : is_u64 (fe_ts f);
  ff_seq : is_u64 (fe_seq f);
  ff_maker : is_address (fe_maker f);
  ff_taker : is_address (fe_taker f);
  ff_maker_ts : is_u64 (fe_maker_ts f);
  ff_taker_cid : is_u64 (fe_taker_cid f);
  ff_price : 0 < fe_price f < 2 ^ 63;
  ff_peg : is_i64 (fe_peg_limit f);
  ff_qty : 0 < fe_qty f < 2 ^ 63;
  ff_maker_cid : is_u64 (fe_maker_cid f) }.
Record out_fits (o : out_event) : Prop := {
  of_slot : 0 <= oe_slot o < 24;
  of_ts : is_u64 (oe_ts o);
  of_seq : is_u64 (oe_seq o);
  of_owner : is_address (oe_owner o);
  of_qty : 0 < oe_qty o < 2 ^ 63 }.
Definition event_fits (e : event) : Prop := match e with EFill f => fill_fits f | EOut o => out_fits o end.

(** ** Accounts (open_orders_account.rs 350-375 and 426-435) *)
Record slot_fits (oo : open_order) : Prop := {
  sf_id : is_u128 (oo_id oo);
  sf_cid : is_u64 (oo_client_id oo);
  sf_price : 0 <= oo_locked_price oo < 2 ^ 63 }.
Record position_fits (p : position) : Prop := {
  pt_bids : 0 <= p_bids_base p < 2 ^ 63;
  pt_asks : 0 <= p_asks_base p < 2 ^ 63;
  pt_bidq : 0 <= p_bids_quote p < 2 ^ 63;
  pt_base : is_u64 (p_base_free p);
  pt_quote : is_u64 (p_quote_free p);
  pt_locked : is_u64 (p_locked_fees p);
  pt_rebates : is_u64 (p_rebates p);
  pt_penalty : is_u64 (p_penalty p);
  pt_maker : is_u128 (p_maker_volume p);
  pt_taker : is_u128 (p_taker_volume p) }.
Record account_fits (a : ooa) : Prop := {
  at_owner : is_address (a_owner a);
  at_delegate : is_address (a_delegate a);
  at_num : is_u32 (a_num a);
  at_version : is_u8 (a_version a);
  at_position : position_fits (a_pos a);
  at_slots : length (a_orders a) = 24%nat /\ Forall slot_fits (a_orders a) }.

(** ** The market (market.rs 87-148) *)
Record market_fits (m : market) : Prop := {
  mf_seq : is_u64 (m_seq m);
  mf_base : is_u64 (m_base_total m);
  mf_quote : is_u64 (m_quote_total m);
  mf_available : is_u64 (m_fees_available m);
  mf_rebates : is_u64 (m_rebates_accrued m);
  mf_expiry : is_i64 (m_time_expiry m);
  mf_accrued : is_u128 (m_fees_accrued m);
  mf_referrers : is_u128 (m_fees_to_referrers m);
  mf_maker : is_u128 (m_maker_volume m);
  mf_taker : is_u128 (m_taker_volume_wo_oo m) }.

Record all_fit (w : world) : Prop := {
  af_orders : forall sd t l, In (t, l) (orders w sd) -> leaf_fits l;
  af_events : forall e, In e (waiting w) -> event_fits e;
  af_accounts : forall k a, acct_get k (w_accts w) = Some a -> account_fits a;
  af_market : market_fits (w_mkt w) }.
