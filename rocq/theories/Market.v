(** Model of /repo/programs/openbook-v2/src/state/market.rs (oracle prices are in
    Oracle.v). *)
From Coq Require Import ZArith List Bool.
From Verif Require Import Base Nodes.
Import ListNotations.
Open Scope Z_scope.

(** market.rs 15 *)
Definition FEES_SCALE : Z := 1000000.

(** market.rs 21-120: the fields that never change after create_market.  Public keys
    are numbers, 0 being the default key that [NonZeroPubkeyOption] reads as none. *)
Record mcfg : Type := mkCfg {
  c_qls : Z;                 (* quote_lot_size *)
  c_bls : Z;                 (* base_lot_size *)
  c_maker_fee : Z;
  c_taker_fee : Z;
  c_market : Z;              (* the market account's own key *)
  c_authority : Z;           (* market_authority *)
  c_collect_fee_admin : Z;
  c_open_orders_admin : Z;
  c_consume_events_admin : Z;
  c_close_market_admin : Z;
  c_oracle_a : Z;
  c_oracle_b : Z;
  c_base_mint : Z;
  c_quote_mint : Z;
  c_base_vault : Z;
  c_quote_vault : Z }.

(** market.rs 21-120: the fields that change. *)
Record market : Type := mkMarket {
  m_cfg : mcfg;
  m_time_expiry : Z;
  m_seq : Z;
  m_fees_accrued : Z;
  m_fees_to_referrers : Z;
  m_rebates_accrued : Z;
  m_fees_available : Z;
  m_maker_volume : Z;
  m_taker_volume_wo_oo : Z;
  m_base_total : Z;
  m_quote_total : Z }.

Definition qls (m : market) : Z := c_qls (m_cfg m).
Definition bls (m : market) : Z := c_bls (m_cfg m).
Definition maker_fee (m : market) : Z := c_maker_fee (m_cfg m).
Definition taker_fee (m : market) : Z := c_taker_fee (m_cfg m).

Definition m_set_time_expiry m v := mkMarket (m_cfg m) v (m_seq m) (m_fees_accrued m) (m_fees_to_referrers m) (m_rebates_accrued m) (m_fees_available m) (m_maker_volume m) (m_taker_volume_wo_oo m) (m_base_total m) (m_quote_total m).
Definition m_set_seq m v := mkMarket (m_cfg m) (m_time_expiry m) v (m_fees_accrued m) (m_fees_to_referrers m) (m_rebates_accrued m) (m_fees_available m) (m_maker_volume m) (m_taker_volume_wo_oo m) (m_base_total m) (m_quote_total m).
Definition m_set_fees_accrued m v := mkMarket (m_cfg m) (m_time_expiry m) (m_seq m) v (m_fees_to_referrers m) (m_rebates_accrued m) (m_fees_available m) (m_maker_volume m) (m_taker_volume_wo_oo m) (m_base_total m) (m_quote_total m).
Definition m_set_fees_to_referrers m v := mkMarket (m_cfg m) (m_time_expiry m) (m_seq m) (m_fees_accrued m) v (m_rebates_accrued m) (m_fees_available m) (m_maker_volume m) (m_taker_volume_wo_oo m) (m_base_total m) (m_quote_total m).
Definition m_set_rebates_accrued m v := mkMarket (m_cfg m) (m_time_expiry m) (m_seq m) (m_fees_accrued m) (m_fees_to_referrers m) v (m_fees_available m) (m_maker_volume m) (m_taker_volume_wo_oo m) (m_base_total m) (m_quote_total m).
Definition m_set_fees_available m v := mkMarket (m_cfg m) (m_time_expiry m) (m_seq m) (m_fees_accrued m) (m_fees_to_referrers m) (m_rebates_accrued m) v (m_maker_volume m) (m_taker_volume_wo_oo m) (m_base_total m) (m_quote_total m).
Definition m_set_maker_volume m v := mkMarket (m_cfg m) (m_time_expiry m) (m_seq m) (m_fees_accrued m) (m_fees_to_referrers m) (m_rebates_accrued m) (m_fees_available m) v (m_taker_volume_wo_oo m) (m_base_total m) (m_quote_total m).
Definition m_set_taker_volume_wo_oo m v := mkMarket (m_cfg m) (m_time_expiry m) (m_seq m) (m_fees_accrued m) (m_fees_to_referrers m) (m_rebates_accrued m) (m_fees_available m) (m_maker_volume m) v (m_base_total m) (m_quote_total m).
Definition m_set_base_total m v := mkMarket (m_cfg m) (m_time_expiry m) (m_seq m) (m_fees_accrued m) (m_fees_to_referrers m) (m_rebates_accrued m) (m_fees_available m) (m_maker_volume m) (m_taker_volume_wo_oo m) v (m_quote_total m).
Definition m_set_quote_total m v := mkMarket (m_cfg m) (m_time_expiry m) (m_seq m) (m_fees_accrued m) (m_fees_to_referrers m) (m_rebates_accrued m) (m_fees_available m) (m_maker_volume m) (m_taker_volume_wo_oo m) (m_base_total m) v.

(** market.rs 166-168 *)
Definition market_is_expired (m : market) (ts : Z) : bool :=
  negb (m_time_expiry m =? 0) && (m_time_expiry m <? ts).

(** market.rs 170-175 *)
Definition market_is_empty (m : market) : bool :=
  (m_base_total m =? 0) && (m_quote_total m =? 0) && (m_fees_available m =? 0)
  && (m_rebates_accrued m =? 0).

(** market.rs 181-186 *)
Definition vault_by_side (m : market) (s : side) : Z :=
  match s with Ask => c_base_vault (m_cfg m) | Bid => c_quote_vault (m_cfg m) end.

(** market.rs 188-191 *)
Definition gen_order_id (m : market) (s : side) (price_data : Z) : res (market * Z) :=
  seq <- chk_u64 (m_seq m + 1) ;;
  Ok (m_set_seq m seq, new_node_key s price_data seq).

(** market.rs 193-199 *)
Definition max_base_lots (m : market) : res Z := div_i64 i64_max (bls m).
Definition max_quote_lots (m : market) : res Z := div_i64 i64_max (qls m).

(** market.rs 201-213: [lot_size as u64], u64 division, minimum, back to i64 *)
Definition max_lots_from_lamports (lot lamports : Z) : res Z :=
  cap <- div_i64 i64_max lot ;;
  _ <- massert (negb (as_u64 lot =? 0)) ;;
  chk_i64 (Z.min (as_u64 cap) (lamports / as_u64 lot)).
Definition max_base_lots_from_lamports (m : market) := max_lots_from_lamports (bls m).
Definition max_quote_lots_from_lamports (m : market) := max_lots_from_lamports (qls m).

(** market.rs 301-305: i128 arithmetic; a zero divisor or a result outside i64 panics. *)
Definition subtract_taker_fees (m : market) (quote : Z) : res Z :=
  num <- chk_i128 (quote * FEES_SCALE) ;;
  den <- chk_i128 (FEES_SCALE + taker_fee m) ;;
  if den =? 0 then Err Panic else chk_i64 (Z.quot num den).

(** market.rs 347-349: [i128] division truncates toward zero. *)
Definition ceil_fee_division (num : Z) : res Z :=
  n <- chk_i128 (num + (FEES_SCALE - 1)) ;; Ok (Z.quot n FEES_SCALE).

(** market.rs 351-355 *)
Definition unsigned_maker_fees_floor (m : market) (amount : Z) : res Z :=
  a <- chk_i64 (Z.abs (maker_fee m)) ;;
  n <- chk_i128 (amount * a) ;;
  chk_u64 (Z.quot n FEES_SCALE).

(** market.rs 307-313 *)
Definition maker_fees_floor (m : market) (amount : Z) : res Z :=
  if 0 <? maker_fee m then unsigned_maker_fees_floor m amount else Ok 0.

(** market.rs 315-321 *)
Definition maker_rebate_floor (m : market) (amount : Z) : res Z :=
  if 0 <? maker_fee m then Ok 0 else unsigned_maker_fees_floor m amount.

(** market.rs 323-335; the type parameter is given by its range check. *)
Definition maker_fees_ceil (t : Z -> res Z) (m : market) (amount : Z) : res Z :=
  if 0 <? maker_fee m then
    a <- chk_i64 (Z.abs (maker_fee m)) ;;
    n <- chk_i128 (amount * a) ;;
    c <- ceil_fee_division n ;; t c
  else Ok 0.

(** market.rs 337-345 *)
Definition taker_fees_ceil (t : Z -> res Z) (m : market) (amount : Z) : res Z :=
  n <- chk_i128 (amount * taker_fee m) ;;
  c <- ceil_fee_division n ;; t c.
