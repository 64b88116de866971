(** Model of the client library's quotes: /repo/lib/client/src/book.rs and the [quote]
    function of /repo/lib/client/src/jup.rs. *)
From Coq Require Import ZArith List Bool.
From Verif Require Import Base Nodes OrderTree BookSide Heap Market OpenOrders Order Book Oracle.
Import ListNotations.
Open Scope Z_scope.

(** client/src/book.rs 10 and 11 *)
Definition MAXIMUM_TAKEN_ORDERS : Z := 45.
Definition MAXIMUM_REMAINING_ACCOUNTS : nat := 3.

(** The copy of the order book a client works on: [Orderbook] of book.rs 20-23, and its
    [bookside] of book.rs 46-51. *)
Record orderbook : Type := mkOrderbook { ob_bids : bookside; ob_asks : bookside }.
Definition ob_side (b : orderbook) (s : side) : bookside :=
  match s with Bid => ob_bids b | Ask => ob_asks b end.

(** client/src/book.rs 13-18 *)
Record client_amounts : Type := mkClientAmounts {
  ca_base : Z;
  ca_quote : Z;
  ca_fee : Z;
  ca_short : bool }.                        (* not_enough_liquidity *)

(** client/src/book.rs 27-31 and 55-59 *)
Definition client_oracle_lots (m : market) (oracle : option Z) : res (option Z) :=
  match oracle with
  | Some p => v <- native_price_to_lot m p ;; Ok (Some v)
  | None => Ok None
  end.

(** client/src/book.rs 33-43: the owners of the first orders.  The [HashSet] is a list
    without repetition, in order of insertion (the code returns it in any order). *)
Fixpoint crank_loop (items : list item) (acc : list Z) : list Z :=
  match items with
  | [] => acc
  | i :: r =>
      let k := lf_owner (im_leaf i) in
      let acc' := if mem_key k acc then acc else acc ++ [k] in
      if Nat.leb MAXIMUM_REMAINING_ACCOUNTS (length acc') then acc' else crank_loop r acc'
  end.
Definition remaining_accounts_to_crank (b : orderbook) (s : side) (m : market)
  (oracle : option Z) (now : Z) : res (list Z) :=
  lots <- client_oracle_lots m oracle ;;
  items <- iter_valid (ob_side b (invert_side s)) now lots ;;
  Ok (crank_loop items []).

(** Local variables of the loop, client/src/book.rs 95-107 *)
Record qstate : Type := mkQs {
  qs_base : Z;                              (* remaining_base_lots *)
  qs_quote : Z;                             (* remaining_quote_lots *)
  qs_rebates : Z;                           (* maker_rebates_acc *)
  qs_limit : Z;
  qs_fills : Z;                             (* number_of_processed_fill_events *)
  qs_drops : Z;                             (* number_of_dropped_expired_orders *)
  qs_accounts : list Z }.                   (* accounts, newest last *)

(** client/src/book.rs 110-144 *)
Fixpoint quote_loop (m : market) (items : list item) (s : qstate) : res qstate :=
  match items with
  | [] => Ok s
  | i :: rest =>
      let l := im_leaf i in
      if negb (is_valid i) then
        quote_loop m rest
          (if qs_drops s <? DROP_EXPIRED_ORDER_LIMIT then
             mkQs (qs_base s) (qs_quote s) (qs_rebates s) (qs_limit s) (qs_fills s)
               (qs_drops s + 1) (qs_accounts s ++ [lf_owner l])
           else s)
      else if (qs_base s =? 0) || (qs_quote s =? 0) || (qs_limit s =? 0) then Ok s
      else
        mbq <- div_i64 (qs_quote s) (im_price i) ;;
        if mbq =? 0 then Ok s
        else
          let mb := Z.min (Z.min (qs_base s) (lf_qty l)) mbq in
          mq <- chk_i64 (mb * im_price i) ;;
          qn <- chk_i64 (mq * qls m) ;;
          r <- maker_rebate_floor m (as_u64 qn) ;;
          rebates <- chk_u64 (qs_rebates s + r) ;;
          rb <- chk_i64 (qs_base s - mb) ;;
          rq <- chk_i64 (qs_quote s - mq) ;;
          lim <- chk (in_range 0 u8_max) (qs_limit s - 1) ;;
          quote_loop m rest
            (if qs_fills s <? FILL_EVENT_REMAINING_LIMIT then
               mkQs rb rq rebates lim (qs_fills s + 1) (qs_drops s) (qs_accounts s ++ [lf_owner l])
             else mkQs rb rq rebates lim (qs_fills s) (qs_drops s) (qs_accounts s))
  end.

(** client/src/book.rs 85-163: base lots, quote lots, maker rebates, the not-enough-liquidity
    flag, and the accounts collected. *)
Definition iterate_book (b : orderbook) (s : side) (max_base max_quote_including_fees : Z) (m : market)
  (oracle : option Z) (now : Z) : res (Z * Z * Z * bool * list Z) :=
  max_quote <- match s with
               | Bid => subtract_taker_fees m max_quote_including_fees
               | Ask => Ok max_quote_including_fees
               end ;;
  items <- iter_all (ob_side b (invert_side s)) now oracle ;;
  q <- quote_loop m items (mkQs max_base max_quote 0 MAXIMUM_TAKEN_ORDERS 0 0 []) ;;
  tb <- chk_i64 (max_base - qs_base q) ;;
  tq <- chk_i64 (max_quote - qs_quote q) ;;
  let short := match s with
               | Ask => negb (qs_base q =? 0)
               | Bid => negb (qs_quote q =? 0)
               end in
  Ok (tb, tq, qs_rebates q, short, qs_accounts q).

(** client/src/book.rs 46-83 *)
Definition amounts_from_book (b : orderbook) (s : side) (max_base max_quote_including_fees : Z)
  (m : market) (oracle : option Z) (now : Z) : res client_amounts :=
  lots <- client_oracle_lots m oracle ;;
  '(tb, tq, rebates, short, _) <- iterate_book b s max_base max_quote_including_fees m lots now ;;
  bn <- chk_i64 (tb * bls m) ;;
  qn <- chk_i64 (tq * qls m) ;;
  Ok (mkClientAmounts (as_u64 bn) (as_u64 qn) rebates short).

(** jup.rs 187-194: the part of the answer that says something (the other fields of
    [Quote] are defaults). *)
Record jup_quote : Type := mkJupQuote {
  jq_in : Z;
  jq_out : Z;
  jq_fee_mint : Z;
  jq_fee : Z;
  jq_short : bool }.

(** jup.rs 66 *)
Definition is_permissioned (m : market) : bool :=
  negb (c_open_orders_admin (m_cfg m) =? 0).
(** jup.rs 131-195.  The market, the book and the oracle price are those the last [update]
    stored.  In jup.rs 147-155 [input + (lot - 1) / lot] is the input plus zero. *)
Definition quote (b : orderbook) (m : market) (oracle : option Z) (input_mint amount : Z)
  : res jup_quote :=
  if is_permissioned m then Ok (mkJupQuote 0 0 0 0 true)
  else
    let s := if input_mint =? c_quote_mint (m_cfg m) then Bid else Ask in
    input <- chk_i64 amount ;;
    '(mb, mq) <-
      match s with
      | Bid =>
          mb <- max_base_lots m ;; x <- div_i64 (qls m - 1) (qls m) ;;
          mq <- chk_i64 (input + x) ;; Ok (mb, mq)
      | Ask =>
          x <- div_i64 (bls m - 1) (bls m) ;; mb <- chk_i64 (input + x) ;;
          mq <- max_quote_lots m ;; Ok (mb, mq)
      end ;;
    a <- amounts_from_book b s mb mq m oracle 0 ;;
    '(i, o) <-
      match s with
      | Bid => i <- chk_u64 (ca_quote a - ca_fee a) ;; Ok (i, ca_base a)
      | Ask => o <- chk_u64 (ca_quote a + ca_fee a) ;; Ok (ca_base a, o)
      end ;;
    Ok (mkJupQuote i o (c_quote_mint (m_cfg m)) (ca_fee a) (ca_short a)).
