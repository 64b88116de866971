(** Model of the events the program emits: /repo/programs/openbook-v2/src/logs.rs and the
    places that emit them.  The functions here repeat the control flow of the functions they
    name, as far as events are emitted on the way, and use the model's own functions for
    everything else; they matter only for calls that succeed (the events of a failed
    transaction mean nothing).  The market's key, which every event names, is left out, and so
    is the event of create_market, which repeats its arguments. *)
From Coq Require Import ZArith List Bool.
From Verif Require Import Base Nodes OrderTree BookSide Heap Market OpenOrders Order Book Instructions.
Import ListNotations.
Open Scope Z_scope.

(** logs.rs 28-51 *)
Record fill_log : Type := mkFillLog {
  fl_taker_side : side;
  fl_maker_slot : Z;
  fl_maker_out : bool;
  fl_ts : Z;
  fl_seq : Z;
  fl_maker : Z;
  fl_maker_cid : Z;
  fl_maker_fee : Z;
  fl_maker_ts : Z;
  fl_taker : Z;
  fl_taker_cid : Z;
  fl_taker_fee : Z;                         (* taker_fee_ceil *)
  fl_price : Z;
  fl_qty : Z }.

(** logs.rs 101-120 *)
Record pos_log : Type := mkPosLog {
  pl_owner : Z;
  pl_num : Z;
  pl_bids_base : Z;
  pl_bids_quote : Z;
  pl_asks_base : Z;
  pl_base_free : Z;
  pl_quote_free : Z;
  pl_locked_fees : Z;
  pl_rebates : Z;
  pl_maker_volume : Z;
  pl_taker_volume : Z }.

(** logs.rs 20-120.  A delegate of 0 is none. *)
Inductive log : Type :=
| LDeposit (k signer base quote : Z)
| LFill (f : fill_log)
| LTakerSignature (seq : Z)
| LTotal (s : side) (taker paid received fees : Z)
| LDelegate (k delegate : Z)
| LSettle (k base quote rebate : Z) (ref : option Z)
| LSweep (amount receiver : Z)
| LPosition (p : pos_log).

Definition ok_or {A} (r : res A) (d : A) : A := match r with Ok x => x | Err _ => d end.

(** open_orders_account.rs 227-240 and 263-276 *)
Definition pos_log_of (a : ooa) : pos_log :=
  let p := a_pos a in
  mkPosLog (a_owner a) (a_num a) (p_bids_base p) (p_bids_quote p) (p_asks_base p) (p_base_free p)
    (p_quote_free p) (p_locked_fees p) (p_rebates p) (p_maker_volume p) (p_taker_volume p).
Definition pos_logs (w : world) (k : Z) : list log :=
  match acct_get k (w_accts w) with Some a => [LPosition (pos_log_of a)] | None => [] end.

(** open_orders_account.rs 134-148 and 201-224 *)
Definition fill_log_of (m : market) (f : fill_event) : fill_log :=
  let self_trade := fe_maker f =? fe_taker f in
  let quote_native := as_u64 (fe_qty f * fe_price f * qls m) in
  mkFillLog (fe_taker_side f) (fe_maker_slot f) (fe_maker_out f) (fe_ts f) (fe_seq f) (fe_maker f)
    (fe_maker_cid f) (if self_trade then 0 else ok_or (maker_fees_floor m quote_native) 0)
    (fe_maker_ts f) (fe_taker f) (fe_taker_cid f)
    (if (0 <? quote_native) && negb self_trade then ok_or (taker_fees_ceil chk_u64 m quote_native) 0 else 0)
    (fe_price f) (fe_qty f).

(** open_orders_account.rs 208-240: [w] before and [w'] after [execute_maker]. *)
Definition fill_logs (w : world) (f : fill_event) (w' : world) : list log :=
  LFill (fill_log_of (w_mkt w) f) :: pos_logs w' (fe_maker f).

(** book.rs 606-629 *)
Definition process_fill_l (w : world) (taker : option Z) (rem : list Z) (nproc : Z) (f : fill_event)
  : res (world * Z * list log) :=
  '(w', np) <- process_fill_event w taker rem nproc f ;;
  Ok (w', np, if (nproc <? FILL_EVENT_REMAINING_LIMIT) && mem_key (fe_maker f) rem then fill_logs w f w' else []).

(** book.rs 215-257, with the event of 244-247 *)
Definition match_fill_l (o : order) (taker : option Z) (owner : Z) (rem : list Z) (now : Z)
  (i : item) (mb mq dec rebates : Z) (s : mstate) : res (mstate * list log) :=
  let l := im_leaf i in
  rb <- chk_i64 (ms_base s - mb) ;;
  rq <- chk_i64 (ms_quote s - mq) ;;
  _ <- massert (0 <=? rq) ;;
  nq <- chk_i64 (lf_qty l - mb) ;;
  let maker_out := nq =? 0 in
  let deletes := if maker_out then ms_deletes s ++ [(im_tree i, lf_key l)] else ms_deletes s in
  let changes := if maker_out then ms_changes s else ms_changes s ++ [(im_handle i, nq)] in
  let f := mkFill (o_side o) maker_out (lf_slot l) now (m_seq (w_mkt (ms_w s))) (lf_owner l)
             (lf_ts l) owner (o_client_id o) (im_price i) (lf_peg_limit l) mb (lf_client_id l) in
  '(w, np, L) <- process_fill_l (ms_w s) taker rem (ms_processed s) f ;;
  lim <- chk (in_range 0 u8_max) (ms_limit s - 1) ;;
  Ok (mkMs w rb rq dec rebates changes deletes (ms_dropped s) np lim (ms_target s),
      LTakerSignature (m_seq (w_mkt (ms_w s))) :: L).

(** book.rs 123-258 *)
Fixpoint match_loop_l (o : order) (price_lots : Z) (taker : option Z) (owner : Z) (rem : list Z)
  (now : Z) (items : list item) (s : mstate) : res (mstate * list log) :=
  match items with
  | [] => Ok (s, [])
  | i :: rest =>
      let continue s' L := '(s2, L2) <- match_loop_l o price_lots taker owner rem now rest s' ;; Ok (s2, L ++ L2) in
      let l := im_leaf i in
      if (ms_base s =? 0) || (ms_quote s =? 0) then Ok (s, [])
      else if negb (is_valid i) then
        s' <- match_invalid taker owner rem (invert_side (o_side o)) now i s ;; continue s' []
      else if negb (is_price_within_limit (o_side o) (im_price i) price_lots) then Ok (s, [])
      else if is_post_only o then Ok (ms_stop s, [])
      else if ms_limit s =? 0 then Ok (ms_stop s, [])
      else
        mbq <- div_i64 (ms_quote s) (im_price i) ;;
        if mbq =? 0 then Ok (ms_stop s, [])
        else
          let mb := Z.min (Z.min (ms_base s) (lf_qty l)) mbq in
          mq <- chk_i64 (mb * im_price i) ;;
          if negb (match taker with None => true | Some _ => false end) && (owner =? lf_owner l)
          then
            match o_self_trade o with
            | DecrementTake =>
                dec <- chk_i64 (ms_dec s + mq) ;;
                '(s', L) <- match_fill_l o taker owner rem now i mb mq dec (ms_rebates s) s ;; continue s' L
            | CancelProvide =>
                t <- unwrap taker ;;
                a <- acct_load t (w_accts (ms_w s)) ;;
                a' <- ooa_cancel_order a (lf_slot l) (lf_qty l) (w_mkt (ms_w s)) ;;
                continue (mkMs (w_set_acct (ms_w s) t a') (ms_base s) (ms_quote s) (ms_dec s)
                            (ms_rebates s) (ms_changes s) (ms_deletes s ++ [(im_tree i, lf_key l)])
                            (ms_dropped s) (ms_processed s) (ms_limit s) (ms_target s)) []
            | AbortTransaction => Err WouldSelfTrade
            end
          else
            qn <- chk_i64 (mq * qls (w_mkt (ms_w s))) ;;
            r <- maker_rebate_floor (w_mkt (ms_w s)) (as_u64 qn) ;;
            rebates <- chk_u64 (ms_rebates s + r) ;;
            '(s', L) <- match_fill_l o taker owner rem now i mb mq (ms_dec s) rebates s ;; continue s' L
  end.

(** book.rs 283-314 and open_orders_account.rs 263-276: the events of a taker's settlement,
    which led to [w2]. *)
Definition taker_logs (o : order) (taker : option Z) (owner max_quote : Z) (s : mstate) (w2 : world)
  (base_taken quote_taken taker_fees : Z) : list log :=
  if (0 <? max_quote - ms_quote s) || (0 <? o_max_base o - ms_base s) then
    match taker with Some t => pos_logs w2 t | None => [] end ++
    match o_side o with
    | Bid => [LTotal Bid owner (quote_taken + taker_fees) base_taken taker_fees]
    | Ask => [LTotal Ask owner base_taken (quote_taken - taker_fees) taker_fees]
    end
  else [].

(** book.rs 61-491; posting an order emits nothing. *)
Definition order_logs (w : world) (o : order) (oracle : option Z) (taker : option Z) (owner : Z)
  (now limit : Z) (rem : list Z) : list log :=
  let s := o_side o in
  let other := invert_side s in
  ok_or (
    '(price_lots, price_data) <- order_price o (w_book w other) now oracle ;;
    '(m1, order_id) <- gen_order_id (w_mkt w) s price_data ;;
    let w1 := w_set_mkt w m1 in
    max_quote <- (match s with
                  | Bid => if is_post_only o then Ok (o_max_quote o)
                           else subtract_taker_fees m1 (o_max_quote o)
                  | Ask => Ok (o_max_quote o)
                  end) ;;
    items <- iter_all (w_book w1 other) now oracle ;;
    '(ms, L) <- match_loop_l o price_lots taker owner rem now items
                  (mkMs w1 (o_max_base o) max_quote 0 0 [] [] 0 0 limit (post_target o)) ;;
    '(w2, base_taken, quote_taken, taker_fees, referrer, rq) <- settle_taker o taker max_quote ms ;;
    Ok (L ++ taker_logs o taker owner max_quote ms w2 base_taken quote_taken taker_fees)) [].

(** instructions/place_order.rs 11-121 *)
Definition place_logs (e : env) (s : sys) (x : place_ctx) (o : order) (limit : Z) : list log :=
  let w := s_w s in
  ok_or (
    now <- now_u64 e ;;
    oracle <- oracle_input (w_mkt w) e ;;
    Ok (order_logs w o oracle (Some (px_acct x)) (px_acct x) now limit (px_rem x))) [].

(** instructions/edit_order.rs 6-37; cancelling emits nothing. *)
Definition edit_logs (e : env) (s : sys) (x : place_ctx) (cancel_cid expected : Z) (o : order)
  (limit : Z) : list log :=
  ok_or (
    '(w, q) <- cancel_all_orders (s_w s) (px_acct x) u8_max None (Some cancel_cid) ;;
    filled <- chk_i64 (expected - q) ;;
    if (0 <? filled) && (filled <? o_max_base o) then
      mb <- chk_i64 (o_max_base o - filled) ;;
      Ok (place_logs e (s_set_w s w) x (o_set_max_base o mb) limit)
    else Ok []) [].

(** instructions/place_take_order.rs 10-132 *)
Definition take_logs (e : env) (s : sys) (x : take_ctx) (o : order) (limit : Z) : list log :=
  let w := s_w s in
  ok_or (
    now <- now_u64 e ;;
    oracle <- oracle_input (w_mkt w) e ;;
    Ok (order_logs w o oracle None (tx_signer x) now limit (tx_rem x))) [].

(** instructions/cancel_all_and_place_orders.rs 50-117: [multi_one] (Instructions.v) with the
    order it places. *)
Definition multi_order (w : world) (x : multi_ctx) (ub uq : Z) (o : order) (ba qa : Z) : res order :=
  capb <- max_base_lots (w_mkt w) ;;
  a <- acct_load (mx_acct x) (w_accts w) ;;
  match o_side o with
  | Ask =>
      y <- chk_u64 (ub + p_base_free (a_pos a)) ;;
      av <- chk_u64 (y - ba) ;;
      l <- max_base_lots_from_lamports (w_mkt w) av ;;
      Ok (o_set_max_base o (Z.min capb l))
  | Bid =>
      y <- chk_u64 (uq + p_quote_free (a_pos a)) ;;
      av <- chk_u64 (y - qa) ;;
      l <- max_quote_lots_from_lamports (w_mkt w) av ;;
      Ok (mkOrder (o_side o) capb (Z.min (o_max_quote o) l) (o_client_id o) (o_tif o)
            (o_self_trade o) (o_params o))
  end.

Fixpoint multi_loop_logs (w : world) (x : multi_ctx) (ub uq : Z) (oracle : option Z) (now limit : Z)
  (os : list order) (ba qa : Z) : list log :=
  match os with
  | [] => []
  | o :: r =>
      ok_or (
        o' <- multi_order w x ub uq o ba qa ;;
        '(w1, ba', qa', _) <- multi_one w x ub uq oracle now limit o ba qa ;;
        Ok (order_logs w o' oracle (Some (mx_acct x)) (mx_acct x) now limit (mx_rem x) ++
            multi_loop_logs w1 x ub uq oracle now limit r ba' qa')) []
  end.

(** instructions/cancel_all_and_place_orders.rs 11-153 *)
Definition multi_logs (e : env) (s : sys) (x : multi_ctx) (cancel : bool) (os : list order) (limit : Z)
  : list log :=
  let w := s_w s in
  ok_or (
    now <- now_u64 e ;;
    oracle <- oracle_input (w_mkt w) e ;;
    w0 <- (if cancel then '(w', _) <- cancel_all_orders w (mx_acct x) u8_max None None ;; Ok w' else Ok w) ;;
    ub <- tok_load (s_tok s) (mx_user_base x) ;;
    uq <- tok_load (s_tok s) (mx_user_quote x) ;;
    Ok (multi_loop_logs w0 x (t_amount ub) (t_amount uq) oracle now limit os 0 0)) [].

(** instructions/consume_events.rs 58-76 *)
Definition consume_one_logs (w : world) (rem : list Z) (slot : Z) : list log :=
  match at_slot (w_heap w) slot, consume_one w rem slot with
  | Some (EFill f), Ok w' => if mem_key (fe_maker f) rem then fill_logs w f w' else []
  | _, _ => []
  end.
Fixpoint consume_loop_logs (w : world) (rem : list Z) (slots : list Z) : list log :=
  match slots with
  | [] => []
  | s :: r =>
      ok_or (w' <- consume_one w rem s ;; Ok (consume_one_logs w rem s ++ consume_loop_logs w' rem r)) []
  end.

(** instructions/consume_events.rs 38-79 *)
Definition consume_logs (w : world) (limit : Z) (slots : list Z) (rem : list Z) : list log :=
  ok_or (
    ss <- slots_to_consume (w_heap w) slots (Z.min limit MAX_EVENTS_CONSUME) ;;
    Ok (consume_loop_logs w rem ss)) [].

(** instructions/deposit.rs 35-42 *)
Definition deposit_logs (signer k base quote : Z) : list log :=
  if (0 <? base) || (0 <? quote) then [LDeposit k signer base quote] else [].

(** lib.rs 544-556 *)
Definition refill_logs (s : sys) (signer k base quote : Z) : list log :=
  ok_or (
    a <- acct_load k (w_accts (s_w s)) ;;
    q <- chk_u64 (quote - Z.min quote (p_quote_free (a_pos a))) ;;
    b <- chk_u64 (base - Z.min base (p_base_free (a_pos a))) ;;
    Ok (deposit_logs signer k b q)) [].

(** instructions/settle_funds.rs 9-30 and 77-83 *)
Definition settle_logs (s : sys) (k : Z) (ref : option Z) : list log :=
  ok_or (
    a <- acct_load k (w_accts (s_w s)) ;;
    let p := a_pos a in
    let m := w_mkt (s_w s) in
    let roundoff := if (0 <? maker_fee m) && (p_bids_base p =? 0) then p_locked_fees p else 0 in
    rebate <- chk_u64 (p_rebates p + roundoff) ;;
    Ok [LSettle k (p_base_free p) (p_quote_free p) rebate ref]) [].

(** What a call that succeeds emits.  The other instructions emit nothing. *)
Definition exec_logs (e : env) (s : sys) (i : instr) : list log :=
  let w := s_w s in
  let m := w_mkt w in
  match i with
  | IPlaceOrder x g =>
      ok_or (now <- now_u64 e ;; oo <- order_of_args now g ;;
             Ok (match oo with None => [] | Some o => place_logs e s x o (pa_limit g) end)) []
  | IPlacePegged x g =>
      ok_or (now <- now_u64 e ;; oo <- order_of_peg_args m now g ;;
             Ok (match oo with None => [] | Some o => place_logs e s x o (ga_limit g) end)) []
  | IEditOrder x cid expected g =>
      ok_or (now <- now_u64 e ;; oo <- order_of_args now g ;;
             Ok (match oo with None => [] | Some o => edit_logs e s x cid expected o (pa_limit g) end)) []
  | IEditPegged x cid expected g =>
      ok_or (now <- now_u64 e ;; oo <- order_of_peg_args m now g ;;
             Ok (match oo with None => [] | Some o => edit_logs e s x cid expected o (ga_limit g) end)) []
  | IPlaceTake x g => ok_or (o <- order_of_take_args g ;; Ok (take_logs e s x o (ta_limit g))) []
  | IPlaceMulti x cancel t bids asks limit =>
      ok_or (now <- now_u64 e ;;
             bo <- orders_of_multi now t Bid 0 bids ;;
             ao <- orders_of_multi now t Ask (Z.of_nat (length bids)) asks ;;
             Ok (multi_logs e s x cancel (bo ++ ao) limit)) []
  | IConsume _ limit rem => consume_logs w limit [] rem
  | IConsumeGiven _ slots rem => consume_logs w (Z.of_nat (length slots)) slots rem
  | IDeposit signer k _ _ base quote => deposit_logs signer k base quote
  | IRefill signer k _ _ base quote => refill_logs s signer k base quote
  | ISettle _ k _ _ ref | ISettleExpired _ k _ _ ref => settle_logs s k ref
  | ISweep _ receiver => [LSweep (m_fees_available m) receiver]
  | ISetDelegate _ k delegate => [LDelegate k delegate]
  | _ => []
  end.
