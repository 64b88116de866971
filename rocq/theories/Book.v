(** Model of /repo/programs/openbook-v2/src/state/orderbook/book.rs. *)
From Coq Require Import ZArith List Bool.
From Verif Require Import Base Nodes OrderTree BookSide Heap Market OpenOrders Order.
Import ListNotations.
Open Scope Z_scope.

(** book.rs 15 and 18 *)
Definition DROP_EXPIRED_ORDER_LIMIT : Z := 5.
Definition FILL_EVENT_REMAINING_LIMIT : Z := 15.

(** The accounts an order touches: market, both book sides (book.rs 20-23), event heap
    and all open orders accounts of the market. *)
Record world : Type := mkWorld {
  w_mkt : market;
  w_bids : bookside;
  w_asks : bookside;
  w_heap : heap;
  w_accts : accounts }.

Definition w_set_mkt w v := mkWorld v (w_bids w) (w_asks w) (w_heap w) (w_accts w).
Definition w_set_heap w v := mkWorld (w_mkt w) (w_bids w) (w_asks w) v (w_accts w).
Definition w_set_accts w v := mkWorld (w_mkt w) (w_bids w) (w_asks w) (w_heap w) v.

(** book.rs 46-58 *)
Definition w_book (w : world) (s : side) : bookside :=
  match s with Bid => w_bids w | Ask => w_asks w end.
Definition w_set_book (w : world) (s : side) (b : bookside) : world :=
  match s with
  | Bid => mkWorld (w_mkt w) b (w_asks w) (w_heap w) (w_accts w)
  | Ask => mkWorld (w_mkt w) (w_bids w) b (w_heap w) (w_accts w)
  end.

Definition w_set_acct (w : world) (k : Z) (a : ooa) : world :=
  w_set_accts w (acct_set k a (w_accts w)).

(** The open orders account the instruction itself has borrowed: [Some k] for orders
    placed through an account, [None] for place_take_order. *)
Definition is_taker (taker : option Z) (k : Z) : bool :=
  match taker with Some t => t =? k | None => false end.

(** Whether an account key is among the instruction's remaining accounts. *)
Definition mem_key (k : Z) (l : list Z) : bool := existsb (Z.eqb k) l.

(** Loading a maker's account from the remaining accounts: [AccountLoader::try_from]
    and [load_mut], which fails while the instruction itself holds the account. *)
Definition load_remaining (w : world) (taker : option Z) (k : Z) : res ooa :=
  if is_taker taker k then Err BorrowFailed else acct_load k (w_accts w).

(** book.rs 580-604 *)
Definition process_out_event (w : world) (taker : option Z) (owner : Z) (rem : list Z)
  (e : out_event) : res world :=
  match taker with
  | Some t =>
      if owner =? oe_owner e then
        a <- acct_load t (w_accts w) ;;
        a' <- ooa_cancel_order a (oe_slot e) (oe_qty e) (w_mkt w) ;;
        Ok (w_set_acct w t a')
      else if mem_key (oe_owner e) rem then
        a <- load_remaining w taker (oe_owner e) ;;
        a' <- ooa_cancel_order a (oe_slot e) (oe_qty e) (w_mkt w) ;;
        Ok (w_set_acct w (oe_owner e) a')
      else h <- push_back (w_heap w) (EOut e) ;; Ok (w_set_heap w h)
  | None =>
      if mem_key (oe_owner e) rem then
        a <- load_remaining w taker (oe_owner e) ;;
        a' <- ooa_cancel_order a (oe_slot e) (oe_qty e) (w_mkt w) ;;
        Ok (w_set_acct w (oe_owner e) a')
      else h <- push_back (w_heap w) (EOut e) ;; Ok (w_set_heap w h)
  end.

(** book.rs 606-629; returns the new number of processed fill events. *)
Definition process_fill_event (w : world) (taker : option Z) (rem : list Z) (nproc : Z)
  (f : fill_event) : res (world * Z) :=
  if (nproc <? FILL_EVENT_REMAINING_LIMIT) && mem_key (fe_maker f) rem then
    a <- load_remaining w taker (fe_maker f) ;;
    '(a', m') <- execute_maker a (w_mkt w) f ;;
    Ok (w_set_acct (w_set_mkt w m') (fe_maker f) a', nproc + 1)
  else
    h <- push_back (w_heap w) (EFill f) ;; Ok (w_set_heap w h, nproc).

(** Local variables of the matching loop, book.rs 111-121. *)
Record mstate : Type := mkMs {
  ms_w : world;
  ms_base : Z;                              (* remaining_base_lots *)
  ms_quote : Z;                             (* remaining_quote_lots *)
  ms_dec : Z;                               (* decremented_quote_lots *)
  ms_rebates : Z;                           (* maker_rebates_acc *)
  ms_changes : list (Z * Z);                (* matched_order_changes, newest last *)
  ms_deletes : list (otree_id * Z);         (* matched_order_deletes, newest last *)
  ms_dropped : Z;
  ms_processed : Z;
  ms_limit : Z;
  ms_target : option otree_id }.            (* post_target *)

Definition ms_stop (s : mstate) : mstate :=
  mkMs (ms_w s) (ms_base s) (ms_quote s) (ms_dec s) (ms_rebates s) (ms_changes s)
    (ms_deletes s) (ms_dropped s) (ms_processed s) (ms_limit s) None.

(** book.rs 130-155: an invalid order. *)
Definition match_invalid (taker : option Z) (owner : Z) (rem : list Z) (other : side) (now : Z)
  (i : item) (s : mstate) : res mstate :=
  if ms_dropped s <? DROP_EXPIRED_ORDER_LIMIT then
    let l := im_leaf i in
    let e := mkOut other (lf_slot l) now (h_seq (w_heap (ms_w s))) (lf_owner l) (lf_qty l) in
    w <- process_out_event (ms_w s) taker owner rem e ;;
    Ok (mkMs w (ms_base s) (ms_quote s) (ms_dec s) (ms_rebates s) (ms_changes s)
          (ms_deletes s ++ [(im_tree i, lf_key l)]) (ms_dropped s + 1) (ms_processed s)
          (ms_limit s) (ms_target s))
  else Ok s.

(** book.rs 215-257: record the match of [mb] base lots for [mq] quote lots. *)
Definition match_fill (o : order) (taker : option Z) (owner : Z) (rem : list Z) (now : Z)
  (i : item) (mb mq dec rebates : Z) (s : mstate) : res mstate :=
  let l := im_leaf i in
  rb <- chk_i64 (ms_base s - mb) ;;
  rq <- chk_i64 (ms_quote s - mq) ;;
  _ <- massert (0 <=? rq) ;;
  nq <- chk_i64 (lf_qty l - mb) ;;
  let maker_out := nq =? 0 in
  let deletes := if maker_out then ms_deletes s ++ [(im_tree i, lf_key l)] else ms_deletes s in
  let changes := if maker_out then ms_changes s else ms_changes s ++ [(im_handle i, nq)] in
  let f := mkFill (o_side o) maker_out (lf_slot l) now (m_seq (w_mkt (ms_w s))) (lf_owner l)
             (lf_ts l) owner (o_client_id o) (im_price i) (lf_peg_limit l) mb (lf_client_id l) in
  '(w, np) <- process_fill_event (ms_w s) taker rem (ms_processed s) f ;;
  lim <- chk (in_range 0 u8_max) (ms_limit s - 1) ;;
  Ok (mkMs w rb rq dec rebates changes deletes (ms_dropped s) np lim (ms_target s)).

(** book.rs 123-258: the loop over the opposing side.  [iter_all_including_invalid]
    is collected first (see BookSide.v). *)
Fixpoint match_loop (o : order) (price_lots : Z) (taker : option Z) (owner : Z) (rem : list Z)
  (now : Z) (items : list item) (s : mstate) : res mstate :=
  match items with
  | [] => Ok s
  | i :: rest =>
      let continue s' := match_loop o price_lots taker owner rem now rest s' in
      let l := im_leaf i in
      if (ms_base s =? 0) || (ms_quote s =? 0) then Ok s
      else if negb (is_valid i) then
        s' <- match_invalid taker owner rem (invert_side (o_side o)) now i s ;; continue s'
      else if negb (is_price_within_limit (o_side o) (im_price i) price_lots) then Ok s
      else if is_post_only o then Ok (ms_stop s)
      else if ms_limit s =? 0 then Ok (ms_stop s)
      else
        mbq <- div_i64 (ms_quote s) (im_price i) ;;
        if mbq =? 0 then Ok (ms_stop s)
        else
          let mb := Z.min (Z.min (ms_base s) (lf_qty l)) mbq in
          mq <- chk_i64 (mb * im_price i) ;;
          if negb (match taker with None => true | Some _ => false end) && (owner =? lf_owner l)
          then
            match o_self_trade o with
            | DecrementTake =>
                dec <- chk_i64 (ms_dec s + mq) ;;
                s' <- match_fill o taker owner rem now i mb mq dec (ms_rebates s) s ;; continue s'
            | CancelProvide =>
                t <- unwrap taker ;;
                a <- acct_load t (w_accts (ms_w s)) ;;
                a' <- ooa_cancel_order a (lf_slot l) (lf_qty l) (w_mkt (ms_w s)) ;;
                continue (mkMs (w_set_acct (ms_w s) t a') (ms_base s) (ms_quote s) (ms_dec s)
                            (ms_rebates s) (ms_changes s) (ms_deletes s ++ [(im_tree i, lf_key l)])
                            (ms_dropped s) (ms_processed s) (ms_limit s) (ms_target s))
            | AbortTransaction => Err WouldSelfTrade
            end
          else
            qn <- chk_i64 (mq * qls (w_mkt (ms_w s))) ;;
            r <- maker_rebate_floor (w_mkt (ms_w s)) (as_u64 qn) ;;
            rebates <- chk_u64 (ms_rebates s + r) ;;
            s' <- match_fill o taker owner rem now i mb mq (ms_dec s) rebates s ;; continue s'
  end.

(** book.rs 329-336 *)
Fixpoint apply_changes (b : bookside) (l : list (Z * Z)) : res bookside :=
  match l with
  | [] => Ok b
  | (h, q) :: r => b' <- bs_set_qty b h q ;; apply_changes b' r
  end.

(** book.rs 337-339 *)
Fixpoint apply_deletes (b : bookside) (l : list (otree_id * Z)) : res bookside :=
  match l with
  | [] => Ok b
  | (t, k) :: r =>
      '(b', o) <- bs_remove_by_key b t k ;;
      _ <- unwrap o ;;
      apply_deletes b' r
  end.

(** book.rs 25-34 *)
Record order_amounts : Type := mkAmounts {
  oa_order_id : option Z;
  oa_posted_base : Z;
  oa_posted_quote : Z;
  oa_base_taken : Z;
  oa_quote_taken : Z;
  oa_taker_fees : Z;
  oa_maker_fees : Z;
  oa_referrer : Z }.

(** book.rs 260-326: totals and taker fees after the loop.  Returns the world, the
    native amounts taken, the taker fees, the referrer amount and the quote lots left
    for posting. *)
Definition settle_taker (o : order) (taker : option Z) (max_quote : Z) (s : mstate)
  : res (world * Z * Z * Z * Z * Z) :=
  let w := ms_w s in
  tq <- chk_i64 (max_quote - ms_quote s) ;;
  tb <- chk_i64 (o_max_base o - ms_base s) ;;
  _ <- massert (0 <=? tq) ;;
  _ <- massert (0 <=? tb) ;;
  btn <- chk_i64 (tb * bls (w_mkt w)) ;;
  let base_taken := as_u64 btn in
  qtn <- chk_i64 (tq * qls (w_mkt w)) ;;
  let quote_taken := as_u64 qtn in
  '(w', taker_fees, referrer) <-
    (if (0 <? tq) || (0 <? tb) then
       d <- chk_i64 (tq - ms_dec s) ;;
       e <- chk_i64 (d * qls (w_mkt w)) ;;
       let wo_self := as_u64 e in
       '(w1, tf, ra) <-
         (if 0 <? wo_self then
            tf <- taker_fees_ceil chk_u64 (w_mkt w) wo_self ;;
            ra <- chk_u64 (tf - ms_rebates s) ;;
            fa <- chk_u128 (m_fees_accrued (w_mkt w) + ra) ;;
            Ok (w_set_mkt w (m_set_fees_accrued (w_mkt w) fa), tf, ra)
          else Ok (w, 0, 0)) ;;
       w2 <- match taker with
             | Some t =>
                 a <- acct_load t (w_accts w1) ;;
                 '(a', m') <- execute_taker a (w_mkt w1) (o_side o) base_taken quote_taken tf ra ;;
                 Ok (w_set_acct (w_set_mkt w1 m') t a')
             | None =>
                 tv <- chk_u128 (m_taker_volume_wo_oo (w_mkt w1) + quote_taken) ;;
                 Ok (w_set_mkt w1 (m_set_taker_volume_wo_oo (w_mkt w1) tv))
             end ;;
       _ <- match o_side o with
            | Bid => chk_u64 (quote_taken + tf)
            | Ask => chk_u64 (quote_taken - tf)
            end ;;
       Ok (w2, tf, ra)
     else Ok (w, 0, 0)) ;;
  x <- chk_i64 (as_i64 taker_fees + qls (w_mkt w)) ;;
  y <- chk_i64 (x - 1) ;;
  fee_lots <- div_i64 y (qls (w_mkt w)) ;;
  z <- chk_i64 (o_max_quote o - tq) ;;
  rq <- chk_i64 (z - fee_lots) ;;
  Ok (w', base_taken, quote_taken, taker_fees, referrer, rq).

(** book.rs 382-473: put the remainder of [qty] lots on the book. *)
Definition post_order (w : world) (o : order) (taker : option Z) (owner : Z) (rem : list Z)
  (oracle : option Z) (now : Z) (order_id price_lots price qty : Z) (target : otree_id)
  : res (world * Z * Z * Z) :=
  let s := o_side o in
  cap <- max_quote_lots (w_mkt w) ;;
  x <- chk_i64 (qty * price) ;;
  _ <- require (x <=? cap) InvalidPostAmount ;;
  posted_base <- chk_i64 (qty * bls (w_mkt w)) ;;
  posted_quote <- chk_i64 (x * qls (w_mkt w)) ;;
  t <- unwrap taker ;;
  '(w1, maker_fees) <-
    match s with
    | Bid =>
        f <- maker_fees_ceil chk_i64 (w_mkt w) posted_quote ;;
        f' <- chk_u64 f ;;
        a <- acct_load t (w_accts w) ;;
        l <- chk_u64 (p_locked_fees (a_pos a) + f') ;;
        Ok (w_set_acct w t (a_set_pos a (p_set_locked_fees (a_pos a) l)), f')
    | Ask => Ok (w, 0)
    end ;;
  '(b1, expired) <- bs_remove_one_expired (w_book w1 s) target now ;;
  let w2 := w_set_book w1 s b1 in
  w3 <- match expired with
        | Some l =>
            process_out_event w2 taker owner rem
              (mkOut s (lf_slot l) now (h_seq (w_heap w2)) (lf_owner l) (lf_qty l))
        | None => Ok w2
        end ;;
  w4 <- (if is_full (bs_nodes (w_book w3 s)) then
           '(b2, ow) <- bs_remove_worst (w_book w3 s) now oracle ;;
           '(worst, worst_price) <- unwrap ow ;;
           _ <- require (is_price_better s price_lots worst_price) SomeError ;;
           let w' := w_set_book w3 s b2 in
           process_out_event w' taker owner rem
             (mkOut s (lf_slot worst) now (h_seq (w_heap w')) (lf_owner worst) (lf_qty worst))
         else Ok w3) ;;
  a <- acct_load t (w_accts w4) ;;
  slot <- next_order_slot a ;;
  let nl := mkLeaf slot (o_tif o) order_id owner qty now (order_peg_limit o) (o_client_id o) in
  '(b3, _, _) <- bs_insert_leaf (w_book w4 s) target nl ;;
  a' <- add_order a s target nl (o_client_id o) price ;;
  Ok (w_set_acct (w_set_book w4 s b3) t a', posted_base, posted_quote, maker_fees).

(** book.rs 61-491.  [taker] is the account given as [open_orders_account]; [owner]
    is its key, or the signer for place_take_order. *)
Definition new_order (w : world) (o : order) (oracle : option Z) (taker : option Z) (owner : Z)
  (now limit : Z) (rem : list Z) : res (world * order_amounts) :=
  let s := o_side o in
  let other := invert_side s in
  '(price_lots, price_data) <- order_price o (w_book w other) now oracle ;;
  '(m1, order_id) <- gen_order_id (w_mkt w) s price_data ;;
  let w1 := w_set_mkt w m1 in
  max_quote <- (match s with
                | Bid => if is_post_only o then Ok (o_max_quote o)
                         else subtract_taker_fees m1 (o_max_quote o)
                | Ask => Ok (o_max_quote o)
                end) ;;
  capb <- max_base_lots m1 ;;
  _ <- require (o_max_base o <=? capb) InvalidInputLotsSize ;;
  capq <- max_quote_lots m1 ;;
  _ <- require (max_quote <=? capq) InvalidInputLotsSize ;;
  items <- iter_all (w_book w1 other) now oracle ;;
  ms <- match_loop o price_lots taker owner rem now items
          (mkMs w1 (o_max_base o) max_quote 0 0 [] [] 0 0 limit (post_target o)) ;;
  '(w2, base_taken, quote_taken, taker_fees, referrer, rq) <- settle_taker o taker max_quote ms ;;
  b1 <- apply_changes (w_book w2 other) (ms_changes ms) ;;
  b2 <- apply_deletes b1 (ms_deletes ms) ;;
  let w3 := w_set_book w2 other b2 in
  let is_peg := negb (order_peg_limit o =? -1) in
  let price := if is_peg && side_eqb s Bid then order_peg_limit o else price_lots in
  mf <- maker_fees_ceil chk_i64 (w_mkt w3) rq ;;
  rq' <- chk_i64 (rq - mf) ;;
  q <- div_i64 rq' price ;;
  let qty := Z.min (ms_base ms) q in
  let target := if qty <=? 0 then None else ms_target ms in
  let target := if is_peg && is_price_better s price_lots (order_peg_limit o) then None else target in
  _ <- require (negb (is_fill_or_kill o && (0 <? ms_base ms))) WouldExecutePartially ;;
  match target with
  | None =>
      Ok (w3, mkAmounts None 0 0 base_taken quote_taken taker_fees 0 referrer)
  | Some t =>
      '(w4, pb, pq, mfees) <- post_order w3 o taker owner rem oracle now order_id price_lots price qty t ;;
      Ok (w4, mkAmounts (Some order_id) (as_u64 pb) (as_u64 pq) base_taken quote_taken taker_fees mfees referrer)
  end.

(** book.rs 556-577: cancel through account [k] (its state is in the world). *)
Definition book_cancel_order (w : world) (k order_id : Z) (s : side) (t : otree_id)
  (expected_owner : option Z) : res (world * leaf) :=
  '(b, o) <- bs_remove_by_key (w_book w s) t order_id ;;
  match o with
  | None => Err OrderIdNotFound
  | Some l =>
      _ <- match expected_owner with
           | Some e => require (lf_owner l =? e) Constraint
           | None => Ok tt
           end ;;
      a <- acct_load k (w_accts w) ;;
      a' <- ooa_cancel_order a (lf_slot l) (lf_qty l) (w_mkt w) ;;
      Ok (w_set_acct (w_set_book w s b) k a', l)
  end.

(** book.rs 496-553: [i] counts down the remaining slots of the account. *)
Fixpoint cancel_all_loop (n : nat) (i : Z) (w : world) (k limit total : Z)
  (side_opt : option side) (cid_opt : option Z) : res (world * Z) :=
  match n with
  | O => Ok (w, total)
  | S n =>
      a <- acct_load k (w_accts w) ;;
      oo <- order_at a i ;;
      let continue w' lim tot := cancel_all_loop n (i + 1) w' k lim tot side_opt cid_opt in
      if oo_free oo then continue w limit total
      else if match side_opt with Some s => negb (side_eqb s (oo_side oo)) | None => false end
      then continue w limit total
      else if match cid_opt with Some c => negb (c =? oo_client_id oo) | None => false end
      then continue w limit total
      else if limit =? 0 then Ok (w, total)
      else
        match book_cancel_order w k (oo_id oo) (oo_side oo) (oo_tree oo) None with
        | Err OrderIdNotFound => continue w (limit - 1) total
        | Err e => Err e
        | Ok (w', l) =>
            tot <- chk_i64 (total + lf_qty l) ;;
            continue w' (limit - 1) tot
        end
  end.
Definition cancel_all_orders (w : world) (k limit : Z) (side_opt : option side)
  (cid_opt : option Z) : res (world * Z) :=
  cancel_all_loop MAX_OPEN_ORDERS 0 w k limit 0 side_opt cid_opt.
