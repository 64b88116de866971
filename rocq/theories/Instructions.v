(** Model of /repo/programs/openbook-v2/src/instructions, of the argument checks in
    lib.rs and of the account constraints in accounts_ix.

    One market, its book sides, event heap and open orders accounts, and the SPL token
    accounts.  Not modelled: SOL (rent and the heap penalty payments), the open orders
    indexer, logs, account discriminators and PDA derivation.  Accounts that [has_one]
    pins to the market (bids, asks, heap, oracles, market authority) are not passed as
    arguments; the ones a caller can choose are.  *)
From Coq Require Import ZArith List Bool.
From Verif Require Import Base Nodes OrderTree BookSide Heap Market OpenOrders Order Book.
Import ListNotations.
Open Scope Z_scope.

(** An SPL token account.  Token delegates, freezing and closing are not modelled. *)
Record tacc : Type := mkTacc { t_mint : Z; t_owner : Z; t_amount : Z }.
Definition tokens : Type := Z -> option tacc.

Definition tok_load (t : tokens) (k : Z) : res tacc :=
  match t k with Some a => Ok a | None => Err AccountMissing end.

(** The SPL token program's transfer, called by token_utils.rs 5-63, which skip a zero
    amount.  [auth] has signed (a user, or the market authority by its seeds). *)
Definition token_transfer (t : tokens) (amount from to auth : Z) : res tokens :=
  if 0 <? amount then
    a <- tok_load t from ;;
    b <- tok_load t to ;;
    _ <- require (t_mint a =? t_mint b) TokenError ;;
    _ <- require (t_owner a =? auth) TokenError ;;
    _ <- require (amount <=? t_amount a) TokenError ;;
    let t1 := upd t from (Some (mkTacc (t_mint a) (t_owner a) (t_amount a - amount))) in
    b1 <- tok_load t1 to ;;
    _ <- require (t_amount b1 + amount <=? u64_max) TokenError ;;
    Ok (upd t1 to (Some (mkTacc (t_mint b1) (t_owner b1) (t_amount b1 + amount))))
  else Ok t.

(** The chain state the model covers. *)
Record sys : Type := mkSys {
  s_w : world;
  s_tok : tokens;
  s_closed : bool }.

Definition s_set_w s v := mkSys v (s_tok s) (s_closed s).
Definition s_set_tok s v := mkSys (s_w s) v (s_closed s).

(** What an instruction reads from outside: the clock, and what
    [Market::oracle_price_lots] (market.rs 229-240) returns when the market has an
    oracle.  Both are arbitrary. *)
Record env : Type := mkEnv { e_now : Z; e_oracle : res (option Z) }.

(** market.rs 242-255: without [oracle_a] there is no oracle price. *)
Definition oracle_input (m : market) (e : env) : res (option Z) :=
  if c_oracle_a (m_cfg m) =? 0 then Ok None
  else
    o <- e_oracle e ;;
    match o with
    | Some p => _ <- massert (in_i64 p) ;; Ok (Some p)
    | None => Ok None
    end.

(** [clock.unix_timestamp.try_into().unwrap()] *)
Definition now_u64 (e : env) : res Z :=
  _ <- massert (0 <=? e_now e) ;; Ok (e_now e).

(** accounts_ix/place_order.rs 9-54: the accounts the caller chooses.  [px_admin] is
    the key of the optional [open_orders_admin] signer, 0 for none. *)
Record place_ctx : Type := mkPlaceCtx {
  px_signer : Z;
  px_acct : Z;
  px_admin : Z;
  px_user_token : Z;
  px_vault : Z;
  px_rem : list Z }.

Definition check_mint (t : tokens) (user vault : Z) : res unit :=
  a <- tok_load t user ;;
  v <- tok_load t vault ;;
  require (t_mint a =? t_mint v) Constraint.

(** accounts_ix/place_order.rs 9-54.  Here and in the other placing instructions a
    signer is never the market authority: an address derived from this program signs
    only when this program invokes another with its seeds. *)
Definition place_constraints (s : sys) (x : place_ctx) : res unit :=
  let c := m_cfg (w_mkt (s_w s)) in
  a <- acct_load (px_acct x) (w_accts (s_w s)) ;;
  _ <- require (is_owner_or_delegate a (px_signer x)) NoOwnerOrDelegate ;;
  _ <- require (negb (px_signer x =? c_authority c)) Constraint ;;
  _ <- check_mint (s_tok s) (px_user_token x) (px_vault x) ;;
  _ <- require (c_open_orders_admin c =? px_admin x) InvalidOpenOrdersAdmin ;;
  require ((px_vault x =? c_quote_vault c) || (px_vault x =? c_base_vault c)) Constraint.

(** instructions/place_order.rs 76-110: pay for the order from the free balance first;
    returns the amount still to be transferred in. *)
Definition lock_funds (w : world) (k : Z) (s : side) (r : order_amounts) (heap_grew : bool)
  : res (world * Z) :=
  a <- acct_load k (w_accts w) ;;
  let p := a_pos a in
  let m := w_mkt w in
  '(m', p', deposit) <-
    match s with
    | Bid =>
        x1 <- chk_u64 (oa_quote_taken r + oa_posted_quote r) ;;
        x2 <- chk_u64 (x1 + oa_taker_fees r) ;;
        mx <- chk_u64 (x2 + oa_maker_fees r) ;;
        let lock := Z.min mx (p_quote_free p) in
        d <- chk_u64 (mx - lock) ;;
        f <- chk_u64 (p_quote_free p - lock) ;;
        t <- chk_u64 (m_quote_total m + d) ;;
        Ok (m_set_quote_total m t, p_set_quote_free p f, d)
    | Ask =>
        mx <- chk_u64 (oa_base_taken r + oa_posted_base r) ;;
        let lock := Z.min mx (p_base_free p) in
        d <- chk_u64 (mx - lock) ;;
        f <- chk_u64 (p_base_free p - lock) ;;
        t <- chk_u64 (m_base_total m + d) ;;
        Ok (m_set_base_total m t, p_set_base_free p f, d)
    end ;;
  p'' <- (if heap_grew then n <- chk_u64 (p_penalty p' + 1) ;; Ok (p_set_penalty p' n) else Ok p') ;;
  Ok (w_set_acct (w_set_mkt w m') k (a_set_pos a p''), deposit).

(** instructions/place_order.rs 11-121 *)
Definition place_order_ix (e : env) (s : sys) (x : place_ctx) (o : order) (limit : Z)
  : res (sys * option Z) :=
  _ <- require (0 <=? o_max_base o) InvalidInputLots ;;
  _ <- require (0 <=? o_max_quote o) InvalidInputLots ;;
  let w := s_w s in
  _ <- require (vault_by_side (w_mkt w) (o_side o) =? px_vault x) InvalidMarketVault ;;
  _ <- require (negb (market_is_expired (w_mkt w) (e_now e))) MarketHasExpired ;;
  now <- now_u64 e ;;
  oracle <- oracle_input (w_mkt w) e ;;
  '(w1, r) <- new_order w o oracle (Some (px_acct x)) (px_acct x) now limit (px_rem x) ;;
  '(w2, d) <- lock_funds w1 (px_acct x) (o_side o) r (h_count (w_heap w) <? h_count (w_heap w1)) ;;
  t <- token_transfer (s_tok s) d (px_user_token x) (px_vault x) (px_signer x) ;;
  Ok (mkSys w2 t (s_closed s), oa_order_id r).

(** lib.rs 624-640 *)
Record place_args : Type := mkPlaceArgs {
  pa_side : side;
  pa_price : Z;
  pa_max_base : Z;
  pa_max_quote : Z;
  pa_client_id : Z;
  pa_type : place_order_type;
  pa_expiry : Z;
  pa_self_trade : self_trade;
  pa_limit : Z }.

(** lib.rs 141-153 *)
Definition params_of (t : place_order_type) (price : Z) : res order_params :=
  match t with
  | POMarket => Ok OMarket
  | POImmediateOrCancel => Ok (OImmediateOrCancel price)
  | POFillOrKill => Ok (OFillOrKill price)
  | _ => pt <- to_post_order_type t ;; Ok (OFixed price pt)
  end.

(** lib.rs 134-154; [None] when the expiry has passed. *)
Definition order_of_args (now : Z) (g : place_args) : res (option order) :=
  _ <- require (1 <=? pa_price g) InvalidInputPriceLots ;;
  match tif_from_expiry now (pa_expiry g) with
  | None => Ok None
  | Some tif =>
      ps <- params_of (pa_type g) (pa_price g) ;;
      Ok (Some (mkOrder (pa_side g) (pa_max_base g) (pa_max_quote g) (pa_client_id g) tif
                  (pa_self_trade g) ps))
  end.

(** lib.rs 650-682 *)
Record peg_args : Type := mkPegArgs {
  ga_side : side;
  ga_offset : Z;
  ga_peg_limit : Z;
  ga_max_base : Z;
  ga_max_quote : Z;
  ga_client_id : Z;
  ga_type : place_order_type;
  ga_expiry : Z;
  ga_self_trade : self_trade;
  ga_limit : Z }.

(** lib.rs 371-402; the market constraint makes [oracle_a.is_some()] the market's own. *)
Definition order_of_peg_args (m : market) (now : Z) (g : peg_args) : res (option order) :=
  _ <- require (negb (c_oracle_a (m_cfg m) =? 0)) DisabledOraclePeg ;;
  _ <- require (0 <? ga_peg_limit g) InvalidInputPegLimit ;;
  match tif_from_expiry now (ga_expiry g) with
  | None => Ok None
  | Some tif =>
      pt <- to_post_order_type (ga_type g) ;;
      Ok (Some (mkOrder (ga_side g) (ga_max_base g) (ga_max_quote g) (ga_client_id g) tif
                  (ga_self_trade g) (OOraclePegged (ga_offset g) pt (ga_peg_limit g))))
  end.

(** instructions/edit_order.rs 6-37 *)
Definition edit_order_ix (e : env) (s : sys) (x : place_ctx) (cancel_cid expected : Z) (o : order)
  (limit : Z) : res (sys * option Z) :=
  _ <- require (0 <=? expected) InvalidInputCancelSize ;;
  '(w, q) <- cancel_all_orders (s_w s) (px_acct x) u8_max None (Some cancel_cid) ;;
  let s1 := s_set_w s w in
  filled <- chk_i64 (expected - q) ;;
  if (0 <? filled) && (filled <? o_max_base o) then
    mb <- chk_i64 (o_max_base o - filled) ;;
    place_order_ix e s1 x (o_set_max_base o mb) limit
  else Ok (s1, None).

(** accounts_ix/place_take_order.rs 8-59 *)
Record take_ctx : Type := mkTakeCtx {
  tx_signer : Z;
  tx_admin : Z;
  tx_user_base : Z;
  tx_user_quote : Z;
  tx_rem : list Z }.

Definition take_constraints (s : sys) (x : take_ctx) : res unit :=
  let c := m_cfg (w_mkt (s_w s)) in
  _ <- require (c_open_orders_admin c =? tx_admin x) InvalidOpenOrdersAdmin ;;
  _ <- check_mint (s_tok s) (tx_user_base x) (c_base_vault c) ;;
  check_mint (s_tok s) (tx_user_quote x) (c_quote_vault c).

(** lib.rs 686-697 *)
Record take_args : Type := mkTakeArgs {
  ta_side : side;
  ta_price : Z;
  ta_max_base : Z;
  ta_max_quote : Z;
  ta_type : place_order_type;
  ta_limit : Z }.

(** lib.rs 418-437 *)
Definition order_of_take_args (g : take_args) : res order :=
  _ <- require (1 <=? ta_price g) InvalidInputPriceLots ;;
  ps <- match ta_type g with
        | POMarket => Ok OMarket
        | POImmediateOrCancel => Ok (OImmediateOrCancel (ta_price g))
        | POFillOrKill => Ok (OFillOrKill (ta_price g))
        | _ => Err InvalidInputOrderType
        end ;;
  Ok (mkOrder (ta_side g) (ta_max_base g) (ta_max_quote g) 0 0 DecrementTake ps).

(** instructions/place_take_order.rs 10-132.  A signer is a key with a private key or a
    program's address; it is never one of this program's open orders accounts, which
    are addresses derived from this program and never sign. *)
Definition place_take_ix (e : env) (s : sys) (x : take_ctx) (o : order) (limit : Z) : res sys :=
  _ <- require (0 <=? o_max_base o) InvalidInputLots ;;
  _ <- require (0 <=? o_max_quote o) InvalidInputLots ;;
  let w := s_w s in
  let c := m_cfg (w_mkt w) in
  _ <- require (negb (market_is_expired (w_mkt w) (e_now e))) MarketHasExpired ;;
  now <- now_u64 e ;;
  oracle <- oracle_input (w_mkt w) e ;;
  _ <- require (match acct_get (tx_signer x) (w_accts w) with None => true | _ => false end) Constraint ;;
  '(w1, r) <- new_order w o oracle None (tx_signer x) now limit (tx_rem x) ;;
  let m := w_mkt w1 in
  rebates <- chk_u64 (oa_taker_fees r - oa_referrer r) ;;
  match o_side o with
  | Bid =>
      q <- chk_u64 (oa_quote_taken r + rebates) ;;
      bt <- chk_u64 (m_base_total m - oa_base_taken r) ;;
      qt <- chk_u64 (m_quote_total m + q) ;;
      let w2 := w_set_mkt w1 (m_set_quote_total (m_set_base_total m bt) qt) in
      t1 <- token_transfer (s_tok s) q (tx_user_quote x) (c_quote_vault c) (tx_signer x) ;;
      t2 <- token_transfer t1 (oa_base_taken r) (c_base_vault c) (tx_user_base x) (c_authority c) ;;
      Ok (mkSys w2 t2 (s_closed s))
  | Ask =>
      q <- chk_u64 (oa_quote_taken r - rebates) ;;
      bt <- chk_u64 (m_base_total m + oa_base_taken r) ;;
      qt <- chk_u64 (m_quote_total m - q) ;;
      let w2 := w_set_mkt w1 (m_set_quote_total (m_set_base_total m bt) qt) in
      t1 <- token_transfer (s_tok s) (oa_base_taken r) (tx_user_base x) (c_base_vault c) (tx_signer x) ;;
      t2 <- token_transfer t1 q (c_quote_vault c) (tx_user_quote x) (c_authority c) ;;
      Ok (mkSys w2 t2 (s_closed s))
  end.

(** accounts_ix/cancel_all_and_place_orders.rs 8-62 *)
Record multi_ctx : Type := mkMultiCtx {
  mx_signer : Z;
  mx_acct : Z;
  mx_admin : Z;
  mx_user_quote : Z;
  mx_user_base : Z;
  mx_rem : list Z }.

Definition multi_constraints (s : sys) (x : multi_ctx) : res unit :=
  let c := m_cfg (w_mkt (s_w s)) in
  a <- acct_load (mx_acct x) (w_accts (s_w s)) ;;
  _ <- require (is_owner_or_delegate a (mx_signer x)) NoOwnerOrDelegate ;;
  _ <- check_mint (s_tok s) (mx_user_quote x) (c_quote_vault c) ;;
  _ <- check_mint (s_tok s) (mx_user_base x) (c_base_vault c) ;;
  require (c_open_orders_admin c =? mx_admin x) InvalidOpenOrdersAdmin.

(** instructions/cancel_all_and_place_orders.rs 50-117: one order of the list. *)
Definition multi_one (w : world) (x : multi_ctx) (ub uq : Z) (oracle : option Z) (now limit : Z)
  (o : order) (ba qa : Z) : res (world * Z * Z * option Z) :=
  capb <- max_base_lots (w_mkt w) ;;
  _ <- require (0 <=? o_max_quote o) InvalidInputLots ;;
  a <- acct_load (mx_acct x) (w_accts w) ;;
  o' <- match o_side o with
        | Ask =>
            y <- chk_u64 (ub + p_base_free (a_pos a)) ;;
            av <- chk_u64 (y - ba) ;;
            l <- max_base_lots_from_lamports (w_mkt w) av ;;
            Ok (o_set_max_base o (Z.min capb l))
        | Bid =>
            y <- chk_u64 (uq + p_quote_free (a_pos a)) ;;
            av <- chk_u64 (y - qa) ;;
            l <- max_quote_lots_from_lamports (w_mkt w) av ;;
            Ok (mkOrder (o_side o) capb (Z.min (o_max_quote o) l) (o_client_id o) (o_tif o)
                  (o_self_trade o) (o_params o))
        end ;;
  '(w1, r) <- new_order w o' oracle (Some (mx_acct x)) (mx_acct x) now limit (mx_rem x) ;;
  match o_side o with
  | Bid =>
      x1 <- chk_u64 (oa_quote_taken r + oa_posted_quote r) ;;
      x2 <- chk_u64 (x1 + oa_taker_fees r) ;;
      x3 <- chk_u64 (x2 + oa_maker_fees r) ;;
      _ <- require (in_u64 (qa + x3)) InvalidInputOrdersAmounts ;;
      Ok (w1, ba, qa + x3, oa_order_id r)
  | Ask =>
      x1 <- chk_u64 (oa_base_taken r + oa_posted_base r) ;;
      _ <- require (in_u64 (ba + x1)) InvalidInputOrdersAmounts ;;
      Ok (w1, ba + x1, qa, oa_order_id r)
  end.

Fixpoint multi_loop (w : world) (x : multi_ctx) (ub uq : Z) (oracle : option Z) (now limit : Z)
  (os : list order) (ba qa : Z) : res (world * Z * Z * list (option Z)) :=
  match os with
  | [] => Ok (w, ba, qa, [])
  | o :: r =>
      '(w1, ba', qa', id) <- multi_one w x ub uq oracle now limit o ba qa ;;
      '(w2, ba2, qa2, ids) <- multi_loop w1 x ub uq oracle now limit r ba' qa' ;;
      Ok (w2, ba2, qa2, id :: ids)
  end.

(** instructions/cancel_all_and_place_orders.rs 11-153 *)
Definition multi_ix (e : env) (s : sys) (x : multi_ctx) (cancel : bool) (os : list order) (limit : Z)
  : res (sys * list (option Z)) :=
  let w := s_w s in
  let c := m_cfg (w_mkt w) in
  _ <- require (negb (market_is_expired (w_mkt w) (e_now e))) MarketHasExpired ;;
  now <- now_u64 e ;;
  oracle <- oracle_input (w_mkt w) e ;;
  w0 <- (if cancel then '(w', _) <- cancel_all_orders w (mx_acct x) u8_max None None ;; Ok w' else Ok w) ;;
  ub <- tok_load (s_tok s) (mx_user_base x) ;;
  uq <- tok_load (s_tok s) (mx_user_quote x) ;;
  '(w1, ba, qa, ids) <- multi_loop w0 x (t_amount ub) (t_amount uq) oracle now limit os 0 0 ;;
  a <- acct_load (mx_acct x) (w_accts w1) ;;
  let p := a_pos a in
  let lb := Z.min ba (p_base_free p) in
  let lq := Z.min qa (p_quote_free p) in
  db <- chk_u64 (ba - lb) ;;
  dq <- chk_u64 (qa - lq) ;;
  fb <- chk_u64 (p_base_free p - lb) ;;
  fq <- chk_u64 (p_quote_free p - lq) ;;
  bt <- chk_u64 (m_base_total (w_mkt w1) + db) ;;
  qt <- chk_u64 (m_quote_total (w_mkt w1) + dq) ;;
  let p1 := p_set_quote_free (p_set_base_free p fb) fq in
  p2 <- (if h_count (w_heap w) <? h_count (w_heap w1)
         then n <- chk_u64 (p_penalty p1 + 1) ;; Ok (p_set_penalty p1 n) else Ok p1) ;;
  let w2 := w_set_acct (w_set_mkt w1 (m_set_quote_total (m_set_base_total (w_mkt w1) bt) qt))
              (mx_acct x) (a_set_pos a p2) in
  t1 <- token_transfer (s_tok s) dq (mx_user_quote x) (c_quote_vault c) (mx_signer x) ;;
  t2 <- token_transfer t1 db (mx_user_base x) (c_base_vault c) (mx_signer x) ;;
  Ok (mkSys w2 t2 (s_closed s), ids).

(** lib.rs 642-648 *)
Record multi_args : Type := mkMultiArgs { ua_price : Z; ua_max_quote : Z; ua_expiry : Z }.

(** lib.rs 278-310 and 329-361: bids first, then asks; the client id is the index. *)
Fixpoint orders_of_multi (now : Z) (t : place_order_type) (sd : side) (i : Z) (l : list multi_args)
  : res (list order) :=
  match l with
  | [] => Ok []
  | g :: r =>
      _ <- require (1 <=? ua_price g) InvalidInputPriceLots ;;
      match tif_from_expiry now (ua_expiry g) with
      | None => orders_of_multi now t sd (i + 1) r
      | Some tif =>
          ps <- params_of t (ua_price g) ;;
          rest <- orders_of_multi now t sd (i + 1) r ;;
          Ok (mkOrder sd i64_min (ua_max_quote g) i tif CancelProvide ps :: rest)
      end
  end.

(** instructions/consume_events.rs 49-56 *)
Definition MAX_EVENTS_CONSUME : Z := 8.

Fixpoint unique (seen l : list Z) : list Z :=
  match l with
  | [] => []
  | x :: r => if mem_key x seen then unique seen r else x :: unique (x :: seen) r
  end.

Definition slots_to_consume (h : heap) (slots : list Z) (limit : Z) : res (list Z) :=
  it <- heap_iter h ;;
  let given := filter (fun s => negb (hn_is_free (h_nodes h s))) slots in
  Ok (firstn (Z.to_nat limit) (unique [] (given ++ map snd it))).

(** instructions/consume_events.rs 58-76 *)
Definition consume_one (w : world) (rem : list Z) (slot : Z) : res world :=
  ev <- unwrap (at_slot (w_heap w) slot) ;;
  match ev with
  | EFill f =>
      if mem_key (fe_maker f) rem then
        a <- acct_load (fe_maker f) (w_accts w) ;;
        '(a', m') <- execute_maker a (w_mkt w) f ;;
        '(h', _) <- delete_slot (w_heap w) slot ;;
        Ok (w_set_heap (w_set_acct (w_set_mkt w m') (fe_maker f) a') h')
      else Ok w
  | EOut o =>
      if mem_key (oe_owner o) rem then
        a <- acct_load (oe_owner o) (w_accts w) ;;
        a' <- ooa_cancel_order a (oe_slot o) (oe_qty o) (w_mkt w) ;;
        '(h', _) <- delete_slot (w_heap w) slot ;;
        Ok (w_set_heap (w_set_acct w (oe_owner o) a') h')
      else Ok w
  end.

Fixpoint consume_loop (w : world) (rem : list Z) (slots : list Z) : res world :=
  match slots with
  | [] => Ok w
  | s :: r => w' <- consume_one w rem s ;; consume_loop w' rem r
  end.

(** instructions/consume_events.rs 38-79 *)
Definition consume_events_ix (w : world) (limit : Z) (slots : list Z) (rem : list Z) : res world :=
  ss <- slots_to_consume (w_heap w) slots (Z.min limit MAX_EVENTS_CONSUME) ;;
  consume_loop w rem ss.

(** instructions/deposit.rs 7-45 *)
Definition deposit_ix (e : env) (s : sys) (signer k ub uq base quote : Z) : res sys :=
  let w := s_w s in
  let c := m_cfg (w_mkt w) in
  _ <- check_mint (s_tok s) ub (c_base_vault c) ;;
  _ <- check_mint (s_tok s) uq (c_quote_vault c) ;;
  a <- acct_load k (w_accts w) ;;
  _ <- require (negb (market_is_expired (w_mkt w) (e_now e))) MarketHasExpired ;;
  t1 <- token_transfer (s_tok s) base ub (c_base_vault c) signer ;;
  bf <- chk_u64 (p_base_free (a_pos a) + base) ;;
  bt <- chk_u64 (m_base_total (w_mkt w) + base) ;;
  t2 <- token_transfer t1 quote uq (c_quote_vault c) signer ;;
  qf <- chk_u64 (p_quote_free (a_pos a) + quote) ;;
  qt <- chk_u64 (m_quote_total (w_mkt w) + quote) ;;
  let w1 := w_set_acct (w_set_mkt w (m_set_quote_total (m_set_base_total (w_mkt w) bt) qt)) k
              (a_set_pos a (p_set_quote_free (p_set_base_free (a_pos a) bf) qf)) in
  Ok (mkSys w1 t2 (s_closed s)).

(** lib.rs 544-556 *)
Definition refill_ix (e : env) (s : sys) (signer k ub uq base quote : Z) : res sys :=
  a <- acct_load k (w_accts (s_w s)) ;;
  q <- chk_u64 (quote - Z.min quote (p_quote_free (a_pos a))) ;;
  b <- chk_u64 (base - Z.min base (p_base_free (a_pos a))) ;;
  deposit_ix e s signer k ub uq b q.

(** instructions/settle_funds.rs 9-90; [ref] is the optional referrer account.  The
    heap penalty is paid in SOL: its counter is modelled here, the payment in Sol.v. *)
Definition settle_core (s : sys) (k ub uq : Z) (ref : option Z) : res sys :=
  let w := s_w s in
  let m := w_mkt w in
  let c := m_cfg m in
  a <- acct_load k (w_accts w) ;;
  let p := a_pos a in
  let round := (0 <? maker_fee m) && (p_bids_base p =? 0) in
  let roundoff := if round then p_locked_fees p else 0 in
  let p1 := if round then p_set_locked_fees p 0 else p in
  rebate <- chk_u64 (p_rebates p1 + roundoff) ;;
  m1 <- match ref with
        | Some _ =>
            f <- chk_u128 (m_fees_to_referrers m + rebate) ;;
            q <- chk_u64 (m_quote_total m - rebate) ;;
            Ok (m_set_quote_total (m_set_fees_to_referrers m f) q)
        | None =>
            f <- chk_u64 (m_fees_available m + rebate) ;; Ok (m_set_fees_available m f)
        end ;;
  bt <- chk_u64 (m_base_total m1 - p_base_free p1) ;;
  qt <- chk_u64 (m_quote_total m1 - p_quote_free p1) ;;
  ra <- chk_u64 (m_rebates_accrued m1 - p_rebates p1) ;;
  let m2 := m_set_rebates_accrued (m_set_quote_total (m_set_base_total m1 bt) qt) ra in
  _ <- chk_u64 (p_penalty p1 * 500) ;;
  t0 <- match ref with
        | Some r => token_transfer (s_tok s) rebate (c_quote_vault c) r (c_authority c)
        | None => Ok (s_tok s)
        end ;;
  t1 <- token_transfer t0 (p_base_free p1) (c_base_vault c) ub (c_authority c) ;;
  t2 <- token_transfer t1 (p_quote_free p1) (c_quote_vault c) uq (c_authority c) ;;
  let p2 := p_set_rebates (p_set_quote_free (p_set_base_free (p_set_penalty p1 0) 0) 0) 0 in
  Ok (mkSys (w_set_acct (w_set_mkt w m2) k (a_set_pos a p2)) t2 (s_closed s)).

(** accounts_ix/settle_funds.rs 7-50 *)
Definition settle_mints (s : sys) (ub uq : Z) (ref : option Z) : res unit :=
  let c := m_cfg (w_mkt (s_w s)) in
  _ <- check_mint (s_tok s) ub (c_base_vault c) ;;
  _ <- check_mint (s_tok s) uq (c_quote_vault c) ;;
  match ref with Some r => check_mint (s_tok s) r (c_quote_vault c) | None => Ok tt end.

Definition settle_funds_ix (s : sys) (signer k ub uq : Z) (ref : option Z) : res sys :=
  a <- acct_load k (w_accts (s_w s)) ;;
  _ <- require (is_owner_or_delegate a signer) NoOwnerOrDelegate ;;
  _ <- settle_mints s ub uq ref ;;
  tb <- tok_load (s_tok s) ub ;;
  tq <- tok_load (s_tok s) uq ;;
  _ <- require (is_settle_destination_allowed a signer (t_owner tb)) Constraint ;;
  _ <- require (is_settle_destination_allowed a signer (t_owner tq)) Constraint ;;
  settle_core s k ub uq ref.

(** [constraint = close_market_admin.is_some()] and [close_market_admin == signer] *)
Definition check_close_admin (m : market) (signer : Z) : res unit :=
  let k := c_close_market_admin (m_cfg m) in
  _ <- require (negb (k =? 0)) NoCloseMarketAdmin ;;
  require (k =? signer) InvalidCloseMarketAdmin.

(** instructions/settle_funds_expired.rs and accounts_ix/settle_funds_expired.rs *)
Definition settle_funds_expired_ix (e : env) (s : sys) (admin k ub uq : Z) (ref : option Z) : res sys :=
  _ <- check_close_admin (w_mkt (s_w s)) admin ;;
  a <- acct_load k (w_accts (s_w s)) ;;
  _ <- settle_mints s ub uq ref ;;
  tb <- tok_load (s_tok s) ub ;;
  tq <- tok_load (s_tok s) uq ;;
  _ <- require (t_owner tb =? a_owner a) Constraint ;;
  _ <- require (t_owner tq =? a_owner a) Constraint ;;
  _ <- require (market_is_expired (w_mkt (s_w s)) (e_now e)) MarketHasNotExpired ;;
  settle_core s k ub uq ref.

(** instructions/sweep_fees.rs and accounts_ix/sweep_fees.rs *)
Definition sweep_fees_ix (s : sys) (signer receiver : Z) : res sys :=
  let w := s_w s in
  let m := w_mkt w in
  let c := m_cfg m in
  _ <- require (c_collect_fee_admin c =? signer) Constraint ;;
  _ <- check_mint (s_tok s) receiver (c_quote_vault c) ;;
  let amount := m_fees_available m in
  q <- chk_u64 (m_quote_total m - amount) ;;
  t <- token_transfer (s_tok s) amount (c_quote_vault c) receiver (c_authority c) ;;
  Ok (mkSys (w_set_mkt w (m_set_quote_total (m_set_fees_available m 0) q)) t (s_closed s)).

(** instructions/cancel_order.rs 7-35 *)
Definition cancel_order_ix (w : world) (signer k id : Z) : res world :=
  a <- acct_load k (w_accts w) ;;
  _ <- require (is_owner_or_delegate a signer) NoOwnerOrDelegate ;;
  _ <- require (0 <? id) InvalidInputOrderId ;;
  match find_order_with_order_id a id with
  | None => Err OpenOrdersOrderNotFound
  | Some oo =>
      '(w', _) <- book_cancel_order w k (oo_id oo) (oo_side oo) (oo_tree oo) (Some k) ;; Ok w'
  end.

(** instructions/create_open_orders_account.rs 7-28.  The key of the new account is
    derived from the owner and a counter; here it is any key not in use. *)
Definition create_account_ix (w : world) (k owner delegate num : Z) : res world :=
  _ <- require (match acct_get k (w_accts w) with None => true | _ => false end) Constraint ;;
  _ <- require (negb (k =? 0)) Constraint ;;
  let a := mkOoa owner delegate num 1 position0 (repeat open_order0 MAX_OPEN_ORDERS) in
  Ok (w_set_accts w ((k, a) :: w_accts w)).

(** instructions/close_open_orders_account.rs 5-24 *)
Definition close_account_ix (w : world) (signer k : Z) : res world :=
  a <- acct_load k (w_accts w) ;;
  _ <- require (a_owner a =? signer) Constraint ;;
  _ <- require (position_is_empty (a_pos a) (a_version a)) NonEmptyOpenOrdersPosition ;;
  Ok (w_set_accts w (acct_del k (w_accts w))).

(** instructions/set_delegate.rs 7-25 *)
Definition set_delegate_ix (w : world) (signer k delegate : Z) : res world :=
  a <- acct_load k (w_accts w) ;;
  _ <- require (a_owner a =? signer) Constraint ;;
  Ok (w_set_acct w k (a_set_delegate a delegate)).

(** instructions/set_market_expired.rs 5-15 *)
Definition set_market_expired_ix (e : env) (w : world) (signer : Z) : res world :=
  _ <- check_close_admin (w_mkt w) signer ;;
  _ <- require (negb (market_is_expired (w_mkt w) (e_now e))) MarketHasExpired ;;
  Ok (w_set_mkt w (m_set_time_expiry (w_mkt w) (-1))).

(** instructions/prune_orders.rs 7-24 *)
Definition prune_orders_ix (e : env) (w : world) (signer k limit : Z) : res world :=
  _ <- check_close_admin (w_mkt w) signer ;;
  _ <- acct_load k (w_accts w) ;;
  _ <- require (market_is_expired (w_mkt w) (e_now e)) MarketHasNotExpired ;;
  '(w', _) <- cancel_all_orders w k limit None None ;; Ok w'.

(** instructions/close_market.rs 6-27 *)
Definition close_market_ix (e : env) (w : world) (signer : Z) : res unit :=
  _ <- check_close_admin (w_mkt w) signer ;;
  _ <- require (market_is_expired (w_mkt w) (e_now e)) MarketHasNotExpired ;;
  _ <- require (market_is_empty (w_mkt w)) NonEmptyMarket ;;
  b <- bs_is_empty (w_bids w) ;;
  a <- bs_is_empty (w_asks w) ;;
  _ <- require (b && a) BookContainsElements ;;
  require (heap_is_empty (w_heap w)) EventHeapContainsElements.

(** The instructions of lib.rs that touch a market, and what happens to token accounts
    outside the program: a transfer by some signer, a mint, a new account, a change of owner,
    a burn, and the closing of an empty account.  The market authority, an address derived
    from this program, never signs outside it. *)
Inductive instr : Type :=
| IPlaceOrder (x : place_ctx) (g : place_args)
| IPlacePegged (x : place_ctx) (g : peg_args)
| IEditOrder (x : place_ctx) (cid expected : Z) (g : place_args)
| IEditPegged (x : place_ctx) (cid expected : Z) (g : peg_args)
| IPlaceTake (x : take_ctx) (g : take_args)
| IPlaceMulti (x : multi_ctx) (cancel : bool) (t : place_order_type) (bids asks : list multi_args) (limit : Z)
| ICancel (signer k id : Z)
| ICancelClient (signer k cid : Z)
| ICancelAll (signer k : Z) (sd : option side) (limit : Z)
| IConsume (admin limit : Z) (rem : list Z)
| IConsumeGiven (admin : Z) (slots rem : list Z)
| IDeposit (signer k ub uq base quote : Z)
| IRefill (signer k ub uq base quote : Z)
| ISettle (signer k ub uq : Z) (ref : option Z)
| ISettleExpired (admin k ub uq : Z) (ref : option Z)
| ISweep (signer receiver : Z)
| ICreateAccount (k owner delegate num : Z)
| ICloseAccount (signer k : Z)
| ISetDelegate (signer k delegate : Z)
| ISetExpired (signer : Z)
| IPrune (signer k limit : Z)
| ICloseMarket (signer : Z)
| IExtTransfer (auth from to amount : Z)
| IExtMint (to amount : Z)
| IExtCreate (k mint owner : Z)
| IExtGive (auth k owner : Z)
| IExtBurn (auth k amount : Z)
| IExtClose (auth k : Z).

(** Instruction results: order ids for placements, cancelled lots for
    cancel_order_by_client_order_id. *)
Inductive output : Type := ONone | OIds (l : list (option Z)) | OLots (z : Z).

Definition lift_w (s : sys) (r : res world) : res (sys * output) :=
  w <- r ;; Ok (s_set_w s w, ONone).
Definition lift_s (r : res sys) : res (sys * output) := s <- r ;; Ok (s, ONone).
Definition lift_id (r : res (sys * option Z)) : res (sys * output) :=
  '(s, i) <- r ;; Ok (s, OIds [i]).

(** accounts_ix/cancel_order.rs 6-23 *)
Definition check_owner_or_delegate (w : world) (signer k : Z) : res unit :=
  a <- acct_load k (w_accts w) ;;
  require (is_owner_or_delegate a signer) NoOwnerOrDelegate.

(** Integer arguments have the ranges of their Rust types. *)
Definition u8_arg (z : Z) : res unit := require (in_range 0 u8_max z) Constraint.
Definition u64_arg (z : Z) : res unit := require (in_u64 z) Constraint.
Definition i64_arg (z : Z) : res unit := require (in_i64 z) Constraint.

Definition check_place_args (g : place_args) : res unit :=
  _ <- i64_arg (pa_price g) ;; _ <- i64_arg (pa_max_base g) ;; _ <- i64_arg (pa_max_quote g) ;;
  _ <- u64_arg (pa_client_id g) ;; _ <- u64_arg (pa_expiry g) ;; u8_arg (pa_limit g).
Definition check_peg_args (g : peg_args) : res unit :=
  _ <- i64_arg (ga_offset g) ;; _ <- i64_arg (ga_peg_limit g) ;; _ <- i64_arg (ga_max_base g) ;;
  _ <- i64_arg (ga_max_quote g) ;; _ <- u64_arg (ga_client_id g) ;; _ <- u64_arg (ga_expiry g) ;;
  u8_arg (ga_limit g).
Definition check_take_args (g : take_args) : res unit :=
  _ <- i64_arg (ta_price g) ;; _ <- i64_arg (ta_max_base g) ;; _ <- i64_arg (ta_max_quote g) ;;
  u8_arg (ta_limit g).
Definition check_multi_args (l : list multi_args) : res unit :=
  require (forallb (fun g => in_i64 (ua_price g) && in_i64 (ua_max_quote g) && in_u64 (ua_expiry g)) l)
    Constraint.

(** One instruction.  An error leaves the chain unchanged (the transaction is void);
    [exec] then returns [Err]. *)
Definition exec_open (e : env) (s : sys) (i : instr) : res (sys * output) :=
  let w := s_w s in
  let m := w_mkt w in
  match i with
  | IPlaceOrder x g =>
      _ <- check_place_args g ;;
      _ <- place_constraints s x ;;
      now <- now_u64 e ;;
      oo <- order_of_args now g ;;
      match oo with
      | None => Ok (s, OIds [None])
      | Some o => lift_id (place_order_ix e s x o (pa_limit g))
      end
  | IPlacePegged x g =>
      _ <- check_peg_args g ;;
      _ <- place_constraints s x ;;
      now <- now_u64 e ;;
      oo <- order_of_peg_args m now g ;;
      match oo with
      | None => Ok (s, OIds [None])
      | Some o => lift_id (place_order_ix e s x o (ga_limit g))
      end
  | IEditOrder x cid expected g =>
      _ <- check_place_args g ;;
      _ <- u64_arg cid ;; _ <- i64_arg expected ;;
      _ <- place_constraints s x ;;
      now <- now_u64 e ;;
      oo <- order_of_args now g ;;
      match oo with
      | None => Ok (s, OIds [None])
      | Some o => lift_id (edit_order_ix e s x cid expected o (pa_limit g))
      end
  | IEditPegged x cid expected g =>
      _ <- check_peg_args g ;;
      _ <- u64_arg cid ;; _ <- i64_arg expected ;;
      _ <- place_constraints s x ;;
      now <- now_u64 e ;;
      oo <- order_of_peg_args m now g ;;
      match oo with
      | None => Ok (s, OIds [None])
      | Some o => lift_id (edit_order_ix e s x cid expected o (ga_limit g))
      end
  | IPlaceTake x g =>
      _ <- check_take_args g ;;
      _ <- take_constraints s x ;;
      _ <- require (negb (tx_signer x =? c_authority (m_cfg m))) Constraint ;;
      o <- order_of_take_args g ;;
      lift_s (place_take_ix e s x o (ta_limit g))
  | IPlaceMulti x cancel t bids asks limit =>
      _ <- check_multi_args (bids ++ asks) ;;
      _ <- u8_arg limit ;;
      _ <- multi_constraints s x ;;
      _ <- require (negb (mx_signer x =? c_authority (m_cfg m))) Constraint ;;
      now <- now_u64 e ;;
      bo <- orders_of_multi now t Bid 0 bids ;;
      ao <- orders_of_multi now t Ask (Z.of_nat (length bids)) asks ;;
      '(s', ids) <- multi_ix e s x cancel (bo ++ ao) limit ;;
      Ok (s', OIds ids)
  | ICancel signer k id => lift_w s (cancel_order_ix w signer k id)
  | ICancelClient signer k cid =>
      _ <- u64_arg cid ;;
      _ <- check_owner_or_delegate w signer k ;;
      '(w', q) <- cancel_all_orders w k u8_max None (Some cid) ;;
      Ok (s_set_w s w', OLots q)
  | ICancelAll signer k sd limit =>
      _ <- u8_arg limit ;;
      _ <- check_owner_or_delegate w signer k ;;
      '(w', q) <- cancel_all_orders w k limit sd None ;;
      Ok (s_set_w s w', ONone)
  | IConsume admin limit rem =>
      _ <- u64_arg limit ;;
      _ <- require (c_consume_events_admin (m_cfg m) =? admin) InvalidConsumeEventsAdmin ;;
      lift_w s (consume_events_ix w limit [] rem)
  | IConsumeGiven admin slots rem =>
      _ <- require (c_consume_events_admin (m_cfg m) =? admin) InvalidConsumeEventsAdmin ;;
      _ <- require (forallb (fun z => (0 <=? z) && (z <? MAX_EVENTS)) slots) InvalidInputHeapSlots ;;
      lift_w s (consume_events_ix w (Z.of_nat (length slots)) slots rem)
  | IDeposit signer k ub uq base quote =>
      _ <- u64_arg base ;; _ <- u64_arg quote ;;
      _ <- require (negb (signer =? c_authority (m_cfg m))) Constraint ;;
      lift_s (deposit_ix e s signer k ub uq base quote)
  | IRefill signer k ub uq base quote =>
      _ <- u64_arg base ;; _ <- u64_arg quote ;;
      _ <- require (negb (signer =? c_authority (m_cfg m))) Constraint ;;
      lift_s (refill_ix e s signer k ub uq base quote)
  | ISettle signer k ub uq ref => lift_s (settle_funds_ix s signer k ub uq ref)
  | ISettleExpired admin k ub uq ref => lift_s (settle_funds_expired_ix e s admin k ub uq ref)
  | ISweep signer receiver => lift_s (sweep_fees_ix s signer receiver)
  | ICreateAccount k owner delegate num => lift_w s (create_account_ix w k owner delegate num)
  | ICloseAccount signer k => lift_w s (close_account_ix w signer k)
  | ISetDelegate signer k delegate => lift_w s (set_delegate_ix w signer k delegate)
  | ISetExpired signer => lift_w s (set_market_expired_ix e w signer)
  | IPrune signer k limit => _ <- u8_arg limit ;; lift_w s (prune_orders_ix e w signer k limit)
  | ICloseMarket signer =>
      _ <- close_market_ix e w signer ;; Ok (mkSys (s_w s) (s_tok s) true, ONone)
  | IExtTransfer auth from to amount =>
      _ <- require (negb (auth =? c_authority (m_cfg m))) Constraint ;;
      t <- token_transfer (s_tok s) amount from to auth ;; Ok (s_set_tok s t, ONone)
  | IExtMint to amount =>
      _ <- u64_arg amount ;;
      b <- tok_load (s_tok s) to ;;
      _ <- require (t_amount b + amount <=? u64_max) TokenError ;;
      Ok (s_set_tok s (upd (s_tok s) to (Some (mkTacc (t_mint b) (t_owner b) (t_amount b + amount)))), ONone)
  | IExtCreate k mint owner =>
      _ <- require (match s_tok s k with None => true | Some _ => false end) TokenError ;;
      Ok (s_set_tok s (upd (s_tok s) k (Some (mkTacc mint owner 0))), ONone)
  | IExtGive auth k owner =>
      _ <- require (negb (auth =? c_authority (m_cfg m))) Constraint ;;
      a <- tok_load (s_tok s) k ;;
      _ <- require (t_owner a =? auth) TokenError ;;
      Ok (s_set_tok s (upd (s_tok s) k (Some (mkTacc (t_mint a) owner (t_amount a)))), ONone)
  | IExtBurn auth k amount =>
      _ <- u64_arg amount ;;
      _ <- require (negb (auth =? c_authority (m_cfg m))) Constraint ;;
      a <- tok_load (s_tok s) k ;;
      _ <- require (t_owner a =? auth) TokenError ;;
      _ <- require (amount <=? t_amount a) TokenError ;;
      Ok (s_set_tok s (upd (s_tok s) k (Some (mkTacc (t_mint a) (t_owner a) (t_amount a - amount)))), ONone)
  | IExtClose auth k =>
      _ <- require (negb (auth =? c_authority (m_cfg m))) Constraint ;;
      a <- tok_load (s_tok s) k ;;
      _ <- require (t_owner a =? auth) TokenError ;;
      _ <- require (t_amount a =? 0) TokenError ;;
      Ok (s_set_tok s (upd (s_tok s) k None), ONone)
  end.

(** A closed market's account no longer exists, so every instruction that loads it
    fails; token movements, and closing or delegating an open orders account, go on. *)
Definition needs_market (i : instr) : bool :=
  match i with
  | ICloseAccount _ _ | ISetDelegate _ _ _ | IExtTransfer _ _ _ _ | IExtMint _ _
  | IExtCreate _ _ _ | IExtGive _ _ _ | IExtBurn _ _ _ | IExtClose _ _ => false
  | _ => true
  end.

Definition exec (e : env) (s : sys) (i : instr) : res (sys * output) :=
  if s_closed s && needs_market i then Err AccountMissing else exec_open e s i.

(** instructions/create_market.rs 12-126: the checks on the parameters. *)
Definition create_market_checks (now qls bls mf tf time_expiry base_mint quote_mint : Z) : res unit :=
  _ <- require (Z.abs mf <=? FEES_SCALE) InvalidInputMarketFees ;;
  _ <- require (Z.abs tf <=? FEES_SCALE) InvalidInputMarketFees ;;
  _ <- require ((0 <=? tf) && ((0 <=? mf) || (Z.abs mf <=? tf))) InvalidInputMarketFees ;;
  _ <- require ((time_expiry =? 0) || (now <? time_expiry)) InvalidInputMarketExpired ;;
  _ <- require (0 <? qls) InvalidInputLots ;;
  _ <- require (0 <? bls) InvalidInputLots ;;
  require (negb (base_mint =? quote_mint)) Constraint.

(** instructions/create_market.rs 64-112 and accounts_ix/create_market.rs: the new
    market, empty books and heap, and the two vaults, associated token accounts of the
    market authority created by the instruction.  Oracle account types (48-62) are not
    checked here. *)
Definition create_market_ix (now : Z) (t : tokens) (c : mcfg) (time_expiry : Z) : res sys :=
  _ <- create_market_checks now (c_qls c) (c_bls c) (c_maker_fee c) (c_taker_fee c) time_expiry
         (c_base_mint c) (c_quote_mint c) ;;
  _ <- i64_arg (c_qls c) ;; _ <- i64_arg (c_bls c) ;; _ <- i64_arg time_expiry ;;
  _ <- require (negb (negb (c_oracle_b c =? 0) && (c_oracle_a c =? 0))) InvalidSecondOracle ;;
  _ <- require (negb (negb (c_oracle_b c =? 0) && (c_oracle_a c =? c_oracle_b c))) Constraint ;;
  _ <- require (match t (c_base_vault c), t (c_quote_vault c) with None, None => true | _, _ => false end)
         Constraint ;;
  _ <- require (negb (c_base_vault c =? c_quote_vault c)) Constraint ;;
  let t1 := upd t (c_base_vault c) (Some (mkTacc (c_base_mint c) (c_authority c) 0)) in
  let t2 := upd t1 (c_quote_vault c) (Some (mkTacc (c_quote_mint c) (c_authority c) 0)) in
  Ok (mkSys (mkWorld (mkMarket c time_expiry 0 0 0 0 0 0 0 0 0)
               (bookside_init Bid) (bookside_init Ask) heap_init []) t2 false).

(** Executions: any sequence of instructions after create_market, each in any
    environment.  The signer of a transaction is never the market authority. *)
Inductive reachable : sys -> Prop :=
| reach_create now t c te s : create_market_ix now t c te = Ok s -> reachable s
| reach_step e s i s' out : reachable s -> exec e s i = Ok (s', out) -> reachable s'.
