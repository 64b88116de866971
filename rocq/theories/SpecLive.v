(** Specification vocabulary for the claim that placing an order goes through. *)
From Coq Require Import ZArith List Bool.
From Verif Require Import Base Nodes OrderTree BookSide Heap Market OpenOrders Order Book Instructions SpecBook SpecFees SpecOrder SpecLedger SpecSystem SpecControl.
Import ListNotations.
Open Scope Z_scope.

(** The most an order over [mb] base lots and [mq] quote lots can cost its sender. *)
Definition most_native (m : market) (s : side) (mb mq : Z) : Z :=
  match s with Bid => mq * qls m | Ask => mb * bls m end.
Definition paid_mint (m : market) (s : side) : Z :=
  match s with Bid => c_quote_mint (m_cfg m) | Ask => c_base_mint (m_cfg m) end.
Definition paid_vault (m : market) (s : side) : Z :=
  match s with Bid => c_quote_vault (m_cfg m) | Ask => c_base_vault (m_cfg m) end.
Definition got_mint (m : market) (s : side) : Z := paid_mint m (invert_side s).
Definition free_of (a : ooa) (s : side) : Z :=
  match s with Bid => p_quote_free (a_pos a) | Ask => p_base_free (a_pos a) end.

(** The market is open, the clock is readable and the oracle, if the market has one, does not
    fail; [oracle] is what it says. *)
Record trading (e : env) (s : sys) (oracle : option Z) : Prop := {
  tr_open : s_closed s = false;
  tr_live : ~ expired (e_now e) (w_mkt (s_w s));
  tr_time : 0 <= e_now e;
  tr_oracle : oracle_input (w_mkt (s_w s)) e = Ok oracle }.

(** Nothing is about to overflow: the counters and totals of the market have room for the
    order, and the queue has room for its events. *)
Record spacious (w : world) (mb mq limit : Z) : Prop := {
  sp_limit : 0 <= limit <= 255;
  sp_seq : m_seq (w_mkt w) < 2 ^ 64 - 1;
  sp_base : m_base_total (w_mkt w) + mb * bls (w_mkt w) < 2 ^ 63;
  sp_quote : m_quote_total (w_mkt w) + (mq + 1) * qls (w_mkt w) < 2 ^ 63;
  sp_queue : h_count (w_heap w) + limit + 6 <= 600;
  sp_events : 0 <= h_seq (w_heap w) /\ h_seq (w_heap w) + limit + 6 < 2 ^ 64 }.
(** The side the order would be placed on has room for one more order. *)
Definition side_room (w : world) (s : side) : Prop := (length (orders w s) < 512)%nat.
Definition may_rest (t : place_order_type) : bool :=
  match t with POMarket | POImmediateOrCancel | POFillOrKill => false | _ => true end.

(** Account [k] is [a], [signer] may use it, and it has a free slot and room in its
    counters. *)
Record may_use (w : world) (k signer mb mq : Z) (a : ooa) : Prop := {
  mu_acct : acct_get k (w_accts w) = Some a;
  mu_signer : controls signer a;
  mu_slot : exists i oo, order_at a i = Ok oo /\ oo_free oo = true;
  mu_bids : p_bids_base (a_pos a) + mb < 2 ^ 63;
  mu_asks : p_asks_base (a_pos a) + mb < 2 ^ 63;
  mu_quote : p_bids_quote (a_pos a) + mq < 2 ^ 63;
  mu_penalty : p_penalty (a_pos a) < 2 ^ 64 - 1 }.

(** Token account [u] of [signer] holds [mint] and, with [free], covers [need]; the vault it
    pays into can take that much. *)
Definition affords (t : tokens) (u signer mint vault free need : Z) : Prop :=
  (exists ut, t u = Some ut /\ t_owner ut = signer /\ t_mint ut = mint /\ need <= free + t_amount ut) /\
  forall v, t vault = Some v -> t_amount v + need < 2 ^ 64.

(** Everything the sender of an order is responsible for. *)
Record may_place (s : sys) (x : place_ctx) (sd : side) (mb mq : Z) (a : ooa) : Prop := {
  mp_use : may_use (s_w s) (px_acct x) (px_signer x) mb mq a;
  mp_signer : px_signer x <> c_authority (m_cfg (w_mkt (s_w s)));
  mp_admin : px_admin x = c_open_orders_admin (m_cfg (w_mkt (s_w s)));
  mp_vault : px_vault x = paid_vault (w_mkt (s_w s)) sd;
  mp_rem : ~ In (px_acct x) (px_rem x);
  mp_pay : affords (s_tok s) (px_user_token x) (px_signer x) (paid_mint (w_mkt (s_w s)) sd) (px_vault x)
             (free_of a sd) (most_native (w_mkt (s_w s)) sd mb mq) }.

(** Account [k] has an order resting on side [s]. *)
Definition has_resting (w : world) (k : Z) (s : side) : Prop := exists t l, In (t, l) (orders w s) /\ lf_owner l = k.

(** [o] filled at once or not at all fails because the same order, allowed to be filled in
    part, would have been. *)
Definition as_ioc (o : order) (p : Z) : order :=
  mkOrder (o_side o) (o_max_base o) (o_max_quote o) (o_client_id o) (o_tif o) (o_self_trade o) (OImmediateOrCancel p).
Definition filled_in_part (w : world) (o : order) (p : Z) (oracle taker : option Z) (owner now limit : Z) (rem : list Z) : Prop :=
  exists w' r, new_order w (as_ioc o p) oracle taker owner now limit rem = Ok (w', r) /\
    oa_base_taken r < o_max_base o * bls (w_mkt w).

Definition slides (o : order) : bool :=
  match o_params o with OFixed _ PTPostOnlySlide | OOraclePegged _ PTPostOnlySlide _ => true | _ => false end.

(** The reasons for which an order is turned down, with the error returned. *)
Inductive refusal (w : world) (o : order) (oracle taker : option Z) (owner now limit : Z) (rem : list Z) : err -> Prop :=
| rf_self : o_self_trade o = AbortTransaction -> taker = Some owner -> has_resting w owner (invert_side (o_side o)) ->
    refusal w o oracle taker owner now limit rem WouldSelfTrade
| rf_partly p : o_params o = OFillOrKill p -> filled_in_part w o p oracle taker owner now limit rem ->
    refusal w o oracle taker owner now limit rem WouldExecutePartially
(** A pegged order needs an oracle price, and a price in the range of prices. *)
| rf_no_oracle off t p : o_params o = OOraclePegged off t p -> oracle = None ->
    refusal w o oracle taker owner now limit rem OraclePegInvalidOracleState
| rf_peg op off t p : o_params o = OOraclePegged off t p -> oracle = Some op -> ~ 1 <= op + off < 2 ^ 63 ->
    refusal w o oracle taker owner now limit rem InvalidPriceLots
(** There is no price left to slide to. *)
| rf_slide_bid : slides o = true -> o_side o = Bid -> best_price (w_asks w) now oracle = Ok (Some 1) ->
    refusal w o oracle taker owner now limit rem InvalidPriceLots
| rf_slide_ask : slides o = true -> o_side o = Ask -> best_price (w_bids w) now oracle = Ok (Some (2 ^ 63 - 1)) ->
    refusal w o oracle taker owner now limit rem Panic
| rf_slide_peg op off t p : o_params o = OOraclePegged off t p -> slides o = true -> oracle = Some op -> op < 0 ->
    refusal w o oracle taker owner now limit rem Panic.

(** Token account [u] holds [mint] and can take [most] more. *)
Definition can_get (t : tokens) (u mint most : Z) : Prop :=
  exists ut, t u = Some ut /\ t_mint ut = mint /\ t_amount ut + most < 2 ^ 64.
Definition take_pays (x : take_ctx) (sd : side) : Z := match sd with Bid => tx_user_quote x | Ask => tx_user_base x end.
Definition take_gets (x : take_ctx) (sd : side) : Z := take_pays x (invert_side sd).

(** Everything the sender of an order without an open orders account is responsible for. *)
Record may_take (s : sys) (x : take_ctx) (sd : side) (mb mq : Z) : Prop := {
  mt_signer : tx_signer x <> c_authority (m_cfg (w_mkt (s_w s))) /\ acct_get (tx_signer x) (w_accts (s_w s)) = None;
  mt_admin : tx_admin x = c_open_orders_admin (m_cfg (w_mkt (s_w s)));
  mt_pay : affords (s_tok s) (take_pays x sd) (tx_signer x) (paid_mint (w_mkt (s_w s)) sd) (paid_vault (w_mkt (s_w s)) sd)
             0 (most_native (w_mkt (s_w s)) sd mb mq);
  mt_get : can_get (s_tok s) (take_gets x sd) (got_mint (w_mkt (s_w s)) sd) (most_native (w_mkt (s_w s)) (invert_side sd) mb mq) }.

(** Arguments an order can be made of. *)
Definition u64 (z : Z) : Prop := 0 <= z < 2 ^ 64.
Definition price_lots (z : Z) : Prop := 1 <= z < 2 ^ 63.
Record fair_place (g : place_args) : Prop := {
  fp_price : price_lots (pa_price g); fp_base : 0 <= pa_max_base g; fp_quote : 0 <= pa_max_quote g;
  fp_cid : u64 (pa_client_id g); fp_expiry : u64 (pa_expiry g) }.
Record fair_peg (m : market) (g : peg_args) : Prop := {
  fg_oracle : c_oracle_a (m_cfg m) <> 0;
  fg_offset : is_i64 (ga_offset g); fg_limit : price_lots (ga_peg_limit g);
  fg_type : In (ga_type g) [POLimit; POPostOnly; POPostOnlySlide];
  fg_base : 0 <= ga_max_base g; fg_quote : 0 <= ga_max_quote g;
  fg_cid : u64 (ga_client_id g); fg_expiry : u64 (ga_expiry g) }.
Record fair_take (g : take_args) : Prop := {
  fk_price : price_lots (ta_price g); fk_base : 0 <= ta_max_base g; fk_quote : 0 <= ta_max_quote g;
  fk_type : In (ta_type g) [POMarket; POImmediateOrCancel; POFillOrKill] }.
