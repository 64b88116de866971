(** Instructions as sequences of elementary steps on the market, its books, heap and
    accounts.  [db] and [dq] are what the claims on the base and quote vault exceed the
    market's deposit totals by in the middle of an instruction. *)
From Coq Require Import ZArith List Bool Lia ZifyBool.
From Verif Require Import Base Nodes OrderTree BookSide Heap Market OpenOrders Order Book Instructions
  BaseFacts SpecBook SpecFees SpecOrder MatchFacts OrderSpecProofs.
Import ListNotations.
Open Scope Z_scope.

Definition owed_base (o : order) (taker : option Z) (r : order_amounts) : Z :=
  match taker, o_side o with
  | Some _, Bid => 0
  | Some _, Ask => oa_base_taken r + oa_posted_base r
  | None, Bid => - oa_base_taken r
  | None, Ask => oa_base_taken r
  end.
Definition owed_quote (o : order) (taker : option Z) (r : order_amounts) : Z :=
  match taker, o_side o with
  | Some _, Bid => oa_quote_taken r + oa_posted_quote r + oa_taker_fees r + oa_maker_fees r
  | Some _, Ask => 0
  | None, Bid => oa_quote_taken r + (oa_taker_fees r - oa_referrer r)
  | None, Ask => - (oa_quote_taken r - (oa_taker_fees r - oa_referrer r))
  end.

Definition u64_ok (z : Z) : Prop := 0 <= z <= 18446744073709551615.
Definition u128_ok (z : Z) : Prop := 0 <= z <= 340282366920938463463374607431768211455.

Definition m_set_totals (m : market) (bt qt : Z) : market := m_set_quote_total (m_set_base_total m bt) qt.

Definition round_now (m : market) (p : position) : bool := (0 <? maker_fee m) && (p_bids_base p =? 0).
(** Maker fees left over when no bid is open, collected at settlement. *)
Definition round_off (m : market) (p : position) : Z := if round_now m p then p_locked_fees p else 0.
Definition settled_pos (m : market) (p : position) : position :=
  mkPos (p_bids_base p) (p_asks_base p) 0 0 (if round_now m p then 0 else p_locked_fees p) 0 0
    (p_maker_volume p) (p_taker_volume p) (p_bids_quote p).
Definition settled_mkt (m : market) (p : position) (referred : bool) : market :=
  let rebate := p_rebates p + round_off m p in
  mkMarket (m_cfg m) (m_time_expiry m) (m_seq m) (m_fees_accrued m)
    (if referred then m_fees_to_referrers m + rebate else m_fees_to_referrers m)
    (m_rebates_accrued m - p_rebates p)
    (if referred then m_fees_available m else m_fees_available m + rebate)
    (m_maker_volume m) (m_taker_volume_wo_oo m)
    (m_base_total m - p_base_free p)
    (m_quote_total m - p_quote_free p - (if referred then rebate else 0)).

Definition new_account (owner delegate num : Z) : ooa :=
  mkOoa owner delegate num 1 position0 (repeat open_order0 MAX_OPEN_ORDERS).

(** [who] is the account a step acts on behalf of: the taker of an order, the account whose
    order is cancelled, and so on. *)
Inductive wstep (who : option Z) : world -> Z -> Z -> world -> Z -> Z -> Prop :=
| ws_place w db dq o oracle taker owner now limit rem w' r :
    sane_order o -> taker = Some owner \/ (taker = None /\ acct_get owner (w_accts w) = None) ->
    0 <= limit -> 0 <= now ->
    new_order w o oracle taker owner now limit rem = Ok (w', r) -> taker = who ->
    wstep who w db dq w' (db + owed_base o taker r) (dq + owed_quote o taker r)
| ws_cancel w db dq k a oo ex w' l :
    acct_get k (w_accts w) = Some a -> In oo (a_orders a) -> oo_free oo = false ->
    book_cancel_order w k (oo_id oo) (oo_side oo) (oo_tree oo) ex = Ok (w', l) -> who = Some k ->
    wstep who w db dq w' db dq
| ws_consume w db dq rem slot w' : consume_one w rem slot = Ok w' -> wstep who w db dq w' db dq
| ws_move w db dq k a bf qf pen bt qt :
    acct_get k (w_accts w) = Some a ->
    u64_ok bf \/ bf = p_base_free (a_pos a) -> u64_ok qf \/ qf = p_quote_free (a_pos a) ->
    u64_ok pen \/ pen = p_penalty (a_pos a) ->
    u64_ok bt \/ bt = m_base_total (w_mkt w) -> u64_ok qt \/ qt = m_quote_total (w_mkt w) -> who = Some k ->
    wstep who w db dq
      (w_set_acct (w_set_mkt w (m_set_totals (w_mkt w) bt qt)) k
         (a_set_pos a (p_set_penalty (p_set_quote_free (p_set_base_free (a_pos a) bf) qf) pen)))
      (db + (bf - p_base_free (a_pos a)) - (bt - m_base_total (w_mkt w)))
      (dq + (qf - p_quote_free (a_pos a)) - (qt - m_quote_total (w_mkt w)))
| ws_totals w db dq bt qt : u64_ok bt -> u64_ok qt ->
    wstep who w db dq (w_set_mkt w (m_set_totals (w_mkt w) bt qt))
      (db - (bt - m_base_total (w_mkt w))) (dq - (qt - m_quote_total (w_mkt w)))
| ws_settle w db dq k a (referred : bool) :
    acct_get k (w_accts w) = Some a ->
    let m' := settled_mkt (w_mkt w) (a_pos a) referred in
    u128_ok (m_fees_to_referrers m') \/ referred = false -> u64_ok (m_rebates_accrued m') ->
    u64_ok (m_fees_available m') \/ referred = true -> u64_ok (m_base_total m') -> u64_ok (m_quote_total m') -> who = Some k ->
    wstep who w db dq (w_set_acct (w_set_mkt w m') k (a_set_pos a (settled_pos (w_mkt w) (a_pos a)))) db dq
| ws_sweep w db dq :
    u64_ok (m_quote_total (w_mkt w) - m_fees_available (w_mkt w)) ->
    wstep who w db dq
      (w_set_mkt w (m_set_quote_total (m_set_fees_available (w_mkt w) 0)
                      (m_quote_total (w_mkt w) - m_fees_available (w_mkt w)))) db dq
| ws_create w db dq k owner delegate num :
    acct_get k (w_accts w) = None -> k <> 0 -> who = Some k ->
    wstep who w db dq (w_set_accts w ((k, new_account owner delegate num) :: w_accts w)) db dq
| ws_delegate w db dq k a d : acct_get k (w_accts w) = Some a -> who = Some k ->
    wstep who w db dq (w_set_acct w k (a_set_delegate a d)) db dq
| ws_expire w db dq : wstep who w db dq (w_set_mkt w (m_set_time_expiry (w_mkt w) (-1))) db dq.

(** The one instruction that is not made of these steps: closing an account. *)
Definition closes (w w' : world) (k : Z) (a : ooa) : Prop :=
  acct_get k (w_accts w) = Some a /\ position_is_empty (a_pos a) (a_version a) = true /\
  w' = w_set_accts w (acct_del k (w_accts w)).

Inductive wsteps (who : option Z) : world -> Z -> Z -> world -> Z -> Z -> Prop :=
| wss_nil w db dq : wsteps who w db dq w db dq
| wss_cons w db dq w1 db1 dq1 w2 db2 dq2 :
    wstep who w db dq w1 db1 dq1 -> wsteps who w1 db1 dq1 w2 db2 dq2 -> wsteps who w db dq w2 db2 dq2.

Lemma wsteps_trans who w db dq w1 db1 dq1 w2 db2 dq2 :
  wsteps who w db dq w1 db1 dq1 -> wsteps who w1 db1 dq1 w2 db2 dq2 -> wsteps who w db dq w2 db2 dq2.
Proof. induction 1; intros; [assumption|]. econstructor; eauto. Qed.
Lemma wsteps_one who w db dq w1 db1 dq1 db1' dq1' : wstep who w db dq w1 db1 dq1 -> db1 = db1' -> dq1 = dq1' ->
  wsteps who w db dq w1 db1' dq1'.
Proof. intros H <- <-. econstructor; [exact H|constructor]. Qed.

(** The account an instruction acts on behalf of. *)
Definition actor (i : instr) : option Z :=
  match i with
  | IPlaceOrder x _ | IPlacePegged x _ | IEditOrder x _ _ _ | IEditPegged x _ _ _ => Some (px_acct x)
  | IPlaceMulti x _ _ _ _ _ => Some (mx_acct x)
  | ICancel _ k _ | ICancelClient _ k _ | ICancelAll _ k _ _ | IPrune _ k _ => Some k
  | IDeposit _ k _ _ _ _ | IRefill _ k _ _ _ _ => Some k
  | ISettle _ k _ _ _ | ISettleExpired _ k _ _ _ => Some k
  | ICreateAccount k _ _ _ | ICloseAccount _ k | ISetDelegate _ k _ => Some k
  | IPlaceTake _ _ | IConsume _ _ _ | IConsumeGiven _ _ _ | ISweep _ _ | ISetExpired _ | ICloseMarket _
  | IExtTransfer _ _ _ _ | IExtMint _ _ | IExtCreate _ _ _ | IExtGive _ _ _ | IExtBurn _ _ _ | IExtClose _ _ => None
  end.
