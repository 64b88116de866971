(** What the statements about editing orders, self trades and the fee counters refer to. *)
From Coq Require Import ZArith List Bool.
From Verif Require Import Base Nodes OrderTree BookSide Heap Market OpenOrders Order Book Instructions
  SpecFees SpecLedger SpecSystem SpecControl.
Import ListNotations.
Open Scope Z_scope.

(** ** Fee counters *)
(** The fees put aside for somebody: the rebates owed to referrers at the next settlement,
    what was paid to referrers, and what the fee admin can sweep. *)
Definition put_aside (m : market) : Z := m_rebates_accrued m + m_fees_to_referrers m + m_fees_available m.

Definition is_take (i : instr) : bool := match i with IPlaceTake _ _ => true | _ => false end.
(** What a sweep pays out. *)
Definition swept_by (i : instr) (s : sys) : Z :=
  match i with ISweep _ _ => m_fees_available (w_mkt (s_w s)) | _ => 0 end.
(** The locked maker fees that a settlement hands to the referrer or the fee admin, because
    the account has no bids left. *)
Definition left_by (i : instr) (s : sys) : Z :=
  match i with
  | ISettle _ k _ _ _ | ISettleExpired _ k _ _ _ =>
      match acct_get k (w_accts (s_w s)) with Some a => leftover (w_mkt (s_w s)) (a_pos a) | None => 0 end
  | _ => 0
  end.

(** Executions without direct take orders, with the total swept and the total of left-over
    maker fees handed over so far. *)
Inductive fee_history : sys -> Z -> Z -> Prop :=
| fh_create now t c te s : create_market_ix now t c te = Ok s -> fee_history s 0 0
| fh_step s swept left e i s' out : fee_history s swept left -> is_take i = false -> exec e s i = Ok (s', out) ->
    fee_history s' (swept + swept_by i s) (left + left_by i s).

(** ** Editing *)
(** The replacement asks for this much less than the edit did. *)
Definition resize (g : place_args) (n : Z) : place_args :=
  mkPlaceArgs (pa_side g) (pa_price g) n (pa_max_quote g) (pa_client_id g) (pa_type g) (pa_expiry g) (pa_self_trade g) (pa_limit g).
Definition resize_peg (g : peg_args) (n : Z) : peg_args :=
  mkPegArgs (ga_side g) (ga_offset g) (ga_peg_limit g) n (ga_max_quote g) (ga_client_id g) (ga_type g) (ga_expiry g) (ga_self_trade g) (ga_limit g).

(** ** Self trades *)
(** What an account holds: free, and locked in its orders, and the maker fees locked. *)
Definition base_worth (m : market) (p : position) : Z := p_base_free p + p_asks_base p * bls m.
Definition quote_worth (m : market) (p : position) : Z := p_quote_free p + p_bids_quote p * qls m + p_locked_fees p.

(** How an edit ends, expecting [n] lots under the client id [cid] and asking for [want]:
    too late to place anything; all orders with the client id cancelled, [n - q] lots of
    them having traded before, and the rest of the new order placed; or only cancelled. *)
Inductive edited (e : env) (s : sys) (x : place_ctx) (cid n want expiry : Z) (place : Z -> instr) : sys -> output -> Prop :=
| ed_late : 0 < expiry <= e_now e -> edited e s x cid n want expiry place s (OIds [None])
| ed_replaced s1 q s' out : exec e s (ICancelClient (px_signer x) (px_acct x) cid) = Ok (s1, OLots q) ->
    0 < n - q < want -> exec e s1 (place (want - (n - q))) = Ok (s', out) -> edited e s x cid n want expiry place s' out
| ed_cancelled s1 q : exec e s (ICancelClient (px_signer x) (px_acct x) cid) = Ok (s1, OLots q) ->
    n - q <= 0 \/ want <= n - q -> edited e s x cid n want expiry place s1 (OIds [None]).

(** The calls [l], one after the other, all succeed and lead from [s] to [s']. *)
Inductive calls : sys -> list (env * instr) -> sys -> Prop :=
| cs_none s : calls s [] s
| cs_more s e i s1 out l s2 : exec e s i = Ok (s1, out) -> calls s1 l s2 -> calls s ((e, i) :: l) s2.
