(** C52, C53: an expired market can be wound down without its users, and its terms never
    change. *)
From Coq Require Import ZArith List Bool.
From Verif Require Import Base Nodes OrderTree BookSide Heap Market OpenOrders Order Book Instructions
  SpecBook SpecLedger SpecEvents SpecSystem SpecControl SpecWind LockFacts WindFacts Samples.
Import ListNotations.
Open Scope Z_scope.

(** C52: whatever state an expired market is in, its admins can bring it to where it can be
    closed.  They cancel the orders, deliver the events, pay every balance to its owner and
    collect the fees; all these calls succeed one after the other, none needs a user's
    signature, and then closing the market succeeds. *)
Theorem C52_market_can_be_wound_down e u s dest receiver : reachable s -> s_closed s = false ->
  winds_down u (e_now e) (w_mkt (s_w s)) -> ready s dest receiver ->
  exists l s1 s2, executes e s l s1 /\ Forall (admin_only (w_mkt (s_w s)) dest receiver) l /\
    exec e s1 (ICloseMarket u) = Ok (s2, ONone).
Proof. exact (winding_down e u s dest receiver). Qed.
Print Assumptions C52_market_can_be_wound_down.

(** C52: on a market whose makers pay no fees, no account ever has maker fees locked; with
    fees to pay, settling releases them.  Without this a remainder could keep a market from
    being closed. *)
Theorem C52_no_fees_no_locks s k a : reachable s -> maker_fee (w_mkt (s_w s)) <= 0 ->
  acct_get k (w_accts (s_w s)) = Some a -> p_locked_fees (a_pos a) = 0.
Proof. exact (fun R F => ul_none _ (reachable_unlocked s R F) k a). Qed.
Print Assumptions C52_no_fees_no_locks.

Definition to_owner (k : Z) : Z * Z := if k =? 101 then (11, 12) else if k =? 102 then (21, 22) else (31, 32).
(** Three users with orders on both sides, events waiting and balances to pay out. *)
Example C52_case : reachable sample5 /\ s_closed sample5 = false /\ winds_down 71 172 (w_mkt (s_w sample5)) /\
  ready sample5 to_owner 12 /\ map fst (w_accts (s_w sample5)) = [103; 102; 101] /\
  length (orders (s_w sample5) Bid) = 3%nat /\ length (waiting (s_w sample5)) = 3%nat /\
  accounts_sum p_base_free (s_w sample5) = 3500 /\ accounts_sum p_rebates (s_w sample5) = 15 /\
  succeeds (at_time 172 None) sample5 (ICloseMarket 71) = false.
Proof.
  split; [exact sample5_reachable|]. split; [vm_compute; reflexivity|]. split; [repeat split; vm_compute; congruence|].
  split; [apply ready_b_ok; vm_compute; reflexivity|]. vm_compute. repeat split.
Qed.

(** C53: whatever happens on a market, its lot sizes, fees, mints, vaults, oracles and admins
    stay as they were when it was created, its counters never go back, and its expiry time
    changes at most to "at once". *)
Theorem C53_terms_never_change s ids s' : reachable s -> executed s ids s' -> ages (w_mkt (s_w s)) (w_mkt (s_w s')).
Proof. exact (fun R H => proj1 (executed_ages s ids s' R H)). Qed.
Print Assumptions C53_terms_never_change.

(** C53: only the market's closing admin changes the expiry time. *)
Theorem C53_only_admin_expires e s i s' out : reachable s -> exec e s i = Ok (s', out) ->
  m_time_expiry (w_mkt (s_w s')) <> m_time_expiry (w_mkt (s_w s)) ->
  i = ISetExpired (c_close_market_admin (m_cfg (w_mkt (s_w s)))) /\ c_close_market_admin (m_cfg (w_mkt (s_w s))) <> 0.
Proof. exact (expiry_changes e s i s' out). Qed.
Print Assumptions C53_only_admin_expires.

Example C53_case : reachable sample1 /\ succeeds (at_time 160 (Some 100)) sample1 (limit_order 3 Bid 107 60 6) = true /\
  m_time_expiry (w_mkt (s_w sample4)) = 0 /\ succeeds (at_time 170 None) sample4 (ISetExpired 71) = true /\
  m_time_expiry (w_mkt (s_w (after (at_time 170 None) sample4 (ISetExpired 71)))) = -1.
Proof. split; [exact sample1_reachable|]. split; [vm_compute; reflexivity|]. split; [|split]; vm_compute; reflexivity. Qed.
