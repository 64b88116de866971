(** C62: nobody else can change what an account is due except by trading with its orders. *)
From Coq Require Import ZArith List Bool Permutation.
From Verif Require Import Base Nodes OrderTree BookSide Heap Market OpenOrders Order Book Instructions
  SpecBook SpecFees SpecOrder SpecLedger SpecEvents SpecSystem SpecControl SpecExit SpecWorth WorthIx Samples.
Import ListNotations.
Open Scope Z_scope.

(** C62: whatever others do, in any number of instructions at any times and oracle prices, what
    the account is due in base and quote changes by what the fills of its orders bring at the
    prices of these orders, with the maker's fee or rebate, up to one native unit of quote per
    filled bid.  No order is filled for more than it had left, outside its limit or after it
    expired, and no order of the account appears or changes in another way. *)
Theorem C62_others_only_trade k s s' a : reachable s -> acct_get k (w_accts (s_w s)) = Some a -> others k s s' ->
  exists a' F, acct_get k (w_accts (s_w s')) = Some a' /\ traded k (s_w s) a (s_w s') a' F.
Proof. exact (others_only_trade k s s' a). Qed.
Print Assumptions C62_others_only_trade.

(** Without orders on the book it stays the same to the last unit. *)
Theorem C62_nothing_at_risk k s s' a : reachable s -> acct_get k (w_accts (s_w s)) = Some a ->
  (forall sd t l, In (t, l) (orders (s_w s) sd) -> lf_owner l <> k) -> others k s s' ->
  exists a', acct_get k (w_accts (s_w s')) = Some a' /\
    base_due k a' (s_w s') = base_due k a (s_w s) /\ quote_due k a' (s_w s') = quote_due k a (s_w s) /\
    (forall sd t l, In (t, l) (orders (s_w s') sd) -> lf_owner l <> k).
Proof. exact (no_orders_safe k s s' a). Qed.
Print Assumptions C62_nothing_at_risk.

(** User 3 buys from user 1's ask and drops the expired one, user 2 sells to user 1's bid, and
    somebody delivers all events: user 1 has sold 20 lots at 105 and bought 35 at 95.  One unit of
    quote is lost to rounding. *)
Definition traded_a : sys := after (at_time 160 (Some 100)) sample1 (limit_order 3 Bid 107 60 6).
Definition traded_b : sys := after (at_time 161 (Some 100)) traded_a (limit_order 2 Ask 90 60 7).
Definition traded_c : sys := after (at_time 162 (Some 100)) traded_b (IConsume 0 8 [101; 102; 103]).
Definition dues (s : sys) (k : Z) : option (Z * Z) :=
  option_map (fun a => (base_due k a (s_w s), quote_due k a (s_w s))) (acct_get k (w_accts (s_w s))).
Definition lots_of (s : sys) (k : Z) (sd : side) : list (Z * Z) :=
  map (fun x => price_qty (snd x)) (filter (fun x => lf_owner (snd x) =? k) (orders (s_w s) sd)).
Definition fill_a : fill_event := mkFill Bid true 0 160 6 101 100 103 6 105 (-1) 20 1.
Definition fill_b : fill_event := mkFill Ask false 2 161 7 101 103 102 7 95 (-1) 35 4.
Lemma others_after k e s i s1 s2 : succeeds e s i = true -> s1 = after e s i -> ~ acts_for i k -> others k s1 s2 -> others k s s2.
Proof.
  unfold succeeds, after. intros H -> Hn Ho. destruct (exec e s i) as [[s' out]|] eqn:E; [|discriminate H]. exact (os_more k e s i s' out s2 Hn E Ho).
Qed.
Lemma C62_case_run : others 101 sample1 traded_c.
Proof.
  apply (others_after 101 (at_time 160 (Some 100)) sample1 (limit_order 3 Bid 107 60 6) traded_a); [vm_compute; reflexivity|reflexivity|intros E; discriminate E|].
  apply (others_after 101 (at_time 161 (Some 100)) traded_a (limit_order 2 Ask 90 60 7) traded_b); [vm_compute; reflexivity|reflexivity|intros E; discriminate E|].
  apply (others_after 101 (at_time 162 (Some 100)) traded_b (IConsume 0 8 [101; 102; 103]) traded_c); [vm_compute; reflexivity|reflexivity|intros E; exact E|].
  apply os_none.
Qed.
Example C62_case : reachable sample1 /\ others 101 sample1 traded_c /\
  dues sample1 101 = Some (5000, 85018) /\ dues traded_c 101 = Some (6500, 72757) /\
  sumZ (map (fill_base (w_mkt (s_w sample1))) [fill_a; fill_b]) = 1500 /\
  sumZ (map (fill_proceeds (w_mkt (s_w sample1))) [fill_a; fill_b]) = -12260 /\
  rounding (w_mkt (s_w sample1)) [fill_a; fill_b] = 1 /\
  lots_of sample1 101 Bid = [(95, 40); (94, 50)] /\ lots_of traded_c 101 Bid = [(95, 5); (94, 50)] /\
  lots_of sample1 101 Ask = [(105, 20); (107, 30)] /\ lots_of traded_c 101 Ask = [].
Proof. split; [exact sample1_reachable|]. split; [exact C62_case_run|]. vm_compute. repeat split. Qed.

(** User 3 has nothing on the book while the others trade. *)
Definition idle_b : sys := after (at_time 161 (Some 100)) sample1 (limit_order 2 Ask 90 60 7).
Example C62_nothing_at_risk_case : others 103 sample1 idle_b /\ lots_of sample1 103 Bid = [] /\ lots_of sample1 103 Ask = [] /\
  dues sample1 101 = Some (5000, 85018) /\ dues idle_b 101 = Some (11000, 28206) /\ dues idle_b 103 = dues sample1 103.
Proof.
  split; [|vm_compute; repeat split].
  apply (others_after 103 (at_time 161 (Some 100)) sample1 (limit_order 2 Ask 90 60 7) idle_b); [vm_compute; reflexivity|reflexivity|intros E; discriminate E|].
  apply os_none.
Qed.
