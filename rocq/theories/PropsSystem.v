(** Properties C20 to C35, C40 and C47: conservation, solvency, events, cancelling, control,
    settling, expiry and closing.  Vocabulary: SpecSystem.v, SpecEvents.v, SpecControl.v.
    [reachable s] means that some history of instructions, by anybody and with any arguments,
    clocks and oracle prices, leads to [s]. *)
From Coq Require Import ZArith List Bool Lia Permutation.
From Verif Require Import Base Nodes OrderTree BookSide Heap Market OpenOrders Order Book Instructions
  SpecBook SpecFees SpecOrder SpecLedger SpecEvents SpecSystem SpecControl
  SystemFacts Solvency ConsumeFacts CancelFacts ControlFacts AuthFacts IdentFacts EndFacts SystemProofs Samples.
Import ListNotations.
Open Scope Z_scope.

(** C20: the recorded base deposits are the free base and the base locked in asks of all
    accounts, corrected by the fills still waiting. *)
Theorem C20_base_conserved s : reachable s ->
  let w := s_w s in let m := w_mkt w in
  m_base_total m = accounts_sum (fun p => p_base_free p + p_asks_base p * bls m) w + fills_sum (base_on_way m) w.
Proof. exact (base_conserved s). Qed.
Print Assumptions C20_base_conserved.

(** C21: the recorded quote deposits are the free quote, quote in bids, locked maker fees and
    unpaid rebates of all accounts and the fees the admin can sweep, corrected by the fills
    (with their rebates) still waiting. *)
Theorem C21_quote_conserved s : reachable s ->
  let w := s_w s in let m := w_mkt w in
  m_quote_total m =
    accounts_sum (fun p => p_quote_free p + p_bids_quote p * qls m + p_locked_fees p + p_rebates p) w
    + m_fees_available m + fills_sum (quote_on_way m) w.
Proof. exact (quote_conserved s). Qed.
Print Assumptions C21_quote_conserved.

Example C20_case : reachable sample4 /\
  let w := s_w sample4 in let m := w_mkt w in
  m_base_total m = 6500 /\ accounts_sum (fun p => p_base_free p + p_asks_base p * bls m) w = 10000 /\
  fills_sum (base_on_way m) w = -3500.
Proof. split; [exact sample4_reachable|]. vm_compute. auto. Qed.
Example C21_case : reachable sample4 /\
  let w := s_w sample4 in let m := w_mkt w in
  m_quote_total m = 148689 /\ fills_sum (quote_on_way m) w = 36900 /\ m_fees_available m = 0 /\
  accounts_sum (fun p => p_quote_free p + p_bids_quote p * qls m + p_locked_fees p + p_rebates p) w = 111789.
Proof. split; [exact sample4_reachable|]. vm_compute. auto. Qed.

(** C22: each vault exists, belongs to the market, and holds the recorded deposits, which
    cover everything that can be taken out. *)
Theorem C22_vaults_cover s : reachable s -> solvent s.
Proof. exact (reachable_solvent s). Qed.
Print Assumptions C22_vaults_cover.

(** C22: settling never fails for lack of funds: it works for whoever may settle, if the
    destinations exist, are of the right mint and have room. *)
Theorem C22_settling_works e s i k ub uq ref a : reachable s -> s_closed s = false -> settles i k ub uq ref ->
  acct_get k (w_accts (s_w s)) = Some a -> permitted e s i a ->
  let m := w_mkt (s_w s) in let c := m_cfg m in let p := a_pos a in
  let most := p_quote_free p + p_rebates p + p_locked_fees p in
  can_take (s_tok s) ub (c_base_mint c) (p_base_free p) -> can_take (s_tok s) uq (c_quote_mint c) most ->
  match ref with
  | Some r => can_take (s_tok s) r (c_quote_mint c) most /\
      m_fees_to_referrers m + p_rebates p + p_locked_fees p <= 340282366920938463463374607431768211455
  | None => True
  end ->
  p_penalty p * 500 <= 18446744073709551615 ->
  (forall x, s_tok s ub = Some x \/ s_tok s uq = Some x -> t_owner x = a_owner a) ->
  exists s', exec e s i = Ok (s', ONone).
Proof. exact (settle_possible e s i k ub uq ref a). Qed.
Print Assumptions C22_settling_works.

Example C22_case : reachable sample4 /\ amounts_of sample4 [51; 52] = [Some 6500; Some 148689] /\
  accounts_sum p_base_free (s_w sample4) = 3500 /\
  accounts_sum (fun p => p_quote_free p + p_rebates p + p_locked_fees p) (s_w sample4) = 39.
Proof. split; [exact sample4_reachable|]. vm_compute. auto. Qed.
Example C22_settling_case : reachable sample4 /\ s_closed sample4 = false /\
  settles (ISettle 3 103 31 32 (Some 12)) 103 31 32 (Some 12) /\
  map s_tok_view [s_tok sample4 31; s_tok sample4 32; s_tok sample4 12] =
    [Some (61, 3, 1000000000); Some (62, 3, 999936329); Some (62, 1, 999914982)] /\
  option_map (fun a => (a_owner a, p_penalty (a_pos a))) (acct_get 103 (w_accts (s_w sample4))) = Some (3, 1).
Proof. split; [exact sample4_reachable|]. split; [vm_compute; reflexivity|]. split; [left; exists 3; reflexivity|]. vm_compute. auto. Qed.

(** C23: the rebate total is that of the accounts; the market's maker volume is that of the
    accounts, closed ones included; the takers' volume is the makers' and what still waits. *)
Theorem C23_totals_match s gone : history s gone ->
  let w := s_w s in let m := w_mkt w in
  m_rebates_accrued m = accounts_sum p_rebates w /\
  m_maker_volume m = accounts_sum p_maker_volume w + sumZ (map p_maker_volume gone) /\
  accounts_sum p_taker_volume w + m_taker_volume_wo_oo m + sumZ (map p_taker_volume gone) =
    m_maker_volume m + fills_sum (fill_quote m) w.
Proof. exact (totals_match s gone). Qed.
Print Assumptions C23_totals_match.

Example C23_case : (exists gone, history sample4 gone) /\
  let w := s_w sample4 in let m := w_mkt w in
  accounts_sum p_taker_volume w = 36900 /\ fills_sum (fill_quote m) w = 36900 /\ m_rebates_accrued m = 15 /\
  accounts_sum p_maker_volume (s_w sample6) = 36900 /\ m_maker_volume (w_mkt (s_w sample6)) = 36900.
Proof. split; [exact (reachable_history _ sample4_reachable)|]. vm_compute. auto. Qed.

(** C24: every resting order is in exactly one slot, of its owner, with the same id, side,
    tree and locked price; every used slot has exactly one resting order or final event; and
    the locked amounts are the sums over the orders and events. *)
Theorem C24_orders_backed s : reachable s -> backed (s_w s).
Proof. exact (reachable_backed s). Qed.
Print Assumptions C24_orders_backed.

Example C24_case : reachable sample4 /\
  map (fun k => map (fun i => occupants k i (s_w sample4)) [0; 1; 2; 3; 4]) [101; 102; 103] =
    [[1; 1; 1; 1; 0]; [1; 0; 0; 0; 0]; [1; 0; 0; 0; 0]] /\
  map (fun k => (lots k Bid (s_w sample4), lots k Ask (s_w sample4), bid_quote k (s_w sample4), fees_to_come k (s_w sample4)))
    [101; 102; 103] = [(90, 50, 8500, 18); (0, 15, 0, 0); (25, 0, 2675, 6)].
Proof. split; [exact sample4_reachable|]. vm_compute. auto. Qed.

(** C25: the waiting events can be consumed one by one in any order. *)
Theorem C25_drain_any_order e xs s : reachable s -> s_closed s = false -> Permutation xs (queue_of (s_w s)) ->
  exists s', executes e s
    (map (fun x => IConsumeGiven (c_consume_events_admin (m_cfg (w_mkt (s_w s)))) [snd x] [ev_owner (fst x)]) xs) s' /\
    waiting (s_w s') = [].
Proof. exact (drain_any_order e xs s). Qed.
Print Assumptions C25_drain_any_order.

(** C25, C27: consuming never fails; it applies, in queue order, those of the first [limit]
    (at most 8) events whose account was given, and leaves the others. *)
Theorem C25_consume_works e s admin limit rem : reachable s -> s_closed s = false ->
  admin = c_consume_events_admin (m_cfg (w_mkt (s_w s))) -> 0 <= limit < 2 ^ 64 ->
  exists s', exec e s (IConsume admin limit rem) = Ok (s', ONone) /\
    let done := filter (present rem) (firstn (Z.to_nat (Z.min limit 8)) (queue_of (s_w s))) in
    consumes s done s' /\ incl done (queue_of (s_w s)) /\ NoDup (map snd done).
Proof. exact (consume_works e s admin limit rem). Qed.
Print Assumptions C25_consume_works.

(** C25, C27: the same for given slots, repetitions included. *)
Theorem C25_consume_given_works e s admin slots rem : reachable s -> s_closed s = false ->
  admin = c_consume_events_admin (m_cfg (w_mkt (s_w s))) -> Forall (fun z => 0 <= z < 600) slots ->
  exists s', exec e s (IConsumeGiven admin slots rem) = Ok (s', ONone) /\
    let done := filter (present rem) (looked_at (queue_of (s_w s)) slots (Nat.min (length slots) 8)) in
    consumes s done s' /\ incl done (queue_of (s_w s)) /\ NoDup (map snd done).
Proof. exact (consume_given_works e s admin slots rem). Qed.
Print Assumptions C25_consume_given_works.

(** C27: whatever consuming does, it takes distinct waiting events, at most eight, off the
    queue and applies each once; the rest of the queue stays as it is. *)
Theorem C27_applied_once e s i s' out : reachable s -> is_consume i = true -> exec e s i = Ok (s', out) ->
  exists done, consumes s done s' /\ incl done (queue_of (s_w s)) /\ NoDup (map snd done) /\ (length done <= 8)%nat.
Proof. exact (consume_done e s i s' out). Qed.
Print Assumptions C27_applied_once.

(** C28: two ways of consuming that leave the same events waiting leave the same accounts,
    market, book and tokens. *)
Theorem C28_order_irrelevant s s1 s2 : reachable s -> consumed s s1 -> consumed s s2 ->
  Permutation (waiting (s_w s1)) (waiting (s_w s2)) ->
  w_accts (s_w s1) = w_accts (s_w s2) /\ w_mkt (s_w s1) = w_mkt (s_w s2) /\
  w_bids (s_w s1) = w_bids (s_w s2) /\ w_asks (s_w s1) = w_asks (s_w s2) /\ s_tok s1 = s_tok s2.
Proof. exact (consumed_confluent s s1 s2). Qed.
Print Assumptions C28_order_irrelevant.

Definition consume_by_slot : list instr := [IConsumeGiven 0 [2] [101]; IConsumeGiven 0 [0; 0] [101]; IConsumeGiven 0 [1] [102]].
Example C25_case : reachable sample4 /\ s_closed sample4 = false /\
  map (fun x => (snd x, ev_owner (fst x))) (queue_of (s_w sample4)) = [(0, 101); (1, 102); (2, 101)].
Proof. split; [exact sample4_reachable|]. vm_compute. auto. Qed.
Example C27_case :
  map snd (queue_of (s_w (after (at_time 170 None) sample4 (IConsume 0 8 [102])))) = [0; 2] /\
  balances (after (at_time 170 None) sample4 (IConsume 0 8 [102])) =
    [(103, (3500, 0, 0, 2675, 6)); (102, (0, 0, 15897, 0, 0)); (101, (0, 50, 0, 8500, 18))].
Proof. vm_compute. auto. Qed.
Example C28_case :
  let s1 := fold_left (after (at_time 170 None)) consume_by_slot sample4 in
  let s2 := after (at_time 170 None) sample4 (IConsume 0 8 [101; 102]) in
  waiting (s_w s1) = [] /\ waiting (s_w s2) = [] /\ balances s1 = balances s2 /\
  balances s1 = [(103, (3500, 0, 0, 2675, 6)); (102, (0, 0, 15897, 0, 0)); (101, (3000, 0, 20996, 8500, 18))].
Proof. vm_compute. auto. Qed.

(** C26: whoever controls the account can cancel its order by id, whatever the oracle and the
    clock; exactly that order leaves the book and all that was locked for it comes back. *)
Theorem C26_cancel_works e s u sd t l a : reachable s -> s_closed s = false -> In (t, l) (orders (s_w s) sd) ->
  acct_get (lf_owner l) (w_accts (s_w s)) = Some a -> controls u a -> m_seq (w_mkt (s_w s)) < 2 ^ 63 ->
  exists s', exec e s (ICancel u (lf_owner l) (lf_key l)) = Ok (s', ONone) /\
    taken_off (s_w s) sd t l (s_w s') /\ s_tok s' = s_tok s /\ s_closed s' = s_closed s.
Proof. exact (cancel_allowed e s u sd t l a). Qed.
Print Assumptions C26_cancel_works.

(** C26: cancelling all orders (of one side or both) removes only the account's orders of that
    side, and all of them if the limit allows for the 24 slots. *)
Theorem C26_cancel_all_works e s u k so limit a : reachable s -> s_closed s = false ->
  acct_get k (w_accts (s_w s)) = Some a -> controls u a -> 0 <= limit < 256 ->
  p_bids_base (a_pos a) + p_asks_base (a_pos a) < 2 ^ 63 ->
  exists s' gone, exec e s (ICancelAll u k so limit) = Ok (s', ONone) /\ taken_off_all (s_w s) gone (s_w s') /\
    s_tok s' = s_tok s /\ Z.of_nat (length gone) <= limit /\
    (forall sd t l, In (sd, t, l) gone -> selected k so None a sd l) /\
    (24 <= limit -> forall sd t l, In (t, l) (orders (s_w s') sd) -> ~ selected k so None a sd l).
Proof. exact (cancel_all_allowed e s u k so limit a). Qed.
Print Assumptions C26_cancel_all_works.

(** C26: cancelling by client id removes exactly the account's orders with that client id and
    reports their lots. *)
Theorem C26_cancel_client_works e s u k c a : reachable s -> s_closed s = false ->
  acct_get k (w_accts (s_w s)) = Some a -> controls u a -> 0 <= c < 2 ^ 64 ->
  p_bids_base (a_pos a) + p_asks_base (a_pos a) < 2 ^ 63 ->
  exists s' gone,
    exec e s (ICancelClient u k c) = Ok (s', OLots (sumZ (map (fun x => lf_qty (snd x)) gone))) /\
    taken_off_all (s_w s) gone (s_w s') /\ s_tok s' = s_tok s /\
    (forall sd t l, In (sd, t, l) gone -> selected k None (Some c) a sd l) /\
    (forall sd t l, In (t, l) (orders (s_w s') sd) -> ~ selected k None (Some c) a sd l).
Proof. exact (cancel_client_allowed e s u k c a). Qed.
Print Assumptions C26_cancel_client_works.

(** C26, C32: the closing admin of an expired market can do so for every account. *)
Theorem C26_prune_works e s u k limit a : reachable s -> s_closed s = false ->
  acct_get k (w_accts (s_w s)) = Some a -> winds_down u (e_now e) (w_mkt (s_w s)) -> 0 <= limit < 256 ->
  p_bids_base (a_pos a) + p_asks_base (a_pos a) < 2 ^ 63 ->
  exists s' gone, exec e s (IPrune u k limit) = Ok (s', ONone) /\ taken_off_all (s_w s) gone (s_w s') /\
    s_tok s' = s_tok s /\ Z.of_nat (length gone) <= limit /\
    (forall sd t l, In (sd, t, l) gone -> lf_owner l = k) /\
    (24 <= limit -> forall sd t l, In (t, l) (orders (s_w s') sd) -> lf_owner l <> k).
Proof. exact (prune_allowed e s u k limit a). Qed.
Print Assumptions C26_prune_works.

Example C26_case : reachable sample1 /\ s_closed sample1 = false /\
  ids_on sample1 Bid = [(Fixed, 1770887431076116955131); (Fixed, 1752440687002407403514)] /\
  balances sample1 = [(103, (0, 0, 0, 0, 0)); (102, (0, 15, 0, 0, 0)); (101, (0, 50, 0, 8500, 18))] /\
  let s1 := after (at_time 110 None) sample1 (ICancel 1 101 1752440687002407403514) in
  ids_on s1 Bid = [(Fixed, 1770887431076116955131)] /\
  balances s1 = [(103, (0, 0, 0, 0, 0)); (102, (0, 15, 0, 0, 0)); (101, (0, 50, 47010, 3800, 8))] /\
  balances (after (at_time 110 None) sample1 (ICancelAll 1 101 None 24)) =
    [(103, (0, 0, 0, 0, 0)); (102, (0, 15, 0, 0, 0)); (101, (5000, 0, 85018, 0, 0))] /\
  balances (after (at_time 110 None) sample1 (ICancelClient 1 101 4)) =
    [(103, (0, 0, 0, 0, 0)); (102, (0, 15, 0, 0, 0)); (101, (0, 50, 38008, 4700, 10))].
Proof. split; [exact sample1_reachable|]. vm_compute. auto 10. Qed.
Example C26_prune_case : reachable sample5 /\ s_closed sample5 = false /\ winds_down 71 172 (w_mkt (s_w sample5)) /\
  ids_on sample5 Bid = [(Fixed, 1992248359960631574521); (Fixed, 1770887431076116955131); (Fixed, 1752440687002407403514)] /\
  ids_on (after (at_time 172 None) sample5 (IPrune 71 101 100)) Bid = [(Fixed, 1992248359960631574521)].
Proof.
  split; [exact sample5_reachable|]. split; [vm_compute; reflexivity|]. split; [|vm_compute; auto].
  vm_compute. repeat split; discriminate.
Qed.

(** C29: an instruction that acts for an account is signed by its owner or delegate (only the
    owner for changing the delegate or closing), or by the closing admin of an expired market;
    anybody can deposit. *)
Theorem C29_signed e s i s' out k a : exec e s i = Ok (s', out) -> acts_for i k ->
  acct_get k (w_accts (s_w s)) = Some a -> permitted e s i a.
Proof. exact (exec_permitted e s i s' out k a). Qed.
Print Assumptions C29_signed.

(** C29: every other instruction only lets the account's resting orders trade or expire. *)
Theorem C29_others_only_trade e s i s' out k a : reachable s -> exec e s i = Ok (s', out) -> ~ acts_for i k ->
  acct_get k (w_accts (s_w s)) = Some a -> exists a', acct_get k (w_accts (s_w s')) = Some a' /\ only_traded a a'.
Proof. exact (exec_bystander e s i s' out k a). Qed.
Print Assumptions C29_others_only_trade.

(** C29: whoever acts, an account keeps its owner and number until it is closed, and only
    set_delegate (which only the owner can sign, C29_signed) names another delegate. *)
Theorem C29_identity e s i s' out k a : reachable s -> exec e s i = Ok (s', out) -> acct_get k (w_accts (s_w s)) = Some a ->
  (exists u, i = ICloseAccount u k /\ acct_get k (w_accts (s_w s')) = None) \/
  exists a', acct_get k (w_accts (s_w s')) = Some a' /\
    a_owner a' = a_owner a /\ a_num a' = a_num a /\ a_version a' = a_version a /\
    a_delegate a' = (match i with ISetDelegate _ j d => if j =? k then d else a_delegate a | _ => a_delegate a end).
Proof. exact (exec_identity e s i s' out k a). Qed.
Print Assumptions C29_identity.

(** The delegate 9 cancels all orders of account 101 and remains its delegate; user 1 remains
    its owner. *)
Example C29_identity_case : reachable sample1 /\
  let s := after (at_time 110 None) sample1 (ISetDelegate 1 101 9) in
  let s' := after (at_time 111 None) s (ICancelAll 9 101 None 24) in
  succeeds (at_time 111 None) s (ICancelAll 9 101 None 24) = true /\
  ids_on s Ask <> ids_on s' Ask /\
  option_map (fun a => (a_owner a, a_delegate a, a_num a)) (acct_get 101 (w_accts (s_w s'))) = Some (1, 9, 0).
Proof. split; [exact sample1_reachable|]. cbv zeta. vm_compute. split; [reflexivity|]. split; [discriminate|reflexivity]. Qed.

Example C29_case : reachable sample1 /\
  err_of (exec (at_time 110 None) sample1 (ICancel 2 101 1752440687002407403514)) = Some NoOwnerOrDelegate /\
  succeeds (at_time 110 None) sample1 (ICancel 1 101 1752440687002407403514) = true /\
  succeeds (at_time 110 None) sample1 (ISetDelegate 1 101 9) = true /\
  succeeds (at_time 111 None) (after (at_time 110 None) sample1 (ISetDelegate 1 101 9)) (ICancel 9 101 1752440687002407403514) = true /\
  succeeds (at_time 111 None) (after (at_time 110 None) sample1 (ISetDelegate 1 101 9)) (ISetDelegate 9 101 9) = false /\
  succeeds (at_time 172 None) sample4 (IPrune 71 101 100) = false /\
  succeeds (at_time 172 None) sample5 (IPrune 71 101 100) = true.
Proof. split; [exact sample1_reachable|]. vm_compute. auto 10. Qed.
(** User 3's order reduces user 1's and 2's resting asks; their accounts change when the
    events are consumed. *)
Example C29_trade_case : reachable sample4 /\ ~ acts_for (IConsume 0 8 [101; 102]) 101 /\
  option_map p_quote_free (pos_of sample4 101) = Some 0 /\
  option_map p_quote_free (pos_of (after (at_time 170 None) sample4 (IConsume 0 8 [101; 102])) 101) = Some 20996.
Proof. split; [exact sample4_reachable|]. split; [intros H; exact H|]. vm_compute. auto. Qed.

(** C30: base and quote go to token accounts of the account's owner unless the owner signed. *)
Theorem C30_destinations e s i k ub uq ref s' out : exec e s i = Ok (s', out) -> settles i k ub uq ref ->
  exists a xb xq, acct_get k (w_accts (s_w s)) = Some a /\ s_tok s ub = Some xb /\ s_tok s uq = Some xq /\
    (signer_of i = a_owner a /\ (exists u, i = ISettle u k ub uq ref) \/ t_owner xb = a_owner a /\ t_owner xq = a_owner a).
Proof. exact (settle_destination e s i k ub uq ref s' out). Qed.
Print Assumptions C30_destinations.

Definition sample4_delegated : sys := after (at_time 161 None) sample4 (ISetDelegate 3 103 2).
Example C30_case :
  succeeds (at_time 162 None) sample4_delegated (ISettle 2 103 21 22 None) = false /\
  succeeds (at_time 162 None) sample4_delegated (ISettle 2 103 31 22 None) = false /\
  succeeds (at_time 162 None) sample4_delegated (ISettle 2 103 31 32 None) = true /\
  succeeds (at_time 162 None) sample4_delegated (ISettle 3 103 21 22 None) = true /\
  succeeds (at_time 172 None) sample5 (ISettleExpired 71 103 21 22 None) = false /\
  succeeds (at_time 172 None) sample5 (ISettleExpired 71 103 31 32 None) = true.
Proof. vm_compute. auto 10. Qed.

(** C31: what a settlement does: transfers of exactly the free balances to the destinations,
    rebates (and left-over locked fees if no bids are open) to the referrer or the admin's
    fees, and nothing else. *)
Theorem C31_settlement e s i k ub uq ref s' out : reachable s -> exec e s i = Ok (s', out) -> settles i k ub uq ref ->
  exists a, acct_get k (w_accts (s_w s)) = Some a /\ settlement s k ub uq ref a s'.
Proof. exact (settle_exact e s i k ub uq ref s' out). Qed.
Print Assumptions C31_settlement.

(** C31: settling again pays nothing. *)
Theorem C31_second_pays_nothing e1 e2 s i1 i2 k ub uq ref ub' uq' ref' s1 s2 out1 out2 : reachable s ->
  exec e1 s i1 = Ok (s1, out1) -> settles i1 k ub uq ref ->
  exec e2 s1 i2 = Ok (s2, out2) -> settles i2 k ub' uq' ref' ->
  (forall v, s_tok s2 v = s_tok s1 v) /\ m_fees_available (w_mkt (s_w s2)) = m_fees_available (w_mkt (s_w s1)) /\
  m_base_total (w_mkt (s_w s2)) = m_base_total (w_mkt (s_w s1)) /\
  m_quote_total (w_mkt (s_w s2)) = m_quote_total (w_mkt (s_w s1)) /\
  acct_get k (w_accts (s_w s2)) = acct_get k (w_accts (s_w s1)).
Proof. exact (settle_again e1 e2 s i1 i2 k ub uq ref ub' uq' ref' s1 s2 out1 out2). Qed.
Print Assumptions C31_second_pays_nothing.

Definition settled4 : sys := after (at_time 170 None) sample4 (ISettle 3 103 31 32 (Some 12)).
Example C31_case : reachable sample4 /\ succeeds (at_time 170 None) sample4 (ISettle 3 103 31 32 (Some 12)) = true /\
  amounts_of sample4 [31; 32; 12; 51; 52] = map Some [1000000000; 999936329; 999914982; 6500; 148689] /\
  amounts_of settled4 [31; 32; 12; 51; 52] = map Some [1000003500; 999936329; 999914997; 3000; 148674] /\
  pos_of sample4 103 = Some (mkPos 25 0 3500 0 6 15 1 0 36900 2675) /\
  pos_of settled4 103 = Some (mkPos 25 0 0 0 6 0 0 0 36900 2675) /\
  amounts_of (after (at_time 170 None) settled4 (ISettle 3 103 31 32 (Some 12))) [31; 32; 12; 51; 52] =
    amounts_of settled4 [31; 32; 12; 51; 52].
Proof. split; [exact sample4_reachable|]. vm_compute. auto 10. Qed.

(** C32: an expired market stays expired while the clock does not go back. *)
Theorem C32_stays_expired now s now' s' : reachable s -> 0 <= now -> expired now (w_mkt (s_w s)) -> later now s now' s' ->
  now <= now' /\ expired now' (w_mkt (s_w s')).
Proof. exact (later_expired now s now' s'). Qed.
Print Assumptions C32_stays_expired.

(** C32: on an expired market no instruction places an order (none is reported and no order
    number is used), and no user pays anything in: only the market's own token accounts lose
    tokens. Cancelling, consuming and settling remain possible by C26, C25 and C22, which do
    not depend on the clock. *)
Theorem C32_only_winds_down e s i s' out : reachable s -> exec e s i = Ok (s', out) ->
  expired (e_now e) (w_mkt (s_w s)) ->
  reported out = [] /\ m_seq (w_mkt (s_w s')) = m_seq (w_mkt (s_w s)) /\
  match i with
  | IExtTransfer _ _ _ _ | IExtMint _ _ | IExtCreate _ _ _ | IExtGive _ _ _ | IExtBurn _ _ _ | IExtClose _ _ => True
  | _ => guarded [c_authority (m_cfg (w_mkt (s_w s)))] (s_tok s) (s_tok s')
  end.
Proof. exact (expired_only_winds_down e s i s' out). Qed.
Print Assumptions C32_only_winds_down.

Example C32_case : reachable sample5 /\ expired 171 (w_mkt (s_w sample5)) /\
  err_of (exec (at_time 171 None) sample5 (limit_order 1 Bid 90 10 7)) = Some MarketHasExpired /\
  succeeds (at_time 171 None) sample5 (IDeposit 1 101 11 12 5 5) = false /\
  map (succeeds (at_time 171 None) sample5)
    [IConsume 0 8 [101; 102]; ICancelAll 1 101 None 24; IPrune 71 103 24; ISettle 3 103 31 32 None] = [true; true; true; true].
Proof. split; [exact sample5_reachable|]. split; [vm_compute; split; [discriminate|reflexivity]|]. vm_compute. auto. Qed.

(** C33: a market is closed only by its closing admin after expiry, when no order rests, no
    event waits, and every account owes and is owed nothing. *)
Theorem C33_close_market e s u s' out : reachable s -> exec e s (ICloseMarket u) = Ok (s', out) ->
  s_closed s = false /\ winds_down u (e_now e) (w_mkt (s_w s)) /\
  (forall sd, orders (s_w s) sd = []) /\ waiting (s_w s) = [] /\
  (forall k a, acct_get k (w_accts (s_w s)) = Some a -> empty_handed a) /\
  m_base_total (w_mkt (s_w s)) = 0 /\ m_quote_total (w_mkt (s_w s)) = 0 /\
  s_w s' = s_w s /\ s_tok s' = s_tok s /\ s_closed s' = true.
Proof. exact (close_market_ok e s u s' out). Qed.
Print Assumptions C33_close_market.

Example C33_case : reachable sample6 /\ succeeds (at_time 175 None) sample6 (ICloseMarket 71) = true /\
  map fst (w_accts (s_w sample6)) = [103; 102; 101] /\
  succeeds (at_time 175 None) sample5 (ICloseMarket 71) = false.
Proof. split; [exact sample6_reachable|]. vm_compute. auto. Qed.

(** C34: an account is closed only when it is empty and no order and no event refers to it. *)
Theorem C34_close_account e s u k s' out a : reachable s -> exec e s (ICloseAccount u k) = Ok (s', out) ->
  acct_get k (w_accts (s_w s)) = Some a ->
  empty_handed a /\ (forall sd t l, In (t, l) (orders (s_w s) sd) -> lf_owner l <> k) /\
  (forall ev, In ev (waiting (s_w s)) -> ev_owner ev <> k) /\
  acct_get k (w_accts (s_w s')) = None /\
  (forall k', k' <> k -> acct_get k' (w_accts (s_w s')) = acct_get k' (w_accts (s_w s))).
Proof. exact (close_account_ok e s u k s' out a). Qed.
Print Assumptions C34_close_account.

Example C34_case : reachable sample6 /\ succeeds (at_time 175 None) sample6 (ICloseAccount 2 102) = true /\
  map fst (w_accts (s_w (after (at_time 175 None) sample6 (ICloseAccount 2 102)))) = [103; 101] /\
  succeeds (at_time 175 None) sample4 (ICloseAccount 2 102) = false.
Proof. split; [exact sample6_reachable|]. vm_compute. auto. Qed.

(** C35: all the ids reported along an execution are different. *)
Theorem C35_ids_distinct s ids s' : reachable s -> executed s ids s' -> m_seq (w_mkt (s_w s')) < 2 ^ 63 -> NoDup ids.
Proof. exact (ids_distinct s ids s'). Qed.
Print Assumptions C35_ids_distinct.

(** C35: an order that is new on the book has an id that no order on that side had before. *)
Theorem C35_new_id_fresh s ids s1 e i s2 out sd t l : reachable s -> executed s ids s1 -> exec e s1 i = Ok (s2, out) ->
  In (t, l) (orders (s_w s2) sd) -> (forall l0, In (t, l0) (orders (s_w s1) sd) -> lf_key l0 <> lf_key l) ->
  forall t0 l0, In (t0, l0) (orders (s_w s) sd) -> lf_key l0 <> lf_key l.
Proof. exact (new_id_fresh s ids s1 e i s2 out sd t l). Qed.
Print Assumptions C35_new_id_fresh.

Definition report (e : env) (s : sys) (i : instr) : list Z := match exec e s i with Ok (_, out) => reported out | Err _ => [] end.
(** Cancelling and placing the same order again gives another id. *)
Example C35_case : reachable sample1 /\ m_seq (w_mkt (s_w sample1)) = 5 /\
  report (at_time 110 None) sample1 (limit_order 1 Bid 94 50 5) = [1752440687002407403513] /\
  report (at_time 111 None) (after (at_time 110 None) sample1 (ICancel 1 101 1752440687002407403514)) (limit_order 1 Bid 94 50 5)
    = [1752440687002407403513] /\
  report (at_time 111 None) (after (at_time 110 None) sample1 (limit_order 1 Bid 94 50 5)) (limit_order 1 Bid 94 50 5)
    = [1752440687002407403512].
Proof. split; [exact sample1_reachable|]. vm_compute. auto. Qed.

(** C40: a refill takes exactly what is missing to the requested free balances. *)
Theorem C40_refill e s u k ub uq b q s' out a : reachable s -> exec e s (IRefill u k ub uq b q) = Ok (s', out) ->
  acct_get k (w_accts (s_w s)) = Some a ->
  ~ expired (e_now e) (w_mkt (s_w s)) /\
  deposited s k ub uq (Z.max 0 (b - p_base_free (a_pos a))) (Z.max 0 (q - p_quote_free (a_pos a))) a s'.
Proof. exact (exec_refill e s u k ub uq b q s' out a). Qed.
Print Assumptions C40_refill.
(** C40: a deposit takes exactly the given amounts. *)
Theorem C40_deposit e s u k ub uq b q s' out a : exec e s (IDeposit u k ub uq b q) = Ok (s', out) ->
  acct_get k (w_accts (s_w s)) = Some a -> ~ expired (e_now e) (w_mkt (s_w s)) /\ deposited s k ub uq b q a s'.
Proof. exact (exec_deposit e s u k ub uq b q s' out a). Qed.
Print Assumptions C40_deposit.

Definition refilled : sys := after (at_time 170 None) sample4 (IRefill 3 103 31 32 4000 700).
Example C40_case : reachable sample4 /\ succeeds (at_time 170 None) sample4 (IRefill 3 103 31 32 4000 700) = true /\
  amounts_of sample4 [31; 32; 51; 52] = map Some [1000000000; 999936329; 6500; 148689] /\
  amounts_of refilled [31; 32; 51; 52] = map Some [999999500; 999935629; 7000; 149389] /\
  option_map (fun p => (p_base_free p, p_quote_free p)) (pos_of sample4 103) = Some (3500, 0) /\
  option_map (fun p => (p_base_free p, p_quote_free p)) (pos_of refilled 103) = Some (4000, 700).
Proof. split; [exact sample4_reachable|]. vm_compute. auto 10. Qed.

(** C47: no instruction of the program makes a token account appear, disappear or change hands, and
    it takes tokens only from the signer's accounts or, if it pays out, from the market's. (The three
    actions of the token program that [reshapes] names touch the signer's own accounts only.) *)
Theorem C47_tokens_guarded e s i s' out : exec e s i = Ok (s', out) -> reshapes i = false -> guarded (payers s i) (s_tok s) (s_tok s').
Proof. exact (exec_guarded e s i s' out). Qed.
Print Assumptions C47_tokens_guarded.
Theorem C47_only_own_reshaped e s i s' out : exec e s i = Ok (s', out) -> reshapes i = true ->
  forall v, s_tok s' v <> s_tok s v -> match s_tok s v with Some x => t_owner x = signer_of i | None => True end.
Proof. exact (exec_reshapes e s i s' out). Qed.
Print Assumptions C47_only_own_reshaped.

Example C47_case : reachable sample4 /\
  err_of (exec (at_time 170 None) sample4 (IDeposit 2 102 31 32 5 5)) = Some TokenError /\
  succeeds (at_time 170 None) sample4 (IDeposit 2 103 21 22 5 5) = true /\
  amounts_of (after (at_time 170 None) sample4 (IDeposit 2 103 21 22 5 5)) [21; 22; 31; 32] =
    map Some [999998495; 999999995; 1000000000; 999936329].
Proof. split; [exact sample4_reachable|]. vm_compute. auto. Qed.
