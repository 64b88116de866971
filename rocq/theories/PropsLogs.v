(** Properties C63 to C65: the events the program emits.
    Vocabulary: SpecLogs.v (and SpecControl.v, SpecTrade.v for token movements). *)
From Coq Require Import ZArith List Bool Lia Permutation.
From Verif Require Import Base Nodes OrderTree BookSide Heap Market OpenOrders Order Book Instructions Logs
  SpecBook SpecFees SpecOrder SpecLedger SpecEvents SpecSystem SpecControl SpecTrade SpecLogs LogProofs LogMoney Samples LogSamples.
Import ListNotations.
Open Scope Z_scope.

(** ** C63: matches *)
(** Since the market was created: the takers' announcements are exactly one per fill, reported or
    waiting; whichever takers are picked, the order summaries add up to the base and quote of
    their fills; the market's maker volume is that of the reported fills, its fee counter is what
    the summaries and reports say; and the fees a report names are those of its fill. *)
Theorem C63_every_match_reported s L : emitted s L ->
  let m := w_mkt (s_w s) in
  Permutation (log_seqs L) (map fl_seq (all_fills s L)) /\
  (forall sel, total_base sel L = log_sum (of_taker sel (fun f => fl_qty f * bls m)) (all_fills s L)) /\
  (forall sel, total_quote sel L = log_sum (of_taker sel (log_quote m)) (all_fills s L)) /\
  m_maker_volume m = log_sum (log_quote m) (log_fills L) /\
  m_fees_accrued m = total_fees anyone L + log_sum fl_maker_fee (log_fills L) - log_sum (log_rebate m) (all_fills s L) /\
  Forall (log_true m) (log_fills L).
Proof. exact (every_match s L). Qed.
Print Assumptions C63_every_match_reported.

(** An account's volumes grow by exactly what the events say about it. *)
Theorem C63_account_volumes s l L s' k a : emits s l L s' -> reachable s -> (forall u, ~ In (ICloseAccount u k) l) ->
  acct_get k (w_accts (s_w s)) = Some a ->
  exists a', acct_get k (w_accts (s_w s')) = Some a' /\
    p_maker_volume (a_pos a') = p_maker_volume (a_pos a) + log_sum (of_maker k (log_quote (w_mkt (s_w s)))) (log_fills L) /\
    p_taker_volume (a_pos a') = p_taker_volume (a_pos a) + total_quote (Z.eqb k) L.
Proof. exact (account_volumes s l L s' k a). Qed.
Print Assumptions C63_account_volumes.

(** A call that places one order: each of its fills is announced, and reported or queued; and if
    there is any, one summary names taker and side, the base and quote of these fills, and the fee
    on that quote. *)
Theorem C63_order e s i s' out sd taker : reachable s -> exec e s i = Ok (s', out) -> order_by i = Some (sd, taker) ->
  exists F, order_report (s_w s) sd taker (exec_logs e s i) F (s_w s').
Proof. exact (exec_report e s i s' out sd taker). Qed.
Print Assumptions C63_order.

(** Consuming reports the fills it delivers, each once, in order, followed by the maker's position
    as it then is; nothing else. *)
Theorem C63_consumed e s i s' out : reachable s -> is_consume i = true -> exec e s i = Ok (s', out) ->
  exists done, consumes s done s' /\ incl done (queue_of (s_w s)) /\ NoDup (map snd done) /\
    exec_logs e s i = delivery_logs (s_w s) (map fst done).
Proof. exact (consume_reported e s i s' out). Qed.
Print Assumptions C63_consumed.

(** Two fills of one order, one reported and one waiting; the waiting one is reported when it is
    consumed. *)
Example C63_case :
  emitted two_fills_sys two_fills_logs /\
  log_seqs two_fills_logs = [3; 3] /\
  map (fun f => (fl_maker f, fl_price f, fl_qty f, fl_maker_fee f)) (log_fills two_fills_logs) = [(101, 105, 20, 4)] /\
  map (fun f => (fl_maker f, fl_price f, fl_qty f)) (all_fills two_fills_sys two_fills_logs) = [(101, 105, 20); (102, 106, 10)] /\
  log_totals two_fills_logs = [LTotal Bid 103 31613 3000 13] /\
  m_maker_volume (w_mkt (s_w two_fills_sys)) = 21000 /\ m_fees_accrued (w_mkt (s_w two_fills_sys)) = 17 /\
  map (fun f => (fl_maker f, fl_price f, fl_qty f))
    (log_fills (exec_logs (at_time 103 (Some 100)) two_fills_sys (IConsume 0 5 [102]))) = [(102, 106, 10)] /\
  succeeds (at_time 103 (Some 100)) two_fills_sys (IConsume 0 5 [102]) = true.
Proof. split; [exact two_fills_emitted|]. repeat split; vm_compute; reflexivity. Qed.

(** ** C64: money *)
(** A deposit event gives the tokens that moved; there is none exactly if none moved. *)
Theorem C64_deposit e s i s' out : reachable s -> exec e s i = Ok (s', out) ->
  match i with
  | IDeposit u k ub uq _ _ | IRefill u k ub uq _ _ =>
      exists a b q, acct_get k (w_accts (s_w s)) = Some a /\ deposited s k ub uq b q a s' /\
        exec_logs e s i = if (b =? 0) && (q =? 0) then [] else [LDeposit k u b q]
  | _ => True
  end.
Proof. exact (deposit_report e s i s' out). Qed.
Print Assumptions C64_deposit.

(** A settlement event gives what was paid out, and what went to the referrer or the market. *)
Theorem C64_settle e s i k ub uq ref s' out : reachable s -> exec e s i = Ok (s', out) -> settles i k ub uq ref ->
  exists b q r, exec_logs e s i = [LSettle k b q r ref] /\
    let c := m_cfg (w_mkt (s_w s)) in
    transferred ((b, c_base_vault c, ub) :: (q, c_quote_vault c, uq) ::
      match ref with Some rf => [(r, c_quote_vault c, rf)] | None => [] end) (s_tok s) (s_tok s') /\
    m_fees_available (w_mkt (s_w s')) = m_fees_available (w_mkt (s_w s)) + match ref with Some _ => 0 | None => r end.
Proof. exact (settle_report e s i k ub uq ref s' out). Qed.
Print Assumptions C64_settle.

(** A sweep event gives the fees that left. *)
Theorem C64_sweep e s u dest s' out : reachable s -> exec e s (ISweep u dest) = Ok (s', out) ->
  exists n, exec_logs e s (ISweep u dest) = [LSweep n dest] /\
    transferred [(n, c_quote_vault (m_cfg (w_mkt (s_w s))), dest)] (s_tok s) (s_tok s') /\
    m_fees_available (w_mkt (s_w s')) = m_fees_available (w_mkt (s_w s)) - n.
Proof. exact (sweep_report e s u dest s' out). Qed.
Print Assumptions C64_sweep.

(** A delegate event names the delegate the account has from then on. *)
Theorem C64_delegate e s u k d s' out : exec e s (ISetDelegate u k d) = Ok (s', out) ->
  exec_logs e s (ISetDelegate u k d) = [LDelegate k d] /\ exists a, acct_get k (w_accts (s_w s')) = Some a /\ a_delegate a = d.
Proof. exact (delegate_report e s u k d s' out). Qed.
Print Assumptions C64_delegate.

(** Events of a deposit, a top-up that finds enough and one that does not, a settlement with and
    without referrer, and of setting a delegate. *)
Example C64_case :
  let e := at_time 103 (Some 100) in
  let paid := after e two_fills_sys (ISettle 3 103 31 32 (Some 12)) in
  exec_logs e before_sys (IDeposit 3 103 31 32 500 7) = [LDeposit 103 3 500 7] /\
  exec_logs e two_fills_sys (IRefill 3 103 31 32 3000 0) = [] /\
  exec_logs e two_fills_sys (IRefill 3 103 31 32 3200 50) = [LDeposit 103 3 200 50] /\
  forallb (fun i => succeeds e two_fills_sys i)
    [IRefill 3 103 31 32 3000 0; IRefill 3 103 31 32 3200 50; ISettle 3 103 31 32 (Some 12); ISettle 3 103 31 32 None; ISetDelegate 3 103 9] = true /\
  exec_logs e two_fills_sys (ISettle 3 103 31 32 (Some 12)) = [LSettle 103 3000 0 13 (Some 12)] /\
  (in_wallet paid 31 - in_wallet two_fills_sys 31, in_wallet paid 12 - in_wallet two_fills_sys 12) = (3000, 13) /\
  exec_logs e two_fills_sys (ISettle 3 103 31 32 None) = [LSettle 103 3000 0 13 None] /\
  exec_logs e two_fills_sys (ISetDelegate 3 103 9) = [LDelegate 103 9].
Proof. repeat split; vm_compute; reflexivity. Qed.

(** ** C65: what events state about fees and positions *)
(** The taker fees named by the reports of single fills bound the fees in the summaries: never
    below, and above by at most one unit per fill.  The full claim is that they agree. *)
Theorem C65_taker_fees_partial s L sel : emitted s L ->
  total_fees sel L <= log_sum (of_taker sel fl_taker_fee) (all_fills s L) <=
    total_fees sel L + log_sum (of_taker sel (fun _ => 1)) (all_fills s L).
Proof. exact (fees_stated s L sel). Qed.
Print Assumptions C65_taker_fees_partial.
Theorem C65_taker_fees_refuted : exists s L, emitted s L /\
  log_sum (of_taker (Z.eqb 103) fl_taker_fee) (all_fills s L) <> total_fees (Z.eqb 103) L.
Proof. exists two_fills_sys, two_fills_logs. split; [exact two_fills_emitted|]. vm_compute. discriminate. Qed.
Print Assumptions C65_taker_fees_refuted.

(** The last position event of an account in a call need not be its position after the call: the
    taker's comes before what is left of the order is posted. *)
Definition last_position (L : list log) (owner num : Z) : option pos_log :=
  fold_left (fun acc l => match l with LPosition p => if (pl_owner p =? owner) && (pl_num p =? num) then Some p else acc | _ => acc end) L None.
Theorem C65_positions_refuted : exists e s i s' out a p, reachable s /\ exec e s i = Ok (s', out) /\
  acct_get 103 (w_accts (s_w s')) = Some a /\ last_position (exec_logs e s i) (a_owner a) (a_num a) = Some p /\
  pl_bids_base p <> p_bids_base (a_pos a).
Proof.
  set (e := at_time 103 (Some 100)). set (i := IPlaceOrder the_bid (bid_args 40)).
  assert (H : match exec e before_sys i with
              | Ok (s', _) =>
                  match acct_get 103 (w_accts (s_w s')) with
                  | Some a => match last_position (exec_logs e before_sys i) (a_owner a) (a_num a) with
                              | Some p => negb (pl_bids_base p =? p_bids_base (a_pos a))
                              | None => false
                              end
                  | None => false
                  end
              | Err _ => false
              end = true) by (vm_compute; reflexivity).
  destruct (exec e before_sys i) as [[s' out]|] eqn:E; [|discriminate H].
  destruct (acct_get 103 (w_accts (s_w s'))) as [a|] eqn:Ea; [|discriminate H].
  destruct (last_position (exec_logs e before_sys i) (a_owner a) (a_num a)) as [p|] eqn:Ep; [|discriminate H].
  exists e, before_sys, i, s', out, a, p. split; [exact (emitted_reachable _ _ before_emitted)|]. split; [exact E|]. split; [exact Ea|]. split; [exact Ep|].
  intros F. rewrite F, Z.eqb_refl in H. discriminate H.
Qed.
Print Assumptions C65_positions_refuted.

(** The summary of a direct take order gives the base that moved.  The quote that moved is the
    quote traded and the makers' rebates, whereas the summary counts the whole taker fee.  The
    full claim is that the summary gives the quote that moved. *)
Theorem C65_direct_take_partial e s x g s' out : reachable s -> exec e s (IPlaceTake x g) = Ok (s', out) ->
  owns s (tx_signer x) (tx_user_base x) -> owns s (tx_signer x) (tx_user_quote x) ->
  exists F, order_report (s_w s) (ta_side g) (tx_signer x) (exec_logs e s (IPlaceTake x g)) F (s_w s') /\
    let m := w_mkt (s_w s) in
    in_wallet s' (tx_user_base x) - in_wallet s (tx_user_base x) =
      (match ta_side g with Bid => 1 | Ask => -1 end) * log_sum (fun f => fl_qty f * bls m) F /\
    in_wallet s' (tx_user_quote x) - in_wallet s (tx_user_quote x) =
      (match ta_side g with Bid => -1 | Ask => 1 end) * log_sum (log_quote m) F - log_sum (log_rebate m) F.
Proof. exact (take_wallets e s x g s' out). Qed.
Print Assumptions C65_direct_take_partial.

Definition direct_buy : instr := IPlaceTake (mkTakeCtx 3 0 31 32 []) (mkTakeArgs Bid 106 30 1000000 POImmediateOrCancel 10).
Theorem C65_direct_take_refuted : exists e s s' out paid received fees,
  reachable s /\ exec e s direct_buy = Ok (s', out) /\ owns s 3 31 /\ owns s 3 32 /\
  log_totals (exec_logs e s direct_buy) = [LTotal Bid 3 paid received fees] /\
  in_wallet s' 31 - in_wallet s 31 = received /\ in_wallet s 32 - in_wallet s' 32 < paid.
Proof.
  set (e := at_time 103 (Some 100)).
  assert (H : match exec e before_sys direct_buy with
              | Ok (s', _) => (in_wallet s' 31 - in_wallet before_sys 31 =? 3000) && (in_wallet before_sys 32 - in_wallet s' 32 =? 31600)
              | Err _ => false
              end = true) by (vm_compute; reflexivity).
  destruct (exec e before_sys direct_buy) as [[s' out]|] eqn:E; [|discriminate H]. apply andb_prop in H as [H1 H2]. apply Z.eqb_eq in H1, H2.
  exists e, before_sys, s', out, 31613, 3000, 13. split; [exact (emitted_reachable _ _ before_emitted)|]. split; [exact E|].
  split; [eexists; split; vm_compute; reflexivity|]. split; [eexists; split; vm_compute; reflexivity|]. split; [vm_compute; reflexivity|].
  split; [exact H1|]. rewrite H2. reflexivity.
Qed.
Print Assumptions C65_direct_take_refuted.

(** The order of [C63_case] paid a fee of 13; its fills are reported with fees of 9 and 5. *)
Example C65_case :
  emitted two_fills_sys two_fills_logs /\ total_fees (Z.eqb 103) two_fills_logs = 13 /\
  map fl_taker_fee (all_fills two_fills_sys two_fills_logs) = [9; 5] /\
  succeeds (at_time 103 (Some 100)) before_sys direct_buy = true.
Proof. split; [exact two_fills_emitted|]. repeat split; vm_compute; reflexivity. Qed.
