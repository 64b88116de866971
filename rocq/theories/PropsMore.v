(** Properties C36, C37 and C38: editing orders, self trades and the fee counters.  The full
    statements are false for the code; each comes with what does hold.  Vocabulary:
    SpecMore.v. *)
From Coq Require Import ZArith List Bool Lia Permutation.
From Verif Require Import Base Nodes OrderTree BookSide Heap Market OpenOrders Order Book Instructions
  SpecBook SpecFees SpecOrder SpecLedger SpecEvents SpecSystem SpecControl SpecMore FeeGap MoreFacts Samples.
Import ListNotations.
Open Scope Z_scope.

(** C36, finding: user 1 edits their unfilled ask, naming its size correctly.  The replacement
    could be placed, yet the edit only cancels: it reports no order and leaves none. *)
Definition edited_args : place_args := mkPlaceArgs Ask 106 20 1000000 9 POLimit 0 DecrementTake 10.
Theorem C36_edit_replaces_refuted : exists e s x cid n g t l s',
  reachable s /\ In (t, l) (orders (s_w s) Ask) /\ lf_owner l = px_acct x /\ lf_client_id l = cid /\ lf_qty l = n /\
  (exists s1 id, exec e s (IPlaceOrder x g) = Ok (s1, OIds [Some id])) /\
  exec e s (IEditOrder x cid n g) = Ok (s', OIds [None]) /\
  forall t' l', In (t', l') (orders (s_w s') Ask) -> lf_client_id l' <> cid /\ lf_client_id l' <> pa_client_id g.
Proof.
  exists (at_time 110 (Some 100)), sample1, (place_by 1 Ask []), 1, 20, edited_args, Fixed,
    (mkLeaf 0 0 1936908127739502919681 101 20 100 (-1) 1),
    (after (at_time 110 (Some 100)) sample1 (IEditOrder (place_by 1 Ask []) 1 20 edited_args)).
  split; [exact sample1_reachable|]. split; [vm_compute; auto|]. do 3 (split; [reflexivity|]).
  split; [exists (after (at_time 110 (Some 100)) sample1 (IPlaceOrder (place_by 1 Ask []) edited_args)), 1955354871813212471302; vm_compute; reflexivity|].
  split; [vm_compute; reflexivity|].
  assert (E : map (fun x => lf_client_id (snd x)) (orders (s_w (after (at_time 110 (Some 100)) sample1 (IEditOrder (place_by 1 Ask []) 1 20 edited_args))) Ask) = [2; 3])
    by (vm_compute; reflexivity).
  intros t' l' Hl. apply (in_map (fun x => lf_client_id (snd x))) in Hl. rewrite E in Hl. cbn [snd] in Hl.
  change (pa_client_id edited_args) with 9. destruct Hl as [<- | [<- | []]]; split; discriminate.
Qed.
Print Assumptions C36_edit_replaces_refuted.

(** C36, what holds: an edit is a cancellation by client id, followed by the placement of the
    new order, reduced by the lots already traded, if and only if some were and it is larger;
    nothing at all happens only if the new order's expiry has passed. *)
Theorem C36_edit_partial e s x cid n g s' out : exec e s (IEditOrder x cid n g) = Ok (s', out) ->
  edited e s x cid n (pa_max_base g) (pa_expiry g) (fun b => IPlaceOrder x (resize g b)) s' out.
Proof. exact (edit_done e s x cid n g s' out). Qed.
Print Assumptions C36_edit_partial.
Theorem C36_edit_pegged_partial e s x cid n g s' out : exec e s (IEditPegged x cid n g) = Ok (s', out) ->
  edited e s x cid n (ga_max_base g) (ga_expiry g) (fun b => IPlacePegged x (resize_peg g b)) s' out.
Proof. exact (edit_peg_done e s x cid n g s' out). Qed.
Print Assumptions C36_edit_pegged_partial.

(** User 1 believes 25 lots were resting where 20 are: five count as traded. *)
Example C36_case :
  let g := mkPlaceArgs Ask 106 25 1000000 9 POLimit 0 DecrementTake 10 in
  let s' := after (at_time 110 (Some 100)) sample1 (IEditOrder (place_by 1 Ask []) 1 25 g) in
  reachable sample1 /\ succeeds (at_time 110 (Some 100)) sample1 (IEditOrder (place_by 1 Ask []) 1 25 g) = true /\
  map (fun x => (lf_client_id (snd x), lf_qty (snd x))) (orders (s_w s') Ask) = [(9, 20); (2, 30); (3, 15)].
Proof. split; [exact sample1_reachable|]. vm_compute. auto. Qed.

(** C37, finding: only user 1 acts, trading with their own bid and settling; nothing of theirs
    is left in the market, and they have lost 8 of the quote token. *)
Definition alone : list (env * instr) :=
  [(at_time 100 None, limit_order 1 Bid 95 40 1); (at_time 101 None, limit_order 1 Ask 95 40 2);
   (at_time 102 None, IConsume 0 8 [101]); (at_time 103 None, ISettle 1 101 11 12 None)].
Definition alone_start : res sys := run (sample_market 10 100 200 400) (open_accounts 10).
Theorem C37_self_trades_free_refuted : exists s s',
  reachable s /\ reachable s' /\ calls s alone s' /\
  orders (s_w s') Bid = [] /\ orders (s_w s') Ask = [] /\ waiting (s_w s') = [] /\
  balances s' = [(103, (0, 0, 0, 0, 0)); (102, (0, 0, 0, 0, 0)); (101, (0, 0, 0, 0, 0))] /\
  amounts_of s [11; 12] = [Some 1000000000; Some 1000000000] /\
  amounts_of s' [11; 12] = [Some 1000000000; Some 999999992].
Proof.
  assert (H0 : reachable (the_sys alone_start)) by (unfold alone_start, sample_market; apply sample_reachable; vm_compute; reflexivity).
  exists (the_sys alone_start), (the_sys (run alone_start alone)). split; [exact H0|].
  split; [apply extend_reachable; [exact H0|vm_compute; reflexivity]|].
  split.
  - apply (cs_more _ _ _ (after (at_time 100 None) (the_sys alone_start) (limit_order 1 Bid 95 40 1)) (OIds [Some 1770887431076116955134])); [vm_compute; reflexivity|].
    apply (cs_more _ _ _ (the_sys (run alone_start (firstn 2 alone))) (OIds [None])); [vm_compute; reflexivity|].
    apply (cs_more _ _ _ (the_sys (run alone_start (firstn 3 alone))) ONone); [vm_compute; reflexivity|].
    apply (cs_more _ _ _ (the_sys (run alone_start alone)) ONone); [vm_compute; reflexivity|]. constructor.
  - vm_compute. auto 10.
Qed.
Print Assumptions C37_self_trades_free_refuted.

(** C37, what holds (with C16 and C19 for the taker's side): a self trade moves no fee and no
    rebate; the maker's side gives up exactly what the taker's side gets and vice versa,
    counting the fees still locked.  Missing: for a bid at a fixed price the locked fees stay
    locked and go to the referrer or the fee admin at a settlement without bids. *)
Theorem C37_self_fill_partial e s admin f slot : reachable s -> s_closed s = false ->
  admin = c_consume_events_admin (m_cfg (w_mkt (s_w s))) ->
  In (EFill f, slot) (queue_of (s_w s)) -> fe_maker f = fe_taker f ->
  exists s' a a', exec e s (IConsumeGiven admin [slot] [fe_maker f]) = Ok (s', ONone) /\
    acct_get (fe_maker f) (w_accts (s_w s)) = Some a /\ acct_get (fe_maker f) (w_accts (s_w s')) = Some a' /\
    (forall k, k <> fe_maker f -> acct_get k (w_accts (s_w s')) = acct_get k (w_accts (s_w s))) /\
    let m := w_mkt (s_w s) in let p := a_pos a in let p' := a_pos a' in
    m_fees_accrued (w_mkt (s_w s')) = m_fees_accrued m /\ m_rebates_accrued (w_mkt (s_w s')) = m_rebates_accrued m /\
    m_fees_available (w_mkt (s_w s')) = m_fees_available m /\ p_rebates p' = p_rebates p /\
    match fill_side f with
    | Bid => base_worth m p' = base_worth m p + fe_qty f * bls m /\ quote_worth m p' = quote_worth m p - fill_quote m f /\
             (fe_peg_limit f = -1 -> p_quote_free p' = p_quote_free p /\ p_locked_fees p' = p_locked_fees p)
    | Ask => base_worth m p' = base_worth m p - fe_qty f * bls m /\ quote_worth m p' = quote_worth m p + fill_quote m f
    end.
Proof. exact (self_fill e s admin f slot). Qed.
Print Assumptions C37_self_fill_partial.

Definition self_traded : sys := the_sys (run alone_start (firstn 2 alone)).
Example C37_case : reachable self_traded /\ s_closed self_traded = false /\
  map (fun x => match fst x with EFill f => (fe_maker f, fe_taker f, fe_qty f, fe_price f) | EOut _ => (0, 0, 0, 0) end)
    (queue_of (s_w self_traded)) = [(101, 101, 40, 95)].
Proof.
  split; [|vm_compute; auto]. apply extend_reachable; [|vm_compute; reflexivity].
  unfold alone_start, sample_market. apply sample_reachable. vm_compute. reflexivity.
Qed.

(** C38, finding: user 3 takes 10 lots at 105 directly.  The fee of 5 goes on record, but user
    3 pays exactly the price, and nobody can ever get the 5. *)
Definition direct_take : instr := IPlaceTake (mkTakeCtx 3 0 31 32 []) (mkTakeArgs Bid 105 10 1000000 POMarket 10).
(** Runs without direct take orders, with the totals swept and left over. *)
Fixpoint fee_run (s : sys) (sw lf : Z) (l : list (env * instr)) : option (Z * Z) :=
  match l with
  | [] => Some (sw, lf)
  | (e, i) :: l' =>
      match exec e s i with
      | Ok (s', _) => if is_take i then None else fee_run s' (sw + swept_by i s) (lf + left_by i s) l'
      | Err _ => None
      end
  end.
Lemma fee_run_history l : forall s sw lf sw' lf' s', fee_history s sw lf -> fee_run s sw lf l = Some (sw', lf') ->
  run (Ok s) l = Ok s' -> fee_history s' sw' lf'.
Proof.
  induction l as [|[e i] l IH]; intros s sw lf sw' lf' s' Hh Hf H; cbn [fee_run run] in *.
  - injection Hf as <- <-. injection H as <-. exact Hh.
  - cbn [bind] in H. destruct (exec e s i) as [[s2 out]|] eqn:E; [|discriminate Hf]. cbn [bind fst] in H.
    destruct (is_take i) eqn:Et; [discriminate Hf|]. exact (IH _ _ _ _ _ _ (fh_step _ _ _ _ _ _ _ Hh Et E) Hf H).
Qed.
Lemma sample_history now t c te l sw lf : is_ok (run (create_market_ix now t c te) l) = true ->
  fee_run (the_sys (create_market_ix now t c te)) 0 0 l = Some (sw, lf) ->
  fee_history (the_sys (run (create_market_ix now t c te) l)) sw lf.
Proof.
  intros H Hf. destruct (create_market_ix now t c te) as [s|] eqn:E0.
  - cbn [the_sys] in Hf. destruct (run (Ok s) l) as [s'|] eqn:E; [|discriminate H].
    cbn [the_sys]. exact (fee_run_history _ _ _ _ _ _ _ (fh_create _ _ _ _ _ E0) Hf E).
  - destruct l as [|[e0 i] l]; discriminate H.
Qed.
Lemma sample1_history : fee_history sample1 0 0.
Proof. unfold sample1, sample1_run, sample_market. apply sample_history; vm_compute; reflexivity. Qed.
Definition traded : list (env * instr) :=
  open_accounts 10 ++
  [(at_time 100 (Some 100), limit_order 1 Ask 105 20 1); (at_time 101 (Some 100), limit_order 2 Bid 105 33 2);
   (at_time 102 (Some 100), limit_order 3 Ask 105 6 3); (at_time 103 (Some 100), limit_order 2 Ask 105 5 4);
   (at_time 104 None, IConsume 0 8 [101; 102]);
   (at_time 105 None, ICancelAll 2 102 None 8);
   (at_time 106 None, ISettle 1 101 11 12 (Some 32)); (at_time 107 None, ISettle 2 102 21 22 None);
   (at_time 108 None, ISweep 70 12); (at_time 109 None, limit_order 3 Bid 104 7 5)].
Definition traded_end : sys := the_sys (run (sample_market 10 100 20000 40000) traded).

Theorem C38_fees_collected_refuted : exists e s i s' out,
  fee_history s 0 0 /\ m_fees_accrued (w_mkt (s_w s)) = 0 /\ exec e s i = Ok (s', out) /\
  m_fees_accrued (w_mkt (s_w s')) = 5 /\ put_aside (w_mkt (s_w s')) = 0 /\
  amounts_of s [31; 32] = [Some 1000000000; Some 1000000000] /\
  amounts_of s' [31; 32] = [Some (1000000000 + 10 * 100); Some (1000000000 - 10 * 105 * 10)].
Proof.
  exists (at_time 110 (Some 100)), sample1, direct_take, (after (at_time 110 (Some 100)) sample1 direct_take), ONone.
  split; [exact sample1_history|]. vm_compute. auto 10.
Qed.
Print Assumptions C38_fees_collected_refuted.

(** C38, what holds: without direct take orders, the fees on record and the left-over locked
    fees are exactly the fees put aside for somebody and those swept; a direct take order can
    only put too much on record. *)
Theorem C38_fees_collected_partial s swept left : fee_history s swept left ->
  m_fees_accrued (w_mkt (s_w s)) + left = put_aside (w_mkt (s_w s)) + swept.
Proof. exact (fees_balance s swept left). Qed.
Print Assumptions C38_fees_collected_partial.
Theorem C38_take_partial e s x g s' out : reachable s -> exec e s (IPlaceTake x g) = Ok (s', out) ->
  m_fees_accrued (w_mkt (s_w s)) - put_aside (w_mkt (s_w s)) <= m_fees_accrued (w_mkt (s_w s')) - put_aside (w_mkt (s_w s')).
Proof. exact (take_gap e s x g s' out). Qed.
Print Assumptions C38_take_partial.

(** Fees for the referrer, fees swept, a self trade's left-over, and rebates still to come. *)
Example C38_case : exists sw lf, fee_history traded_end sw lf /\
  sw = 1071 /\ lf = 105 /\
  let m := w_mkt (s_w traded_end) in
  (m_fees_accrued m, m_rebates_accrued m, m_fees_to_referrers m, m_fees_available m) = (1638, 252, 420, 0).
Proof.
  do 2 eexists. split; [unfold traded_end, sample_market; apply sample_history; vm_compute; reflexivity|].
  vm_compute. auto.
Qed.
