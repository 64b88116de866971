(** C67, C68: what is paid in SOL for events left in the queue, and what becomes of the accounts
    of a closed market. *)
From Coq Require Import ZArith List Bool.
From Verif Require Import Base Nodes OrderTree BookSide Heap Market OpenOrders Order Book Instructions
  SpecBook SpecSystem SpecControl Sol SpecSol SolFacts SolProofs Samples.
Import ListNotations.
Open Scope Z_scope.

(** C67: over any history of a market - calls by anyone, in any number, and gifts of SOL - the
    SOL that came into the market account, less the gifts, and what the accounts have not paid
    yet are together exactly 500 lamports for each call that sent orders and left more events
    waiting than there were.  No call is charged twice, and no such call goes uncharged. *)
Theorem C67_penalties_add_up market s l n g s' l' : reachable s -> history market s l n g s' l' ->
  l' market + 500 * unpaid (s_w s') = l market + 500 * unpaid (s_w s) + 500 * n + g.
Proof. exact (penalties_add_up market s l n g s' l'). Qed.
Print Assumptions C67_penalties_add_up.

(** C67: an account's unpaid penalties grow by one when orders sent for it leave more events
    waiting than there were, go to zero when it is settled, and otherwise stay as they are,
    whatever anyone else does. *)
Theorem C67_counters e s i s' out k : reachable s -> exec e s i = Ok (s', out) ->
  unpaid_by k (s_w s') =
    match orders_for i, settled_by i with
    | Some j, _ => unpaid_by k (s_w s) + (if k =? j then litters s i s' else 0)
    | None, Some j => if k =? j then 0 else unpaid_by k (s_w s)
    | None, None => unpaid_by k (s_w s)
    end.
Proof. exact (counters e s i s' out k). Qed.
Print Assumptions C67_counters.

(** C67: a call moves SOL only from the payer it names to the market account: 500 lamports for
    an order sent without an account that leaves more events waiting, 500 for each unpaid
    penalty of an account that is settled, and nothing otherwise. *)
Theorem C67_who_pays e market s l payer dest i s' l' out : reachable s ->
  exec_sol e market s l payer dest i = Ok (s', l', out) -> closes_market i = false ->
  l' market = l market + 500 * penalties_paid s i s' /\
  (payer <> market -> l' payer = l payer - 500 * penalties_paid s i s') /\
  (forall x, x <> market -> x <> payer -> l' x = l x) /\
  (0 < penalties_paid s i s' -> payer <> market /\ 500 * penalties_paid s i s' <= l payer).
Proof. exact (call_paid e market s l payer dest i s' l' out). Qed.
Print Assumptions C67_who_pays.

(** C67: having the SOL for the penalties is all that is needed beyond what the call needs
    anyway. *)
Theorem C67_enough e market s l payer dest i s' out : reachable s -> exec e s i = Ok (s', out) ->
  closes_market i = false -> payer <> market -> 500 * penalties_paid s i s' <= l payer ->
  l market + 500 * penalties_paid s i s' <= u64_max ->
  exists l', exec_sol e market s l payer dest i = Ok (s', l', out).
Proof. exact (enough_sol e market s l payer dest i s' out). Qed.
Print Assumptions C67_enough.

(** C67: the SOL collected leaves the market account only when the market is closed, by its
    closing admin, and then all of it goes where the admin says. *)
Theorem C67_closing e market s l payer dest u s' l' out : reachable s ->
  exec_sol e market s l payer dest (ICloseMarket u) = Ok (s', l', out) ->
  u = c_close_market_admin (m_cfg (w_mkt (s_w s))) /\ u <> 0 /\ dest <> market /\
  l' market = 0 /\ l' dest = l dest + l market /\ forall x, x <> market -> x <> dest -> l' x = l x.
Proof. exact (closing_all e market s l payer dest u s' l' out). Qed.
Print Assumptions C67_closing.

(** User 3 takes from the book directly and leaves events behind: 500 lamports at once.  User
    2 does the same with an order for an account: 500 lamports when the account is settled. *)
Definition purse (k : Z) : lamports := fun x => if x =? 40 then 7 else if x =? k then 10000 else 0.
Definition taking : instr := IPlaceTake (mkTakeCtx 3 0 31 32 []) (mkTakeArgs Bid 120 5 1000000 POImmediateOrCancel 10).
Definition sol_of (r : res (sys * lamports * output)) (k : Z) : option (Z * Z) :=
  match r with Ok (_, l, _) => Some (l 40, l k) | Err _ => None end.
Definition littered : sys := after (at_time 160 (Some 100)) sample1 (limit_order 2 Bid 105 5 9).
Example C67_case : reachable sample1 /\ reachable littered /\
  sol_of (exec_sol (at_time 160 (Some 100)) 40 sample1 (purse 9) 9 0 taking) 9 = Some (507, 9500) /\
  sol_of (exec_sol (at_time 160 (Some 100)) 40 sample1 (purse 9) 8 0 taking) 9 = None /\
  sol_of (exec_sol (at_time 160 (Some 100)) 40 sample1 (purse 9) 9 0 (limit_order 2 Bid 105 5 9)) 9 = Some (7, 10000) /\
  unpaid_by 102 (s_w littered) = 1 /\ unpaid (s_w littered) = 1 /\
  litters sample1 (limit_order 2 Bid 105 5 9) littered = 1 /\
  sol_of (exec_sol (at_time 161 (Some 100)) 40 littered (purse 9) 9 0 (ISettle 2 102 21 22 None)) 9 = Some (507, 9500).
Proof.
  assert (R : reachable littered).
  { unfold littered. destruct (succeeds_after (at_time 160 (Some 100)) sample1 (limit_order 2 Bid 105 5 9)) as (out & E); [vm_compute; reflexivity|].
    exact (reach_step _ _ _ _ _ sample1_reachable E). }
  split; [exact sample1_reachable|]. split; [exact R|]. repeat match goal with |- _ /\ _ => split end; vm_compute; reflexivity.
Qed.

(** C68: when a market has been closed, the owner of an account can close it exactly if its
    penalties are paid.  (The full claim, that every account can still be closed, is false:
    [C68_refuted].) *)
Theorem C68_closing_partial e s k a : reachable s -> s_closed s = true -> acct_get k (w_accts (s_w s)) = Some a ->
  (exists s' out, exec e s (ICloseAccount (a_owner a) k) = Ok (s', out)) <-> p_penalty (a_pos a) = 0.
Proof. exact (closes_if_paid e s k a). Qed.
Print Assumptions C68_closing_partial.

(** C68: an account of a closed market with an unpaid penalty holds nothing and can never be
    closed by anyone, whatever happens afterwards. *)
Theorem C68_stuck s ids s' e u k : reachable s -> s_closed s = true -> 0 < unpaid_by k (s_w s) -> executed s ids s' ->
  (exists a, acct_get k (w_accts (s_w s')) = Some a /\ empty_handed a) /\
  (forall s2 out, exec e s' (ICloseAccount u k) <> Ok (s2, out)).
Proof. exact (stuck_forever s ids s' e u k). Qed.
Print Assumptions C68_stuck.

(** User 1's ask expires.  User 2's bid drops it from the book and trades nothing; then the
    market is wound down and closed. *)
Definition left_behind_run : res sys :=
  run (sample_market 10 100 200 400)
    (open_accounts 10 ++
     [(at_time 100 (Some 100), limit_until 1 Ask 105 20 1 150);
      (at_time 160 (Some 100), IPlaceOrder (place_by 2 Bid []) (mkPlaceArgs Bid 105 5 1000000 2 POImmediateOrCancel 0 DecrementTake 10));
      (at_time 161 (Some 100), IConsume 0 8 [101]);
      (at_time 162 (Some 100), ISettle 1 101 11 12 None);
      (at_time 163 (Some 100), ISetExpired 71);
      (at_time 164 (Some 100), ICloseMarket 71)]).
Definition left_behind : sys := the_sys left_behind_run.
Lemma left_behind_reachable : reachable left_behind.
Proof. unfold left_behind, left_behind_run, sample_market. apply sample_reachable. vm_compute. reflexivity. Qed.
Theorem C68_refuted : exists s k a, reachable s /\ s_closed s = true /\ acct_get k (w_accts (s_w s)) = Some a /\
  forall e s' out, exec e s (ICloseAccount (a_owner a) k) <> Ok (s', out).
Proof.
  destruct (acct_get 102 (w_accts (s_w left_behind))) as [a|] eqn:A; [|exfalso; vm_compute in A; discriminate A].
  exists left_behind, 102, a. split; [exact left_behind_reachable|]. split; [vm_compute; reflexivity|]. split; [exact A|].
  intros e. exact (proj2 (C68_stuck left_behind [] left_behind e (a_owner a) 102 left_behind_reachable eq_refl eq_refl (ex_none _))).
Qed.
Print Assumptions C68_refuted.

Example C68_case : reachable left_behind /\ s_closed left_behind = true /\ unpaid_by 102 (s_w left_behind) = 1 /\
  succeeds (at_time 165 None) left_behind (ICloseAccount 2 102) = false /\
  succeeds (at_time 165 None) left_behind (ICloseAccount 1 101) = true.
Proof. split; [exact left_behind_reachable|]. repeat match goal with |- _ /\ _ => split end; vm_compute; reflexivity. Qed.
