(** C86: keeping a market running and winding it down through the TypeScript client.
    Model: TsKeep.v ([keep_send]: a transaction with the signatures given).  The default key is
    written 0; nobody can sign for it. *)
From Coq Require Import ZArith List Bool Lia.
From Verif Require Import Base Nodes OrderTree BookSide Heap Market OpenOrders Order Book Instructions
  SpecBook SpecFees SpecOrder SpecLedger SpecEvents SpecSystem SpecControl SpecLive SpecWind LiveIx Samples TsKeep TsKeepFacts.
Import ListNotations.
Open Scope Z_scope.

(** C86: on a market without an admin for events, anybody can consume events through the
    client, and on one with such an admin the admin can.  The first [limit] events (at most 8)
    whose accounts are passed are applied. *)
Theorem C86_consume sigs e s limit rem : reachable s -> s_closed s = false -> 0 <= limit < 2 ^ 64 ->
  c_consume_events_admin (m_cfg (w_mkt (s_w s))) = 0 \/ In (c_consume_events_admin (m_cfg (w_mkt (s_w s)))) sigs ->
  exists s', keep_send sigs e s (ts_consume (w_mkt (s_w s)) limit rem) = Ok (s', ONone) /\
    consumes s (filter (present rem) (firstn (Z.to_nat (Z.min limit 8)) (queue_of (s_w s)))) s'.
Proof. exact (keep_consume sigs e s limit rem). Qed.
Print Assumptions C86_consume.

(** C86: consuming given events works through the client for the admin.  Missing: markets
    without an admin, see [C86_given_never]. *)
Theorem C86_given_partial sigs e s slots rem : reachable s -> s_closed s = false -> Forall (fun z => 0 <= z < 600) slots ->
  In (c_consume_events_admin (m_cfg (w_mkt (s_w s)))) sigs ->
  exists s', keep_send sigs e s (ts_consume_given (w_mkt (s_w s)) slots rem) = Ok (s', ONone) /\
    consumes s (filter (present rem) (looked_at (queue_of (s_w s)) slots (Nat.min (length slots) 8))) s'.
Proof. exact (keep_given sigs e s slots rem). Qed.
Print Assumptions C86_given_partial.

(** C86: on a market without an admin for events, where anybody may consume given events, the
    client asks for a signature of the default key: nobody can do so through it. *)
Theorem C86_given_never sigs e s slots rem : c_consume_events_admin (m_cfg (w_mkt (s_w s))) = 0 -> ~ In 0 sigs ->
  keep_send sigs e s (ts_consume_given (w_mkt (s_w s)) slots rem) = Err Constraint.
Proof. exact (keep_given_never sigs e s slots rem). Qed.
Print Assumptions C86_given_never.

(** C86, refuted: a state in which the program lets anybody consume two waiting events and the
    client lets nobody. *)
Theorem C86_given_refuted : exists e s slots rem s', reachable s /\ s_closed s = false /\
  exec e s (IConsumeGiven 0 slots rem) = Ok (s', ONone) /\ length (waiting (s_w s)) = 3%nat /\ length (waiting (s_w s')) = 1%nat /\
  forall sigs, ~ In 0 sigs -> keep_send sigs e s (ts_consume_given (w_mkt (s_w s)) slots rem) = Err Constraint.
Proof.
  exists (at_time 170 None), sample4, [0; 2], [101], (after (at_time 170 None) sample4 (IConsumeGiven 0 [0; 2] [101])).
  split; [exact sample4_reachable|]. split; [vm_compute; reflexivity|]. split; [vm_compute; reflexivity|]. split; [vm_compute; reflexivity|].
  split; [vm_compute; reflexivity|]. intros sigs N. apply keep_given_never; [vm_compute; reflexivity|exact N].
Qed.
Print Assumptions C86_given_refuted.

(** C86: an owner deposits through the client what they can pay. *)
Theorem C86_deposit sigs e s k a ub uq b q : reachable s -> s_closed s = false -> ~ expired (e_now e) (w_mkt (s_w s)) ->
  acct_get k (w_accts (s_w s)) = Some a -> a_owner a <> c_authority (m_cfg (w_mkt (s_w s))) -> In (a_owner a) sigs -> u64 b -> u64 q ->
  affords (s_tok s) ub (a_owner a) (c_base_mint (m_cfg (w_mkt (s_w s)))) (c_base_vault (m_cfg (w_mkt (s_w s)))) 0 b ->
  affords (s_tok s) uq (a_owner a) (c_quote_mint (m_cfg (w_mkt (s_w s)))) (c_quote_vault (m_cfg (w_mkt (s_w s)))) 0 q ->
  exists s', keep_send sigs e s (ts_deposit k a ub uq b q) = Ok (s', ONone) /\ deposited s k ub uq b q a s'.
Proof. exact (keep_deposit sigs e s k a ub uq b q). Qed.
Print Assumptions C86_deposit.

(** C86: without the owner's signature nobody deposits into an account through the client,
    although the program takes deposits from anybody (C40). *)
Theorem C86_deposit_others sigs e s k a ub uq b q : ~ In (a_owner a) sigs -> keep_send sigs e s (ts_deposit k a ub uq b q) = Err Constraint.
Proof. exact (keep_deposit_others sigs e s k a ub uq b q). Qed.
Print Assumptions C86_deposit_others.

(** C86: the closing admin of an expired market takes an account's orders off the book through
    the client. *)
Theorem C86_prune sigs e s u k limit a : reachable s -> s_closed s = false ->
  acct_get k (w_accts (s_w s)) = Some a -> winds_down u (e_now e) (w_mkt (s_w s)) -> In u sigs -> 0 <= limit < 256 ->
  p_bids_base (a_pos a) + p_asks_base (a_pos a) < 2 ^ 63 ->
  exists s' gone, keep_send sigs e s (ts_prune (w_mkt (s_w s)) k limit) = Ok (s', ONone) /\ taken_off_all (s_w s) gone (s_w s') /\
    s_tok s' = s_tok s /\ Z.of_nat (length gone) <= limit /\
    (forall sd t l, In (sd, t, l) gone -> lf_owner l = k) /\
    (24 <= limit -> forall sd t l, In (t, l) (orders (s_w s') sd) -> lf_owner l <> k).
Proof. exact (keep_prune sigs e s u k limit a). Qed.
Print Assumptions C86_prune.

(** C86: whoever can close the market can do so through the client. *)
Theorem C86_close_market sigs e s u r : exec e s (ICloseMarket u) = Ok r -> reachable s -> In u sigs ->
  keep_send sigs e s (ts_close_market (w_mkt (s_w s))) = Ok r.
Proof. exact (keep_close sigs e s u r). Qed.
Print Assumptions C86_close_market.

(** A market with an admin for events (81), one fill waiting. *)
Definition kept_calls : list (env * instr) :=
  open_accounts 10 ++ [(at_time 100 None, limit_order 1 Ask 105 20 1); (at_time 101 None, limit_order 2 Bid 105 5 2)].
Definition kept_market : sys := the_sys (run (create_market_ix 5 start_tokens (mkCfg 10 100 200 400 40 50 70 0 81 71 0 0 61 62 51 52) 0) kept_calls).
Lemma kept_reachable : reachable kept_market.
Proof. unfold kept_market. apply sample_reachable. vm_compute. reflexivity. Qed.
Definition sent (r : res (sys * output)) : option nat := match r with Ok (s, _) => Some (length (waiting (s_w s))) | Err _ => None end.
Example C86_events_case : reachable sample4 /\ s_closed sample4 = false /\ c_consume_events_admin (m_cfg (w_mkt (s_w sample4))) = 0 /\
  reachable kept_market /\ s_closed kept_market = false /\ c_consume_events_admin (m_cfg (w_mkt (s_w kept_market))) = 81 /\
  length (waiting (s_w sample4)) = 3%nat /\ length (waiting (s_w kept_market)) = 1%nat /\
  sent (keep_send [9] (at_time 170 None) sample4 (ts_consume (w_mkt (s_w sample4)) 8 [101])) = Some 1%nat /\
  sent (keep_send [9] (at_time 170 None) sample4 (ts_consume_given (w_mkt (s_w sample4)) [0] [101])) = None /\
  sent (keep_send [81] (at_time 170 None) kept_market (ts_consume (w_mkt (s_w kept_market)) 8 [101])) = Some 0%nat /\
  sent (keep_send [81] (at_time 170 None) kept_market (ts_consume_given (w_mkt (s_w kept_market)) [0] [101])) = Some 0%nat /\
  sent (keep_send [9] (at_time 170 None) kept_market (ts_consume (w_mkt (s_w kept_market)) 8 [101])) = None.
Proof. split; [exact sample4_reachable|]. split; [vm_compute; reflexivity|]. split; [vm_compute; reflexivity|]. split; [exact kept_reachable|]. vm_compute. repeat split. Qed.

(** User 3 deposits; then the market, expired, is pruned of user 1's orders and later closed. *)
Example C86_case : exists a b, acct_get 103 (w_accts (s_w sample4)) = Some a /\ a_owner a = 3 /\ ~ expired 170 (w_mkt (s_w sample4)) /\
  affords (s_tok sample4) 31 3 (c_base_mint (m_cfg (w_mkt (s_w sample4)))) (c_base_vault (m_cfg (w_mkt (s_w sample4)))) 0 500 /\
  affords (s_tok sample4) 32 3 (c_quote_mint (m_cfg (w_mkt (s_w sample4)))) (c_quote_vault (m_cfg (w_mkt (s_w sample4)))) 0 700 /\
  map (fun sigs => sent (keep_send sigs (at_time 170 None) sample4 (ts_deposit 103 a 31 32 500 700))) [[3]; [2]] = [Some 3%nat; None] /\
  reachable sample5 /\ acct_get 101 (w_accts (s_w sample5)) = Some b /\ winds_down 71 172 (w_mkt (s_w sample5)) /\
  p_bids_base (a_pos b) + p_asks_base (a_pos b) < 2 ^ 63 /\
  length (filter (fun x => lf_owner (snd x) =? 101) (orders (s_w sample5) Bid)) = 2%nat /\
  map (fun sigs => sent (keep_send sigs (at_time 172 None) sample5 (ts_prune (w_mkt (s_w sample5)) 101 24))) [[71]; [2]] = [Some 3%nat; None] /\
  reachable sample6 /\ succeeds (at_time 175 None) sample6 (ICloseMarket 71) = true /\
  sent (keep_send [9; 71] (at_time 175 None) sample6 (ts_close_market (w_mkt (s_w sample6)))) = Some 0%nat.
Proof.
  eexists _, _. split; [vm_compute; reflexivity|]. split; [vm_compute; reflexivity|]. split; [unfold expired; vm_compute; intuition congruence|].
  do 2 (split; [apply affords_b_ok; vm_compute; reflexivity|]). split; [vm_compute; reflexivity|]. split; [exact sample5_reachable|].
  split; [vm_compute; reflexivity|]. split; [repeat split; vm_compute; congruence|]. split; [vm_compute; reflexivity|]. split; [vm_compute; reflexivity|].
  split; [vm_compute; reflexivity|]. split; [exact sample6_reachable|]. vm_compute. auto.
Qed.
