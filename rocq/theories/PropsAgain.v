(** C91: closed markets, and markets created again at their addresses.  Vocabulary: SpecAgain.v,
    SpecSystem.v, SpecControl.v. *)
From Coq Require Import ZArith List Bool Lia.
From Verif Require Import Base Nodes OrderTree BookSide Heap Market OpenOrders Order Book Instructions
  SpecBook SpecOrder SpecLedger SpecEvents SpecSystem SpecControl Program SpecProgram Samples SpecCreate SpecAgain Again AgainFacts AgainProofs.
Import ListNotations.
Open Scope Z_scope.

(** C91: a closed market is over: no orders, no events, and nobody has anything on it. *)
Theorem C91_over s : reachable s -> s_closed s = true -> over s.
Proof. exact (closed_rests s). Qed.
Print Assumptions C91_over.

(** C91: it stays closed and over whatever happens.  No account appears, and no balance or order of
    an account changes. *)
Theorem C91_stays s s' : reachable s -> s_closed s = true -> goes_on s s' ->
  s_closed s' = true /\ over s' /\ w_mkt (s_w s') = w_mkt (s_w s) /\
  forall k a', acct_get k (w_accts (s_w s')) = Some a' -> exists a, acct_get k (w_accts (s_w s)) = Some a /\ same_holdings a a'.
Proof. exact (stays_over s s'). Qed.
Print Assumptions C91_stays.

(** C91: the same for each market among others. *)
Theorem C91_among_others addr p m s : preachable addr p -> market_in p m = Some s -> s_closed s = true -> over s.
Proof. exact (over_among addr p m s). Qed.
Print Assumptions C91_among_others.

(** C91: a market created again at the address has the accounts left over, with nothing in them:
    nobody has anything on it, books and accounts agree and the vaults cover what is owed. *)
Theorem C91_again now s c te s2 : reachable s -> create_again now s c te = Ok s2 ->
  s_closed s = true /\ s_closed s2 = false /\ m_cfg (w_mkt (s_w s2)) = c /\ over s2 /\ backed (s_w s2) /\ solvent s2 /\
  w_accts (s_w s2) = w_accts (s_w s).
Proof. exact (again_ok now s c te s2). Qed.
Print Assumptions C91_again.

(** C91: and its vaults are new and empty, other than the old ones. *)
Theorem C91_other_vaults now s c te s2 : reachable s -> create_again now s c te = Ok s2 ->
  let old := m_cfg (w_mkt (s_w s)) in
  forall v, v = c_base_vault c \/ v = c_quote_vault c ->
    v <> c_base_vault old /\ v <> c_quote_vault old /\ (exists x, s_tok s2 v = Some x /\ t_amount x = 0).
Proof. exact (again_vaults now s c te s2). Qed.
Print Assumptions C91_other_vaults.

(** A market that was traded on, wound down and closed, with its three accounts left.  Account 101
    changes its delegate.  Then a market is created there with other vaults; not with the same ones. *)
Example C91_case : reachable closed91 /\ s_closed closed91 = true /\ goes_on closed91 later91 /\
  map fst (w_accts (s_w later91)) = [103; 102; 101] /\
  map (fun x => a_delegate (snd x)) (w_accts (s_w later91)) = [0; 0; 9] /\
  map (fun x => p_maker_volume (a_pos (snd x))) (w_accts (s_w later91)) <> [0; 0; 0] /\
  succeeds (at_time 176 None) closed91 (IDeposit 1 101 11 12 5 5) = false /\
  is_ok (again91 351 352) = true /\ is_ok (again91 51 352) = false /\ is_ok (again91 351 52) = false.
Proof. exact closed91_case. Qed.
