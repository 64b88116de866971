(** When depositing and refilling go through. *)
From Coq Require Import ZArith List Bool Lia ZifyBool Permutation.
From Verif Require Import Base Nodes OrderTree BookSide Heap Market OpenOrders Order Book Instructions
  BaseFacts NodesFacts HeapFacts TreeRep TreeFacts TreeOps TreeIter BookSideFacts BookSideOrder BookSpecProofs SpecBook SpecFees
  FeeFacts SpecOrder MatchFacts MatchBook OrderFacts PlaceFacts OrderSpecProofs OrderClaims Steps StepFacts TokenFacts SpecLedger SpecEvents Ledger LedgerOps LedgerMoves
  LedgerPlace LedgerOrder LedgerInv SpecSystem SystemFacts Solvency ConsumeFacts ClientProofs LiveFacts LivePlace LiveOrder SpecControl SpecLive AuthFacts LiveIx.
Import ListNotations.
Open Scope Z_scope.

Lemma deposit_ix_runs e s u k a ub uq b q : reachable s -> ~ expired (e_now e) (w_mkt (s_w s)) ->
  acct_get k (w_accts (s_w s)) = Some a -> 0 <= b -> 0 <= q ->
  affords (s_tok s) ub u (c_base_mint (m_cfg (w_mkt (s_w s)))) (c_base_vault (m_cfg (w_mkt (s_w s)))) 0 b ->
  affords (s_tok s) uq u (c_quote_mint (m_cfg (w_mkt (s_w s)))) (c_quote_vault (m_cfg (w_mkt (s_w s)))) 0 q ->
  exists s', deposit_ix e s u k ub uq b q = Ok s'.
Proof.
  intros Hr Hx Ha Hb Hq [(tb & Tb & Ob & Mb & Ab) Cb] [(tq & Tq & Oq & Mq & Aq) Cq].
  pose proof (reachable_funded _ Hr) as ((_ & Hm) & _).
  destruct (reachable_live _ Hr) as (cl & ct & P & HI & _). destruct (reachable_solvent _ Hr) as [(vb & Vb & _ & Nb & Sb) (vq & Vq & _ & Nq & Sq) _ _].
  specialize (Cb _ Vb). specialize (Cq _ Vq). change (2 ^ 64) with 18446744073709551616 in *.
  destruct (held_bounds _ _ _ _ _ (iv_led _ _ _ _ _ _ HI) Ha) as (H1 & H2 & H3 & _). rewrite (iv_base _ _ _ _ _ _ HI) in H1. rewrite (iv_quote _ _ _ _ _ _ HI) in H2.
  destruct (ac_pos _ _ _ _ (ld_acct _ _ _ (iv_led _ _ _ _ _ _ HI) _ _ Ha)) as [Q1 Q2 Q3 Q4 _ _ _ _].
  pose proof (ld_mkt _ _ _ (iv_led _ _ _ _ _ _ HI)) as [_ M1 M2 _ _ _ _ _ _ _]. unfold u64_ok in *.
  destruct (swap_runs (s_tok s) b q ub (c_base_vault (m_cfg (w_mkt (s_w s)))) uq (c_quote_vault (m_cfg (w_mkt (s_w s)))) u u tb vb tq vq
    Tb Vb Tq Vq ltac:(congruence) ltac:(congruence) ltac:(congruence) Ob Oq Hb ltac:(lia) ltac:(lia) ltac:(lia) ltac:(lia)) as (t1 & t2 & E1 & E2).
  unfold deposit_ix, check_mint, tok_load, acct_load. cbv zeta. rewrite Tb, Vb, Tq, Vq. cbn [bind]. rewrite Mb, Nb, Mq, Nq, !Z.eqb_refl. cbn [require bind].
  rewrite Ha. cbn [bind]. rewrite (still_live _ _ Hx). cbn [negb require bind]. rewrite E1. cbn [bind].
  do 2 (rewrite chk_u64_in by lia; cbn [bind]). rewrite E2. cbn [bind]. do 2 (rewrite chk_u64_in by lia; cbn [bind]). eauto.
Qed.

(** A deposit its sender can pay goes through. *)
Theorem deposit_goes e s u k a ub uq b q : reachable s -> s_closed s = false -> ~ expired (e_now e) (w_mkt (s_w s)) ->
  acct_get k (w_accts (s_w s)) = Some a -> u <> c_authority (m_cfg (w_mkt (s_w s))) -> u64 b -> u64 q ->
  affords (s_tok s) ub u (c_base_mint (m_cfg (w_mkt (s_w s)))) (c_base_vault (m_cfg (w_mkt (s_w s)))) 0 b ->
  affords (s_tok s) uq u (c_quote_mint (m_cfg (w_mkt (s_w s)))) (c_quote_vault (m_cfg (w_mkt (s_w s)))) 0 q ->
  exists s', exec e s (IDeposit u k ub uq b q) = Ok (s', ONone) /\ deposited s k ub uq b q a s'.
Proof.
  intros Hr Hc Hx Ha Hu Ub Uq Fb Fq.
  destruct (deposit_ix_runs e s u k a ub uq b q Hr Hx Ha ltac:(unfold u64 in Ub; lia) ltac:(unfold u64 in Uq; lia) Fb Fq) as (s' & E).
  assert (H : exec e s (IDeposit u k ub uq b q) = Ok (s', ONone)).
  { rewrite (open_exec _ _ _ Hc). unfold exec_open. cbv zeta. do 2 (rewrite u64_arg_in by assumption; cbn [bind]).
    replace (u =? c_authority (m_cfg (w_mkt (s_w s)))) with false by lia. cbn [negb require bind]. unfold lift_s. rewrite E. reflexivity. }
  exists s'. split; [exact H|]. exact (proj2 (exec_deposit _ _ _ _ _ _ _ _ _ _ _ H Ha)).
Qed.

(** So does a refill. *)
Theorem refill_goes e s u k a ub uq b q : reachable s -> s_closed s = false -> ~ expired (e_now e) (w_mkt (s_w s)) ->
  acct_get k (w_accts (s_w s)) = Some a -> u <> c_authority (m_cfg (w_mkt (s_w s))) -> u64 b -> u64 q ->
  affords (s_tok s) ub u (c_base_mint (m_cfg (w_mkt (s_w s)))) (c_base_vault (m_cfg (w_mkt (s_w s)))) 0 (Z.max 0 (b - p_base_free (a_pos a))) ->
  affords (s_tok s) uq u (c_quote_mint (m_cfg (w_mkt (s_w s)))) (c_quote_vault (m_cfg (w_mkt (s_w s)))) 0 (Z.max 0 (q - p_quote_free (a_pos a))) ->
  exists s', exec e s (IRefill u k ub uq b q) = Ok (s', ONone) /\
    deposited s k ub uq (Z.max 0 (b - p_base_free (a_pos a))) (Z.max 0 (q - p_quote_free (a_pos a))) a s'.
Proof.
  intros Hr Hc Hx Ha Hu Ub Uq Fb Fq.
  destruct (deposit_ix_runs e s u k a ub uq (Z.max 0 (b - p_base_free (a_pos a))) (Z.max 0 (q - p_quote_free (a_pos a))) Hr Hx Ha ltac:(lia) ltac:(lia) Fb Fq) as (s' & E).
  destruct (reachable_live _ Hr) as (cl & ct & P & HI & _).
  destruct (ac_pos _ _ _ _ (ld_acct _ _ _ (iv_led _ _ _ _ _ _ HI) _ _ Ha)) as [Q1 Q2 _ _ _ _ _ _].
  assert (H : exec e s (IRefill u k ub uq b q) = Ok (s', ONone)).
  { rewrite (open_exec _ _ _ Hc). unfold exec_open. cbv zeta. do 2 (rewrite u64_arg_in by assumption; cbn [bind]).
    replace (u =? c_authority (m_cfg (w_mkt (s_w s)))) with false by lia. cbn [negb require bind]. unfold lift_s, refill_ix, acct_load. rewrite Ha. cbn [bind].
    unfold u64, u64_ok in *. change (2 ^ 64) with 18446744073709551616 in *. do 2 (rewrite chk_u64_in by lia; cbn [bind]).
    replace (b - Z.min b (p_base_free (a_pos a))) with (Z.max 0 (b - p_base_free (a_pos a))) by lia.
    replace (q - Z.min q (p_quote_free (a_pos a))) with (Z.max 0 (q - p_quote_free (a_pos a))) by lia. rewrite E. reflexivity. }
  exists s'. split; [exact H|]. exact (proj2 (exec_refill _ _ _ _ _ _ _ _ _ _ _ Hr H Ha)).
Qed.
