(** What the calls of TsKeep.v do. *)
From Coq Require Import ZArith List Bool Lia ZifyBool.
From Verif Require Import Base Nodes OrderTree BookSide Heap Market OpenOrders Order Book Instructions
  SpecBook SpecFees SpecOrder SpecLedger SpecEvents SpecSystem SpecControl SpecLive SpecWind LiveFacts ConsumeFacts SystemProofs LivePay TsKeep.
Import ListNotations.
Open Scope Z_scope.

Lemma keep_signed sigs e s i : incl (ki_needs i) sigs -> keep_send sigs e s i = exec e s (ki_do i).
Proof.
  intros H. unfold keep_send. replace (forallb _ _) with true; [reflexivity|]. symmetry. apply forallb_forall.
  intros x Hx. apply mem_key_iff. exact (H x Hx).
Qed.
Lemma keep_unsigned sigs e s i u : In u (ki_needs i) -> ~ In u sigs -> keep_send sigs e s i = Err Constraint.
Proof.
  intros H N. unfold keep_send. destruct (forallb _ _) eqn:E; [|reflexivity].
  rewrite forallb_forall in E. apply E in H. apply mem_key_iff in H. contradiction.
Qed.

Lemma keep_consume sigs e s limit rem : reachable s -> s_closed s = false -> 0 <= limit < 2 ^ 64 ->
  c_consume_events_admin (m_cfg (w_mkt (s_w s))) = 0 \/ In (c_consume_events_admin (m_cfg (w_mkt (s_w s)))) sigs ->
  exists s', keep_send sigs e s (ts_consume (w_mkt (s_w s)) limit rem) = Ok (s', ONone) /\
    consumes s (filter (present rem) (firstn (Z.to_nat (Z.min limit 8)) (queue_of (s_w s)))) s'.
Proof.
  intros R C L A. destruct (consume_works e s _ limit rem R C eq_refl L) as (s' & E & D & _). exists s'. split; [|exact D].
  rewrite keep_signed; [exact E|]. unfold ts_consume. cbv zeta. cbn [ki_needs]. destruct (Z.eqb_spec (c_consume_events_admin (m_cfg (w_mkt (s_w s)))) 0) as [Z0|Z0].
  - apply incl_nil_l.
  - destruct A as [A|A]; [contradiction|]. intros x [<-|[]]. exact A.
Qed.
Lemma keep_given sigs e s slots rem : reachable s -> s_closed s = false -> Forall (fun z => 0 <= z < 600) slots ->
  In (c_consume_events_admin (m_cfg (w_mkt (s_w s)))) sigs ->
  exists s', keep_send sigs e s (ts_consume_given (w_mkt (s_w s)) slots rem) = Ok (s', ONone) /\
    consumes s (filter (present rem) (looked_at (queue_of (s_w s)) slots (Nat.min (length slots) 8))) s'.
Proof.
  intros R C L A. destruct (consume_given_works e s _ slots rem R C eq_refl L) as (s' & E & D & _). exists s'. split; [|exact D].
  rewrite keep_signed; [exact E|]. intros x [<-|[]]. exact A.
Qed.
Lemma keep_given_never sigs e s slots rem : c_consume_events_admin (m_cfg (w_mkt (s_w s))) = 0 -> ~ In 0 sigs ->
  keep_send sigs e s (ts_consume_given (w_mkt (s_w s)) slots rem) = Err Constraint.
Proof. intros A N. apply (keep_unsigned _ _ _ _ 0); [|exact N]. unfold ts_consume_given. cbv zeta. cbn [ki_needs]. left. exact A. Qed.
Lemma keep_deposit sigs e s k a ub uq b q : reachable s -> s_closed s = false -> ~ expired (e_now e) (w_mkt (s_w s)) ->
  acct_get k (w_accts (s_w s)) = Some a -> a_owner a <> c_authority (m_cfg (w_mkt (s_w s))) -> In (a_owner a) sigs -> u64 b -> u64 q ->
  affords (s_tok s) ub (a_owner a) (c_base_mint (m_cfg (w_mkt (s_w s)))) (c_base_vault (m_cfg (w_mkt (s_w s)))) 0 b ->
  affords (s_tok s) uq (a_owner a) (c_quote_mint (m_cfg (w_mkt (s_w s)))) (c_quote_vault (m_cfg (w_mkt (s_w s)))) 0 q ->
  exists s', keep_send sigs e s (ts_deposit k a ub uq b q) = Ok (s', ONone) /\ deposited s k ub uq b q a s'.
Proof.
  intros R C X A N Hs Ub Uq Fb Fq. destruct (deposit_goes e s (a_owner a) k a ub uq b q R C X A N Ub Uq Fb Fq) as (s' & E & D).
  exists s'. split; [|exact D]. rewrite keep_signed; [exact E|]. intros x [<-|[]]. exact Hs.
Qed.
Lemma keep_deposit_others sigs e s k a ub uq b q : ~ In (a_owner a) sigs -> keep_send sigs e s (ts_deposit k a ub uq b q) = Err Constraint.
Proof. intros N. apply (keep_unsigned _ _ _ _ (a_owner a)); [left; reflexivity|exact N]. Qed.
Lemma keep_prune sigs e s u k limit a : reachable s -> s_closed s = false ->
  acct_get k (w_accts (s_w s)) = Some a -> winds_down u (e_now e) (w_mkt (s_w s)) -> In u sigs -> 0 <= limit < 256 ->
  p_bids_base (a_pos a) + p_asks_base (a_pos a) < 2 ^ 63 ->
  exists s' gone, keep_send sigs e s (ts_prune (w_mkt (s_w s)) k limit) = Ok (s', ONone) /\ taken_off_all (s_w s) gone (s_w s') /\
    s_tok s' = s_tok s /\ Z.of_nat (length gone) <= limit /\
    (forall sd t l, In (sd, t, l) gone -> lf_owner l = k) /\
    (24 <= limit -> forall sd t l, In (t, l) (orders (s_w s') sd) -> lf_owner l <> k).
Proof.
  intros R C A W I L B. destruct (prune_allowed e s u k limit a R C A W L B) as (s' & gone & E & H). exists s', gone. split; [|exact H].
  destruct W as (_ & -> & _). rewrite keep_signed; [exact E|]. intros x [<-|[]]. exact I.
Qed.
Lemma keep_close sigs e s u r : exec e s (ICloseMarket u) = Ok r -> reachable s -> In u sigs -> keep_send sigs e s (ts_close_market (w_mkt (s_w s))) = Ok r.
Proof.
  intros E R I. destruct r as [s' out]. destruct (EndFacts.close_market_ok _ _ _ _ _ R E) as (_ & W & _). destruct W as (_ & -> & _).
  rewrite keep_signed; [exact E|]. intros x [<-|[]]. exact I.
Qed.
