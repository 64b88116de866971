(** The facts about whole executions in the form of the properties. *)
From Coq Require Import ZArith List Bool Lia Permutation.
From Verif Require Import Base Nodes OrderTree BookSide Heap Market OpenOrders Order Book Instructions
  SpecBook SpecFees SpecOrder SpecLedger SpecEvents SpecSystem SpecControl
  BaseFacts SystemFacts Solvency ConsumeFacts CancelFacts ControlFacts IdFacts AuthFacts EndFacts.
Import ListNotations.
Open Scope Z_scope.

Lemma settle_exact e s i k ub uq ref s' out : reachable s -> exec e s i = Ok (s', out) -> settles i k ub uq ref ->
  exists a, acct_get k (w_accts (s_w s)) = Some a /\ settlement s k ub uq ref a s'.
Proof.
  intros R H Hi. destruct (exec_settle _ _ _ _ _ _ _ _ _ H Hi) as (a & Ha & G & _). exists a. split; [exact Ha|].
  exact (settle_settlement _ _ _ _ _ _ _ R G Ha).
Qed.
Lemma settle_destination e s i k ub uq ref s' out : exec e s i = Ok (s', out) -> settles i k ub uq ref ->
  exists a xb xq, acct_get k (w_accts (s_w s)) = Some a /\ s_tok s ub = Some xb /\ s_tok s uq = Some xq /\
    (signer_of i = a_owner a /\ (exists u, i = ISettle u k ub uq ref) \/ t_owner xb = a_owner a /\ t_owner xq = a_owner a).
Proof.
  intros H Hi. destruct (exec_settle _ _ _ _ _ _ _ _ _ H Hi) as (a & Ha & _ & xb & xq & Hb & Hq & G). exists a, xb, xq.
  refine (conj Ha (conj Hb (conj Hq G))).
Qed.
Lemma settle_again e1 e2 s i1 i2 k ub uq ref ub' uq' ref' s1 s2 out1 out2 : reachable s ->
  exec e1 s i1 = Ok (s1, out1) -> settles i1 k ub uq ref ->
  exec e2 s1 i2 = Ok (s2, out2) -> settles i2 k ub' uq' ref' ->
  (forall v, s_tok s2 v = s_tok s1 v) /\ m_fees_available (w_mkt (s_w s2)) = m_fees_available (w_mkt (s_w s1)) /\
  m_base_total (w_mkt (s_w s2)) = m_base_total (w_mkt (s_w s1)) /\
  m_quote_total (w_mkt (s_w s2)) = m_quote_total (w_mkt (s_w s1)) /\
  acct_get k (w_accts (s_w s2)) = acct_get k (w_accts (s_w s1)).
Proof.
  intros R H1 S1 H2 S2. destruct (exec_settle _ _ _ _ _ _ _ _ _ H1 S1) as (_ & _ & G1 & _).
  destruct (exec_settle _ _ _ _ _ _ _ _ _ H2 S2) as (_ & _ & G2 & _).
  exact (settle_twice _ _ _ _ _ _ _ _ _ _ R (reach_step _ _ _ _ _ R H1) G1 G2).
Qed.

Lemma expired_is now m : expired now m <-> market_is_expired m now = true.
Proof. split; [apply expired_true|]. unfold market_is_expired, expired. intros H. apply andb_true_iff in H as [H1 H2].
  apply negb_true_iff, Z.eqb_neq in H1. apply Z.ltb_lt in H2. auto. Qed.

Lemma cancel_allowed e s u sd t l a : reachable s -> s_closed s = false -> In (t, l) (orders (s_w s) sd) ->
  acct_get (lf_owner l) (w_accts (s_w s)) = Some a -> controls u a -> m_seq (w_mkt (s_w s)) < 2 ^ 63 ->
  exists s', exec e s (ICancel u (lf_owner l) (lf_key l)) = Ok (s', ONone) /\
    taken_off (s_w s) sd t l (s_w s') /\ s_tok s' = s_tok s /\ s_closed s' = s_closed s.
Proof. intros R C I A U. exact (cancel_works e s u sd t l a R C I A (controls_owner_or_delegate a u U)). Qed.

Lemma cancel_all_allowed e s u k so limit a : reachable s -> s_closed s = false ->
  acct_get k (w_accts (s_w s)) = Some a -> controls u a -> 0 <= limit < 256 ->
  p_bids_base (a_pos a) + p_asks_base (a_pos a) < 2 ^ 63 ->
  exists s' gone, exec e s (ICancelAll u k so limit) = Ok (s', ONone) /\ taken_off_all (s_w s) gone (s_w s') /\
    s_tok s' = s_tok s /\ Z.of_nat (length gone) <= limit /\
    (forall sd t l, In (sd, t, l) gone -> selected k so None a sd l) /\
    (24 <= limit -> forall sd t l, In (t, l) (orders (s_w s') sd) -> ~ selected k so None a sd l).
Proof. intros R C A U. exact (cancel_all_works e s u k so limit a R C A (controls_owner_or_delegate a u U)). Qed.

Lemma cancel_client_allowed e s u k c a : reachable s -> s_closed s = false ->
  acct_get k (w_accts (s_w s)) = Some a -> controls u a -> 0 <= c < 2 ^ 64 ->
  p_bids_base (a_pos a) + p_asks_base (a_pos a) < 2 ^ 63 ->
  exists s' gone,
    exec e s (ICancelClient u k c) = Ok (s', OLots (sumZ (map (fun x => lf_qty (snd x)) gone))) /\
    taken_off_all (s_w s) gone (s_w s') /\ s_tok s' = s_tok s /\
    (forall sd t l, In (sd, t, l) gone -> selected k None (Some c) a sd l) /\
    (forall sd t l, In (t, l) (orders (s_w s') sd) -> ~ selected k None (Some c) a sd l).
Proof. intros R C A U. exact (cancel_client_works e s u k c a R C A (controls_owner_or_delegate a u U)). Qed.

Lemma prune_allowed e s u k limit a : reachable s -> s_closed s = false ->
  acct_get k (w_accts (s_w s)) = Some a -> winds_down u (e_now e) (w_mkt (s_w s)) -> 0 <= limit < 256 ->
  p_bids_base (a_pos a) + p_asks_base (a_pos a) < 2 ^ 63 ->
  exists s' gone, exec e s (IPrune u k limit) = Ok (s', ONone) /\ taken_off_all (s_w s) gone (s_w s') /\
    s_tok s' = s_tok s /\ Z.of_nat (length gone) <= limit /\
    (forall sd t l, In (sd, t, l) gone -> lf_owner l = k) /\
    (24 <= limit -> forall sd t l, In (t, l) (orders (s_w s') sd) -> lf_owner l <> k).
Proof.
  intros R C A (U1 & -> & U2) L B. exact (prune_works e s k limit a R C A (proj1 (expired_is _ _) U2) U1 L B).
Qed.

(** On an expired market nothing is placed or deposited. *)
Lemma expired_only_winds_down e s i s' out : reachable s -> exec e s i = Ok (s', out) ->
  expired (e_now e) (w_mkt (s_w s)) ->
  reported out = [] /\ m_seq (w_mkt (s_w s')) = m_seq (w_mkt (s_w s)) /\
  match i with
  | IExtTransfer _ _ _ _ | IExtMint _ _ | IExtCreate _ _ _ | IExtGive _ _ _ | IExtBurn _ _ _ | IExtClose _ _ => True
  | _ => guarded [c_authority (m_cfg (w_mkt (s_w s)))] (s_tok s) (s_tok s')
  end.
Proof.
  intros R H X. split; [exact (exec_expired_reports _ _ _ _ _ R H X)|]. exact (exec_expired _ _ _ _ _ R H X).
Qed.
Lemma settle_possible e s i k ub uq ref a : reachable s -> s_closed s = false -> settles i k ub uq ref ->
  acct_get k (w_accts (s_w s)) = Some a -> permitted e s i a ->
  let m := w_mkt (s_w s) in let c := m_cfg m in let p := a_pos a in
  let most := p_quote_free p + p_rebates p + p_locked_fees p in
  can_take (s_tok s) ub (c_base_mint c) (p_base_free p) -> can_take (s_tok s) uq (c_quote_mint c) most ->
  match ref with
  | Some r => can_take (s_tok s) r (c_quote_mint c) most /\
      m_fees_to_referrers m + p_rebates p + p_locked_fees p <= 340282366920938463463374607431768211455
  | None => True
  end ->
  p_penalty p * 500 <= 18446744073709551615 ->
  (forall x, s_tok s ub = Some x \/ s_tok s uq = Some x -> t_owner x = a_owner a) ->
  exists s', exec e s i = Ok (s', ONone).
Proof.
  intros R C Hi A P m c p most B Q F Pn O. exact (settle_works e s i k ub uq ref a R C Hi A P B Q F Pn (fun _ => O)).
Qed.
