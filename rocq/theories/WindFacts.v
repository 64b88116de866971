(** An expired market can always be wound down by its admins. *)
From Coq Require Import ZArith List Bool Lia ZifyBool Permutation.
From Verif Require Import Base Nodes OrderTree BookSide Heap Market OpenOrders Order Book Instructions
  BaseFacts HeapFacts SpecBook SpecFees SpecHeap HeapSpecProofs SpecOrder MatchFacts OrderFacts PlaceFacts OrderSpecProofs
  Steps StepFacts TokenFacts SpecLedger SpecEvents Ledger LedgerOps LedgerMoves LedgerPlace LedgerOrder LedgerInv SpecSystem SystemFacts Solvency
  ConsumeFacts CancelFacts SpecControl ControlFacts LifeFacts IdFacts AuthFacts EndFacts SystemProofs SpecWind LockFacts.
Import ListNotations.
Open Scope Z_scope.

Lemma executes_app e s1 l1 s2 l2 s3 : executes e s1 l1 s2 -> executes e s2 l2 s3 -> executes e s1 (l1 ++ l2) s3.
Proof. induction 1 as [s|s i s1 out l s2 H _ IH]; intros G; [exact G|]. cbn [app]. eapply xs_more; [exact H|exact (IH G)]. Qed.

(** ** What the steps leave alone *)
(** The same accounts with the same owners and penalties. *)
Definition gist (o : option ooa) : option (Z * Z) := option_map (fun a => (a_owner a, p_penalty (a_pos a))) o.
Definition kept (w w' : world) : Prop := forall k, gist (acct_get k (w_accts w')) = gist (acct_get k (w_accts w)).
Lemma kept_refl w : kept w w. Proof. intros k. reflexivity. Qed.
Lemma kept_trans w1 w2 w3 : kept w1 w2 -> kept w2 w3 -> kept w1 w3.
Proof. intros H1 H2 k. rewrite H2. apply H1. Qed.
Lemma kept_set w w' k a v : acct_get k (w_accts w) = Some a -> w_accts w' = acct_set k v (w_accts w) ->
  a_owner v = a_owner a -> p_penalty (a_pos v) = p_penalty (a_pos a) -> kept w w'.
Proof.
  intros A E H1 H2 j. rewrite E, acct_get_set. destruct (Z.eqb_spec j k) as [->|N]; [|reflexivity]. rewrite A. cbn. congruence.
Qed.
Lemma kept_back w w' k a' : kept w w' -> acct_get k (w_accts w') = Some a' ->
  exists a, acct_get k (w_accts w) = Some a /\ a_owner a' = a_owner a /\ p_penalty (a_pos a') = p_penalty (a_pos a).
Proof.
  intros H A. specialize (H k). rewrite A in H. destruct (acct_get k (w_accts w)) as [a|]; [|discriminate H].
  injection H as H1 H2. exists a. repeat split; assumption.
Qed.
Lemma kept_there w w' k a : kept w w' -> acct_get k (w_accts w) = Some a -> exists a', acct_get k (w_accts w') = Some a'.
Proof. intros H A. specialize (H k). rewrite A in H. destruct (acct_get k (w_accts w')) as [a'|]; [eauto|discriminate H]. Qed.

Lemma cancelled_gist m a i q : a_owner (cancelled m a i q) = a_owner a /\ p_penalty (a_pos (cancelled m a i q)) = p_penalty (a_pos a).
Proof. unfold cancelled. destruct (order_at a i) as [oo|]; [|auto]. split; [reflexivity|]. destruct (oo_side oo); reflexivity. Qed.
Lemma filled_gist m a f : a_owner (filled m a f) = a_owner a /\ p_penalty (a_pos (filled m a f)) = p_penalty (a_pos a).
Proof. unfold filled, filled_pos. destruct (fe_maker_out f), (fill_side f); split; reflexivity. Qed.

Lemma taken_kept w s t l w' : taken_off w s t l w' -> kept w w'.
Proof.
  intros [_ _ (a & A & E) _ _]. destruct (cancelled_gist (w_mkt w) a (lf_slot l) (lf_qty l)) as [G1 G2].
  exact (kept_set _ _ _ _ _ A E G1 G2).
Qed.
Lemma orders_same_book w w' sd : w_book w' sd = w_book w sd -> orders w' sd = orders w sd.
Proof. unfold orders. intros ->. reflexivity. Qed.
Lemma taken_orders w s t l w' sd x : taken_off w s t l w' -> In x (orders w' sd) -> In x (orders w sd).
Proof.
  intros [H1 H2 _ _ _] Hx. destruct (side_eqb sd s) eqn:E.
  - assert (sd = s) as -> by (destruct sd, s; try discriminate E; reflexivity).
    apply (Permutation_in _ (Permutation_sym H1)). right. exact Hx.
  - assert (sd = invert_side s) as -> by (destruct sd, s; try discriminate E; reflexivity).
    rewrite <- (orders_same_book _ _ _ H2). exact Hx.
Qed.
Lemma taken_all_facts w gone w' : taken_off_all w gone w' ->
  kept w w' /\ w_mkt w' = w_mkt w /\ w_heap w' = w_heap w /\
  (forall sd x, In x (orders w' sd) -> In x (orders w sd)) /\
  (forall k, (forall sd t l, In (sd, t, l) gone -> lf_owner l <> k) -> acct_get k (w_accts w') = acct_get k (w_accts w)).
Proof.
  induction 1 as [w|w s t l w1 r w2 H _ IH].
  - repeat split; auto.
  - destruct IH as (I1 & I2 & I3 & I4 & I5). split; [exact (kept_trans _ _ _ (taken_kept _ _ _ _ _ H) I1)|].
    pose proof H as [_ _ (a & A & E) Em Eh]. split; [congruence|]. split; [congruence|]. split.
    + intros sd x Hx. exact (taken_orders _ _ _ _ _ _ _ H (I4 _ _ Hx)).
    + intros k Hk. rewrite I5 by (intros sd t' l' Hin; exact (Hk _ _ _ (or_intror Hin))). rewrite E, acct_get_set.
      destruct (Z.eqb_spec k (lf_owner l)) as [->|N]; [|reflexivity]. exfalso. exact (Hk _ _ _ (or_introl eq_refl) eq_refl).
Qed.

(** ** Cancelling all orders *)
Lemma prune_closed e s u k n s' out : exec e s (IPrune u k n) = Ok (s', out) -> s_closed s' = s_closed s.
Proof.
  unfold exec. destruct (s_closed s && _); [intros H; discriminate H|]. unfold exec_open, lift_w. cbv zeta. intros H.
  apply bind_ok in H as (? & _ & H). apply bind_ok in H as (w & _ & H). injection H as <- _. reflexivity.
Qed.
Lemma prune_all e u : forall ks s, NoDup ks -> reachable s -> s_closed s = false -> winds_down u (e_now e) (w_mkt (s_w s)) ->
  (forall k, In k ks -> exists a, acct_get k (w_accts (s_w s)) = Some a /\ p_bids_base (a_pos a) + p_asks_base (a_pos a) < 2 ^ 63) ->
  exists s', executes e s (map (fun k => IPrune u k 24) ks) s' /\ reachable s' /\ s_closed s' = false /\ w_mkt (s_w s') = w_mkt (s_w s) /\
    s_tok s' = s_tok s /\ kept (s_w s) (s_w s') /\
    (forall sd x, In x (orders (s_w s') sd) -> In x (orders (s_w s) sd)) /\
    (forall sd t l, In (t, l) (orders (s_w s') sd) -> ~ In (lf_owner l) ks).
Proof.
  induction ks as [|k ks IH]; intros s Hnd R C U L.
  - exists s. split; [apply xs_none|]. repeat split; auto.
  - destruct (L k (or_introl eq_refl)) as (a & A & B).
    destruct (prune_allowed e s u k 24 a R C A U ltac:(lia) B) as (s1 & gone & H & T & Et & _ & Ho & Hn).
    pose proof (reach_step _ _ _ _ _ R H) as R1. pose proof (prune_closed _ _ _ _ _ _ _ H) as C1. rewrite C in C1.
    destruct (taken_all_facts _ _ _ T) as (K1 & M1 & _ & O1 & S1). inversion Hnd as [|k0 ks0 Nk Nd]; subst k0 ks0.
    destruct (IH s1 Nd R1 C1) as (s2 & X & R2 & C2 & M2 & T2 & K2 & O2 & N2).
    + rewrite M1. exact U.
    + intros j Hj. destruct (L j (or_intror Hj)) as (b & Bj & Lb). exists b. split; [|exact Lb]. rewrite S1; [exact Bj|].
      intros sd t l Hin. rewrite (Ho _ _ _ Hin). intros ->. exact (Nk Hj).
    + exists s2. split; [cbn [map]; eapply xs_more; [exact H|exact X]|]. split; [exact R2|]. split; [exact C2|]. split; [congruence|]. split; [congruence|].
      split; [exact (kept_trans _ _ _ K1 K2)|]. split; [intros sd x Hx; exact (O1 _ _ (O2 _ _ Hx))|].
      intros sd t l Hin [->|Hk]; [|exact (N2 _ _ _ Hin Hk)]. exact (Hn ltac:(lia) _ _ _ (O2 _ _ Hin) eq_refl).
Qed.

(** ** Consuming all events *)
Lemma delivered_kept w e : kept w (delivered w e).
Proof.
  unfold delivered. destruct (acct_get (ev_owner e) (w_accts w)) as [a|] eqn:A; [|apply kept_refl]. destruct e as [f|o]; cbn [ev_owner] in A.
  - destruct (filled_gist (w_mkt w) a f) as [G1 G2]. eapply kept_set; [exact A|reflexivity|exact G1|exact G2].
  - destruct (cancelled_gist (w_mkt w) a (oe_slot o) (oe_qty o)) as [G1 G2]. eapply kept_set; [exact A|reflexivity|exact G1|exact G2].
Qed.
Lemma delivered_rest w e : m_cfg (w_mkt (delivered w e)) = m_cfg (w_mkt w) /\ m_time_expiry (w_mkt (delivered w e)) = m_time_expiry (w_mkt w) /\
  w_bids (delivered w e) = w_bids w /\ w_asks (delivered w e) = w_asks w.
Proof. unfold delivered. destruct (acct_get (ev_owner e) (w_accts w)) as [a|]; [|auto]. destruct e; repeat split. Qed.
Lemma drain_all e : forall xs s, reachable s -> s_closed s = false -> Permutation xs (queue_of (s_w s)) ->
  exists s', executes e s (map (fun x => IConsumeGiven (c_consume_events_admin (m_cfg (w_mkt (s_w s)))) [snd x] [ev_owner (fst x)]) xs) s' /\
  waiting (s_w s') = [] /\ reachable s' /\ s_closed s' = false /\ m_cfg (w_mkt (s_w s')) = m_cfg (w_mkt (s_w s)) /\
  m_time_expiry (w_mkt (s_w s')) = m_time_expiry (w_mkt (s_w s)) /\ s_tok s' = s_tok s /\ kept (s_w s) (s_w s') /\
  w_bids (s_w s') = w_bids (s_w s) /\ w_asks (s_w s') = w_asks (s_w s).
Proof.
  induction xs as [|x xs IH]; intros s Hr Hc HP.
  - exists s. split; [apply xs_none|]. apply Permutation_nil in HP. split; [unfold waiting; rewrite HP; reflexivity|]. repeat split; auto.
  - assert (Hx : In x (queue_of (s_w s))) by (apply (Permutation_in _ HP); left; reflexivity).
    destruct (consume_single e s x Hr Hc Hx) as (s1 & H1 & (Eq & Ew & Et & Ec)).
    pose proof (reach_step _ _ _ _ _ Hr H1) as Hr1. destruct (reachable_queue _ Hr) as (_ & _ & _ & _ & Hh & _). pose proof (heap_ok_nodup _ _ Hh) as Hnd.
    assert (HP1 : Permutation xs (queue_of (s_w s1))).
    { rewrite Eq. apply (Permutation_cons_inv (a := x)). rewrite HP. change (x :: without [x] (queue_of (s_w s))) with ([x] ++ without [x] (queue_of (s_w s))).
      apply without_perm; [exact Hnd|constructor; [intros []|constructor]|]. intros y [<-|[]]. exact Hx. }
    rewrite Hc in Ec.
    destruct (IH s1 Hr1 Ec HP1) as (s' & Hx' & Hw & R' & C' & M' & X' & T' & K' & B' & A').
    cbn [map deliver fold_left] in Ew. destruct (delivered_rest (s_w s) (fst x)) as (D1 & D2 & D3 & D4). pose proof (delivered_kept (s_w s) (fst x)) as D5.
    assert (Em : m_cfg (w_mkt (s_w s1)) = m_cfg (w_mkt (s_w s))) by (rewrite Ew; exact D1).
    exists s'. split; [cbn [map]; eapply xs_more; [exact H1|]; rewrite <- Em; exact Hx'|]. split; [exact Hw|]. split; [exact R'|]. split; [exact C'|].
    split; [congruence|]. split; [rewrite X', Ew; exact D2|]. split; [congruence|]. split; [|split; [rewrite B', Ew; exact D3|rewrite A', Ew; exact D4]].
    eapply kept_trans; [|exact K']. rewrite Ew. exact D5.
Qed.

(** ** Settling all accounts *)
(** The part of [ready] that settling needs. *)
Record payable (s : sys) (dest : Z -> Z * Z) (receiver : Z) : Prop := {
  py_penalty : forall k a, acct_get k (w_accts (s_w s)) = Some a -> p_penalty (a_pos a) * 500 <= 18446744073709551615;
  py_base : forall k a, acct_get k (w_accts (s_w s)) = Some a ->
    has_room (s_tok s) (fst (dest k)) (c_base_vault (m_cfg (w_mkt (s_w s)))) (c_base_mint (m_cfg (w_mkt (s_w s)))) /\
    owned_by (s_tok s) (fst (dest k)) (a_owner a);
  py_quote : forall k a, acct_get k (w_accts (s_w s)) = Some a ->
    has_room (s_tok s) (snd (dest k)) (c_quote_vault (m_cfg (w_mkt (s_w s)))) (c_quote_mint (m_cfg (w_mkt (s_w s)))) /\
    owned_by (s_tok s) (snd (dest k)) (a_owner a);
  py_fees : has_room (s_tok s) receiver (c_quote_vault (m_cfg (w_mkt (s_w s)))) (c_quote_mint (m_cfg (w_mkt (s_w s)))) }.
Lemma payable_kept s s' dest r : kept (s_w s) (s_w s') -> m_cfg (w_mkt (s_w s')) = m_cfg (w_mkt (s_w s)) -> s_tok s' = s_tok s ->
  payable s dest r -> payable s' dest r.
Proof.
  intros K E T [P1 P2 P3 P4]. split; rewrite ?E, ?T.
  - intros k a' A. destruct (kept_back _ _ _ _ K A) as (a & A0 & _ & ->). exact (P1 _ _ A0).
  - intros k a' A. destruct (kept_back _ _ _ _ K A) as (a & A0 & -> & _). exact (P2 _ _ A0).
  - intros k a' A. destruct (kept_back _ _ _ _ K A) as (a & A0 & -> & _). exact (P3 _ _ A0).
  - exact P4.
Qed.

Definition paid (a : ooa) : Prop :=
  p_base_free (a_pos a) = 0 /\ p_quote_free (a_pos a) = 0 /\ p_locked_fees (a_pos a) = 0 /\ p_rebates (a_pos a) = 0.
Record resting (e : env) (u : Z) (dest : Z -> Z * Z) (r : Z) (s : sys) : Prop := {
  rs_reach : reachable s;
  rs_open : s_closed s = false;
  rs_admin : winds_down u (e_now e) (w_mkt (s_w s));
  rs_orders : forall sd, orders (s_w s) sd = [];
  rs_events : waiting (s_w s) = [];
  rs_payable : payable s dest r }.

Lemma nothing_open e u dest r s k a : resting e u dest r s -> acct_get k (w_accts (s_w s)) = Some a ->
  p_bids_base (a_pos a) = 0 /\ p_asks_base (a_pos a) = 0 /\ p_bids_quote (a_pos a) = 0.
Proof.
  intros [R _ _ Ho Hw _] A. pose proof (reachable_backed _ R) as Hbk.
  pose proof (bk_bids _ Hbk _ _ A) as B1. pose proof (bk_asks _ Hbk _ _ A) as B2. pose proof (bk_quote _ Hbk _ _ A) as B3.
  unfold lots, bid_quote, things_sum in B1, B2, B3. rewrite (Ho Bid), (Ho Ask), Hw in B1, B2, B3.
  cbn [map] in B1, B2, B3. change (sumZ []) with 0 in B1, B2, B3. lia.
Qed.

Lemma asum_ge f ac k a : NoDup (map fst ac) -> (forall j b, acct_get j ac = Some b -> 0 <= f (a_pos b)) ->
  acct_get k ac = Some a -> f (a_pos a) <= asum f ac.
Proof.
  intros N H A. pose proof (asum_del f k a ac A) as D. enough (0 <= asum f (acct_del k ac)) by lia.
  clear A D. induction ac as [|[j b] r IH]; [cbn; lia|]. cbn [acct_del]. cbn [map fst] in N. inversion N as [|x y N1 N2]; subst.
  assert (H' : forall i c, acct_get i r = Some c -> 0 <= f (a_pos c)).
  { intros i c G. apply (H i). cbn [acct_get]. destruct (i =? j) eqn:E; [|exact G]. exfalso. apply N1. apply acct_get_in in G.
    assert (i = j) as -> by lia. exact (in_map fst _ _ G). }
  destruct (k =? j); [exact (asum_nonneg _ _ N2 H')|]. rewrite asum_cons. pose proof (IH N2 H').
  pose proof (H j b) as G. cbn [acct_get] in G. rewrite Z.eqb_refl in G. specialize (G eq_refl). lia.
Qed.
(** No account is owed more than the vaults hold. *)
Lemma owed_at_most s k a : reachable s -> acct_get k (w_accts (s_w s)) = Some a ->
  let m := w_mkt (s_w s) in let p := a_pos a in
  p_base_free p <= m_base_total m /\ p_quote_free p + p_rebates p + p_locked_fees p <= m_quote_total m /\
  0 <= p_base_free p /\ 0 <= p_quote_free p /\ 0 <= p_locked_fees p /\ 0 <= p_rebates p.
Proof.
  intros R A m p. destruct (reachable_inv _ R) as (cl & ct & P & HI). pose proof (iv_led _ _ _ _ _ _ HI) as HL. pose proof (ld_keys _ _ _ HL) as N.
  assert (Hp : forall j b, acct_get j (w_accts (s_w s)) = Some b -> 0 <= p_base_free (a_pos b) /\ 0 <= p_quote_free (a_pos b) /\ 0 <= p_locked_fees (a_pos b) /\ 0 <= p_rebates (a_pos b)).
  { intros j b B. destruct (ac_pos _ _ _ _ (ld_acct _ _ _ HL _ _ B)) as [P1 P2 P3 P4 _ _ _ _]. unfold u64_ok in *. lia. }
  pose proof (reachable_solvent _ R) as [_ _ S1 S2]. pose proof (mk_avail _ (ld_mkt _ _ _ HL)) as F. unfold u64_ok in F.
  pose proof (asum_ge p_base_free _ k a N (fun j b B => proj1 (Hp j b B)) A) as G1.
  pose proof (asum_ge (fun p => p_quote_free p + p_rebates p + p_locked_fees p) _ k a N) as G2. cbv beta in G2.
  specialize (G2 ltac:(intros j b B; specialize (Hp j b B); lia) A). specialize (Hp k a A). fold p in G1, G2, Hp.
  change (asum p_base_free (w_accts (s_w s)) <= m_base_total m) in S1.
  change (asum (fun p => p_quote_free p + p_rebates p + p_locked_fees p) (w_accts (s_w s)) + m_fees_available m <= m_quote_total m) in S2.
  change (m_fees_available (w_mkt (s_w s))) with (m_fees_available m) in F. clear HI HL. lia.
Qed.

Lemma tok_room t t' d vault mint f : has_room t d vault mint ->
  (forall v, t' v = option_map (fun x => mkTacc (t_mint x) (t_owner x) (t_amount x + f v)) (t v)) -> f d + f vault <= 0 -> has_room t' d vault mint.
Proof.
  intros (x & v & X & V & M & A) H F. exists (mkTacc (t_mint x) (t_owner x) (t_amount x + f d)), (mkTacc (t_mint v) (t_owner v) (t_amount v + f vault)).
  rewrite !H, X, V. cbn. repeat split; [exact M|lia].
Qed.
Lemma tok_owned t t' d u f : owned_by t d u ->
  (forall v, t' v = option_map (fun x => mkTacc (t_mint x) (t_owner x) (t_amount x + f v)) (t v)) -> owned_by t' d u.
Proof. intros (x & X & O) H. eexists. rewrite H, X. cbn. split; [reflexivity|exact O]. Qed.
(** Paying out of a vault leaves room everywhere. *)
Lemma pay_base c ub uq b q f d t : 0 <= b -> 0 <= q -> c_base_mint c <> c_quote_mint c ->
  (exists v, t (c_base_vault c) = Some v /\ t_mint v = c_base_mint c) -> (exists v, t (c_quote_vault c) = Some v /\ t_mint v = c_quote_mint c) ->
  (exists x, t ub = Some x /\ t_mint x = c_base_mint c) -> (exists x, t uq = Some x /\ t_mint x = c_quote_mint c) ->
  (exists x, t d = Some x /\ t_mint x = c_base_mint c) ->
  after_settle c ub uq None b q f d + after_settle c ub uq None b q f (c_base_vault c) <= 0.
Proof.
  intros Hb Hq Hm (v1 & V1 & M1) (v2 & V2 & M2) (x1 & X1 & N1) (x2 & X2 & N2) (y & Y & L). unfold after_settle.
  assert (d <> uq /\ d <> c_quote_vault c /\ c_base_vault c <> uq /\ c_base_vault c <> c_quote_vault c) as (E1 & E2 & E3 & E4) by (repeat split; congruence).
  replace (d =? uq) with false by lia. replace (d =? c_quote_vault c) with false by lia. replace (c_base_vault c =? uq) with false by lia.
  replace (c_base_vault c =? c_quote_vault c) with false by lia. rewrite Z.eqb_refl.
  destruct (Z.eqb_spec d ub), (Z.eqb_spec d (c_base_vault c)), (Z.eqb_spec (c_base_vault c) ub); try congruence; lia.
Qed.
Lemma pay_quote c ub uq b q f d t : 0 <= b -> 0 <= q -> c_base_mint c <> c_quote_mint c ->
  (exists v, t (c_base_vault c) = Some v /\ t_mint v = c_base_mint c) -> (exists v, t (c_quote_vault c) = Some v /\ t_mint v = c_quote_mint c) ->
  (exists x, t ub = Some x /\ t_mint x = c_base_mint c) -> (exists x, t uq = Some x /\ t_mint x = c_quote_mint c) ->
  (exists x, t d = Some x /\ t_mint x = c_quote_mint c) ->
  after_settle c ub uq None b q f d + after_settle c ub uq None b q f (c_quote_vault c) <= 0.
Proof.
  intros Hb Hq Hm (v1 & V1 & M1) (v2 & V2 & M2) (x1 & X1 & N1) (x2 & X2 & N2) (y & Y & L). unfold after_settle.
  assert (d <> ub /\ d <> c_base_vault c /\ c_quote_vault c <> ub /\ c_quote_vault c <> c_base_vault c) as (E1 & E2 & E3 & E4) by (repeat split; congruence).
  replace (d =? ub) with false by lia. replace (d =? c_base_vault c) with false by lia. replace (c_quote_vault c =? ub) with false by lia.
  replace (c_quote_vault c =? c_base_vault c) with false by lia. rewrite Z.eqb_refl.
  destruct (Z.eqb_spec d uq), (Z.eqb_spec d (c_quote_vault c)), (Z.eqb_spec (c_quote_vault c) uq); try congruence; lia.
Qed.

Lemma settle_one e u dest r s k a : resting e u dest r s -> acct_get k (w_accts (s_w s)) = Some a ->
  exists s', exec e s (ISettleExpired u k (fst (dest k)) (snd (dest k)) None) = Ok (s', ONone) /\ resting e u dest r s' /\
    m_cfg (w_mkt (s_w s')) = m_cfg (w_mkt (s_w s)) /\
    (forall j, j <> k -> acct_get j (w_accts (s_w s')) = acct_get j (w_accts (s_w s))) /\
    (exists a', acct_get k (w_accts (s_w s')) = Some a' /\ paid a').
Proof.
  intros Q A. pose proof Q as [R C U Ho Hw [P1 P2 P3 P4]]. destruct (P2 _ _ A) as (B1 & B2). destruct (P3 _ _ A) as (B3 & B4).
  destruct (owed_at_most _ _ _ R A) as (O1 & O2 & O3 & O4 & O5 & O6).
  pose proof (reachable_funded _ R) as ((_ & Hm) & (vb & Vb & _ & Mb & Ab) & (vq & Vq & _ & Mq & Aq)).
  set (c := m_cfg (w_mkt (s_w s))) in *. set (p := a_pos a) in *. set (ub := fst (dest k)) in *. set (uq := snd (dest k)) in *.
  assert (Hi : settles (ISettleExpired u k ub uq None) k ub uq None) by (right; exists u; reflexivity).
  pose proof B1 as (xb & vb' & Xb & Vb' & Nb & Rb). rewrite Vb in Vb'. injection Vb' as <-.
  pose proof B3 as (xq & vq' & Xq & Vq' & Nq & Rq). rewrite Vq in Vq'. injection Vq' as <-.
  destruct (settle_possible e s (ISettleExpired u k ub uq None) k ub uq None a R C Hi A U) as (s' & H).
  - exists xb. split; [exact Xb|]. split; [exact Nb|]. fold p. lia.
  - exists xq. split; [exact Xq|]. split; [exact Nq|]. fold p. lia.
  - exact I.
  - exact (P1 _ _ A).
  - intros x [X|X]; [destruct B2 as (y & Y & <-)|destruct B4 as (y & Y & <-)]; congruence.
  - exists s'. split; [exact H|]. pose proof (reach_step _ _ _ _ _ R H) as R'.
    destruct (exec_settle _ _ _ _ _ _ _ _ _ H Hi) as (a0 & A0 & G & _). rewrite A in A0. injection A0 as <-.
    destruct (reachable_inv _ R) as (cl & ct & P & HI). pose proof (led_free _ _ (iv_led _ _ _ _ _ _ HI)) as Hf.
    destruct (settle_tokens _ _ _ _ _ _ _ Hf A G) as (Ew & Ec & Et). fold c p in Ew, Et.
    assert (Ecfg : m_cfg (w_mkt (s_w s')) = c) by (rewrite Ew; reflexivity).
    assert (K : kept (s_w s) (s_w s') \/ True) by (right; exact I). clear K.
    assert (Eacct : w_accts (s_w s') = acct_set k (a_set_pos a (settled_pos (w_mkt (s_w s)) p)) (w_accts (s_w s))) by (rewrite Ew; reflexivity).
    assert (Back : forall j b, acct_get j (w_accts (s_w s')) = Some b -> exists b0, acct_get j (w_accts (s_w s)) = Some b0 /\ a_owner b = a_owner b0 /\
      (p_penalty (a_pos b) = p_penalty (a_pos b0) \/ p_penalty (a_pos b) = 0)).
    { intros j b Bj. rewrite Eacct, acct_get_set in Bj. destruct (Z.eqb_spec j k) as [->|N].
      - rewrite A in Bj. injection Bj as <-. exists a. split; [exact A|]. split; [reflexivity|right; reflexivity].
      - exists b. split; [exact Bj|]. split; [reflexivity|left; reflexivity]. }
    assert (Vb1 : exists v, s_tok s (c_base_vault c) = Some v /\ t_mint v = c_base_mint c) by (exists vb; split; assumption).
    assert (Vq1 : exists v, s_tok s (c_quote_vault c) = Some v /\ t_mint v = c_quote_mint c) by (exists vq; split; assumption).
    assert (Xb1 : exists v, s_tok s ub = Some v /\ t_mint v = c_base_mint c) by (exists xb; split; assumption).
    assert (Xq1 : exists v, s_tok s uq = Some v /\ t_mint v = c_quote_mint c) by (exists xq; split; assumption).
    assert (Room : forall d v mint, has_room (s_tok s) d v mint -> exists x, s_tok s d = Some x /\ t_mint x = mint) by (intros d v mint (x & y & X & _ & M & _); exists x; split; assumption).
    split; [|split; [exact Ecfg|split]].
    + split; [exact R'|congruence| | | |].
      * rewrite Ew. exact U.
      * intros sd. rewrite <- (Ho sd). apply orders_same_book. rewrite Ew. destruct sd; reflexivity.
      * rewrite <- Hw. unfold waiting, queue_of. rewrite Ew. reflexivity.
      * split; rewrite ?Ecfg.
        -- intros j b Bj. destruct (Back _ _ Bj) as (b0 & B0 & _ & [-> | ->]); [exact (P1 _ _ B0)|lia].
        -- intros j b Bj. destruct (Back _ _ Bj) as (b0 & B0 & -> & _). destruct (P2 _ _ B0) as [Q1 Q2]. split.
           ++ eapply tok_room; [exact Q1|exact Et|]. eapply pay_base; [exact O3|exact O4|exact Hm|exact Vb1|exact Vq1|exact Xb1|exact Xq1|exact (Room _ _ _ Q1)].
           ++ eapply tok_owned; [exact Q2|exact Et].
        -- intros j b Bj. destruct (Back _ _ Bj) as (b0 & B0 & -> & _). destruct (P3 _ _ B0) as [Q1 Q2]. split.
           ++ eapply tok_room; [exact Q1|exact Et|]. eapply pay_quote; [exact O3|exact O4|exact Hm|exact Vb1|exact Vq1|exact Xb1|exact Xq1|exact (Room _ _ _ Q1)].
           ++ eapply tok_owned; [exact Q2|exact Et].
        -- eapply tok_room; [exact P4|exact Et|]. eapply pay_quote; [exact O3|exact O4|exact Hm|exact Vb1|exact Vq1|exact Xb1|exact Xq1|exact (Room _ _ _ P4)].
    + intros j N. rewrite Eacct, acct_get_set. replace (j =? k) with false by lia. reflexivity.
    + rewrite Eacct, acct_get_set, Z.eqb_refl, A. cbn [option_map]. eexists. split; [reflexivity|].
      destruct (nothing_open _ _ _ _ _ _ _ Q A) as (Z1 & _ & _). fold p in Z1.
      unfold paid. cbn [a_set_pos a_pos settled_pos p_base_free p_quote_free p_locked_fees p_rebates]. repeat split.
      unfold round_now. rewrite Z1, Z.eqb_refl, andb_true_r. destruct (Z.ltb_spec 0 (maker_fee (w_mkt (s_w s)))) as [F|F]; [reflexivity|].
      exact (ul_none _ (reachable_unlocked _ R F) _ _ A).
Qed.

Lemma settle_all e u dest r : forall ks s, resting e u dest r s -> (forall k, In k ks -> exists a, acct_get k (w_accts (s_w s)) = Some a) ->
  exists s', executes e s (map (fun k => ISettleExpired u k (fst (dest k)) (snd (dest k)) None) ks) s' /\ resting e u dest r s' /\
    m_cfg (w_mkt (s_w s')) = m_cfg (w_mkt (s_w s)) /\
    (forall k a', acct_get k (w_accts (s_w s')) = Some a' -> In k ks \/ (exists a, acct_get k (w_accts (s_w s)) = Some a /\ paid a) -> paid a') /\
    (forall k a', acct_get k (w_accts (s_w s')) = Some a' -> exists a, acct_get k (w_accts (s_w s)) = Some a).
Proof.
  induction ks as [|k ks IH]; intros s Q Hk.
  - exists s. split; [apply xs_none|]. split; [exact Q|]. split; [reflexivity|]. split; [|eauto]. intros k a' A [[]|(a & B & P)]. rewrite A in B. injection B as <-. exact P.
  - destruct (Hk k (or_introl eq_refl)) as (a & A). destruct (settle_one _ _ _ _ _ _ _ Q A) as (s1 & H & Q1 & M1 & S1 & (a1 & A1 & P1)).
    assert (T1 : forall j b, acct_get j (w_accts (s_w s1)) = Some b -> exists b0, acct_get j (w_accts (s_w s)) = Some b0).
    { intros j b Bj. destruct (Z.eq_dec j k) as [->|N]; [exists a; exact A|]. rewrite (S1 _ N) in Bj. exists b. exact Bj. }
    destruct (IH s1 Q1) as (s2 & X & Q2 & M2 & P2 & T2).
    { intros j Hj. destruct (Z.eq_dec j k) as [->|N]; [exists a1; exact A1|]. rewrite (S1 _ N). exact (Hk _ (or_intror Hj)). }
    exists s2. split; [cbn [map]; eapply xs_more; [exact H|exact X]|]. split; [exact Q2|]. split; [congruence|]. split.
    + intros j b Bj Hor. apply (P2 _ _ Bj). destruct (Z.eq_dec j k) as [->|N]; [right; exists a1; split; [exact A1|exact P1]|].
      destruct Hor as [[E|Hj]|(b0 & B0 & Pb)]; [congruence|left; exact Hj|]. right. exists b0. rewrite (S1 _ N). split; assumption.
    + intros j b Bj. destruct (T2 _ _ Bj) as (b1 & B1). exact (T1 _ _ B1).
Qed.

(** ** Collecting the fees *)
Lemma sweep_works e u dest r s : resting e u dest r s -> (forall k a, acct_get k (w_accts (s_w s)) = Some a -> paid a) ->
  exists s', exec e s (ISweep (c_collect_fee_admin (m_cfg (w_mkt (s_w s)))) r) = Ok (s', ONone) /\ reachable s' /\ s_closed s' = false /\
    winds_down u (e_now e) (w_mkt (s_w s')) /\ (forall sd, orders (s_w s') sd = []) /\ waiting (s_w s') = [] /\
    m_fees_available (w_mkt (s_w s')) = 0 /\ w_accts (s_w s') = w_accts (s_w s).
Proof.
  intros [R C U Ho Hw [_ _ _ (x & vq & X & Vq & Mx & Rm)]] Hp.
  pose proof (reachable_funded _ R) as (_ & _ & (v & V & Ov & Mv & Av)). rewrite Vq in V. injection V as <-.
  destruct (reachable_inv _ R) as (cl & ct & P & HI). pose proof (iv_led _ _ _ _ _ _ HI) as HL.
  pose proof (mk_avail _ (ld_mkt _ _ _ HL)) as F. unfold u64_ok in F. pose proof (inv_takeable _ _ _ _ HI) as [_ T].
  assert (T0 : 0 <= asum p_quote_free (w_accts (s_w s)) + asum p_locked_fees (w_accts (s_w s)) + asum p_rebates (w_accts (s_w s))).
  { assert (G : forall f, (forall k b, acct_get k (w_accts (s_w s)) = Some b -> 0 <= f (a_pos b)) -> 0 <= asum f (w_accts (s_w s))) by (intros f; apply asum_nonneg; exact (ld_keys _ _ _ HL)).
    pose proof (G p_quote_free) as G1. pose proof (G p_locked_fees) as G2. pose proof (G p_rebates) as G3.
    assert (Hn : forall k b, acct_get k (w_accts (s_w s)) = Some b -> paid b) by exact Hp. unfold paid in Hn.
    specialize (G1 ltac:(intros k b B; specialize (Hn k b B); lia)). specialize (G2 ltac:(intros k b B; specialize (Hn k b B); lia)).
    specialize (G3 ltac:(intros k b B; specialize (Hn k b B); lia)). lia. }
  destruct (transfer_succeeds (s_tok s) (m_fees_available (w_mkt (s_w s))) _ _ (c_authority (m_cfg (w_mkt (s_w s)))) _ _ Vq X ltac:(congruence) Ov ltac:(lia) ltac:(lia)) as (t' & Ht).
  pose proof (mk_quote _ (ld_mkt _ _ _ HL)) as Fq. unfold u64_ok in Fq.
  assert (H : exists s', exec e s (ISweep (c_collect_fee_admin (m_cfg (w_mkt (s_w s)))) r) = Ok (s', ONone) /\
    s' = mkSys (w_set_mkt (s_w s) (m_set_quote_total (m_set_fees_available (w_mkt (s_w s)) 0) (m_quote_total (w_mkt (s_w s)) - m_fees_available (w_mkt (s_w s))))) t' (s_closed s)).
  { eexists. split; [|reflexivity]. unfold exec. rewrite C. cbn [andb]. unfold exec_open. cbv zeta. unfold lift_s, sweep_fees_ix. cbv zeta.
    rewrite Z.eqb_refl. cbn [require bind]. unfold check_mint, tok_load. rewrite X, Vq. cbn [bind].
    replace (t_mint x =? t_mint vq) with true by lia. cbn [require bind].
    rewrite BaseFacts.chk_u64_in by lia. cbn [bind].
    rewrite Ht. cbn [bind]. rewrite ?C. reflexivity. }
  destruct H as (s' & H & Es). exists s'. split; [exact H|]. split; [exact (reach_step _ _ _ _ _ R H)|]. rewrite Es. split; [exact C|]. split; [exact U|].
  split; [exact Ho|]. split; [exact Hw|]. split; reflexivity.
Qed.

(** ** Closing *)
Lemma empty_side w sd : readable w -> orders w sd = [] -> bs_is_empty (w_book w sd) = Ok true.
Proof.
  intros [Hr _] H. destruct (Hr sd Fixed) as (f & F). destruct (Hr sd OraclePegged) as (p & P). unfold orders, tree_orders in H. rewrite F, P in H.
  unfold bs_is_empty. cbn [bs_root] in F, P. rewrite F, P. cbn [bind].
  destruct f as [|x f]; [|discriminate H]. destruct p as [|y p]; [reflexivity|discriminate H].
Qed.
Lemma sum_all_zero f (ac : accounts) : (forall ka, In ka ac -> f (a_pos (snd ka)) = 0) -> asum f ac = 0.
Proof.
  induction ac as [|[k x] l IH]; intros Hf; [reflexivity|]. rewrite asum_cons. pose proof (Hf _ (or_introl eq_refl)) as E. cbn [snd] in E.
  rewrite E, IH; [reflexivity|]. intros y Hy. apply Hf. right. exact Hy.
Qed.
Lemma close_works e u s : reachable s -> s_closed s = false -> winds_down u (e_now e) (w_mkt (s_w s)) -> (forall sd, orders (s_w s) sd = []) ->
  waiting (s_w s) = [] -> m_fees_available (w_mkt (s_w s)) = 0 ->
  (forall k a, acct_get k (w_accts (s_w s)) = Some a -> paid a) -> exists s', exec e s (ICloseMarket u) = Ok (s', ONone).
Proof.
  intros R C (U1 & U2 & U3) Ho Hw F Hp.
  destruct (reachable_inv _ R) as (cl & ct & P & HI). pose proof (iv_rep _ _ _ _ _ _ HI) as HR. pose proof (iv_led _ _ _ _ _ _ HI) as HL.
  pose proof (reachable_backed _ R) as Hbk. pose proof (bk_read _ Hbk) as Hrd.
  assert (Hin : forall ka, In ka (w_accts (s_w s)) -> paid (snd ka) /\ p_asks_base (a_pos (snd ka)) = 0 /\ p_bids_quote (a_pos (snd ka)) = 0).
  { intros [k a] G. apply acct_in_get in G; [|exact (ld_keys _ _ _ HL)]. split; [exact (Hp _ _ G)|].
    pose proof (bk_asks _ Hbk _ _ G) as B2. pose proof (bk_quote _ Hbk _ _ G) as B3.
    unfold lots, bid_quote, things_sum in B2, B3. rewrite (Ho Bid), (Ho Ask), Hw in B2, B3.
    cbn [map] in B2, B3. change (sumZ []) with 0 in B2, B3. cbn [snd]. lia. }
  assert (Hs0 : forall f, (forall ka, In ka (w_accts (s_w s)) -> f (a_pos (snd ka)) = 0) -> accounts_sum f (s_w s) = 0).
  { intros f Hf. exact (sum_all_zero f _ Hf). }
  pose proof (base_conserved _ R) as Cb. pose proof (quote_conserved _ R) as Cq. cbv zeta in Cb, Cq. unfold fills_sum in Cb, Cq. rewrite Hw in Cb, Cq.
  cbn [map] in Cb, Cq. change (sumZ []) with 0 in Cb, Cq.
  rewrite Hs0 in Cb by (intros ka Hk; destruct (Hin ka Hk) as ((Z1 & Z2 & Z3 & Z4) & Z5 & Z6); rewrite Z1, Z5; reflexivity).
  rewrite Hs0 in Cq by (intros ka Hk; destruct (Hin ka Hk) as ((Z1 & Z2 & Z3 & Z4) & Z5 & Z6); rewrite Z2, Z3, Z4, Z6; reflexivity).
  pose proof (ld_reb _ _ _ HL) as Cr. change (m_rebates_accrued (w_mkt (s_w s)) = accounts_sum p_rebates (s_w s)) in Cr.
  rewrite Hs0 in Cr by (intros ka Hk; destruct (Hin ka Hk) as ((Z1 & Z2 & Z3 & Z4) & Z5 & Z6); exact Z4).
  eexists. unfold exec. rewrite C. cbn [andb]. unfold exec_open. cbv zeta. unfold close_market_ix, check_close_admin. cbv zeta. rewrite U2.
  replace (negb (c_close_market_admin (m_cfg (w_mkt (s_w s))) =? 0)) with true by lia. rewrite Z.eqb_refl. cbn [require bind].
  rewrite (expired_true _ _ U3). cbn [require bind]. unfold market_is_empty. rewrite Cb, Cq, F, Cr. cbn [Z.add Z.eqb andb require bind].
  rewrite (empty_side (s_w s) Bid Hrd (Ho Bid) : bs_is_empty (w_bids (s_w s)) = _), (empty_side (s_w s) Ask Hrd (Ho Ask) : bs_is_empty (w_asks (s_w s)) = _). cbn [andb require bind].
  assert (Hh : heap_is_empty (w_heap (s_w s)) = true).
  { destruct (rp_heap _ _ HR) as (L & Hh & _). unfold waiting, queue_of in Hw. rewrite (heap_iter_rep _ _ Hh) in Hw. destruct Hh as (G & Hh). pose proof (hr_count _ _ _ Hh) as N.
    apply map_eq_nil in Hw. subst L. unfold heap_is_empty. cbn [length] in N. lia. }
  rewrite Hh. reflexivity.
Qed.

Theorem winding_down e u s dest r : reachable s -> s_closed s = false -> winds_down u (e_now e) (w_mkt (s_w s)) -> ready s dest r ->
  exists l s1 s2, executes e s l s1 /\ Forall (admin_only (w_mkt (s_w s)) dest r) l /\ exec e s1 (ICloseMarket u) = Ok (s2, ONone).
Proof.
  intros R C U [L1 L2 L3 L4 L5]. set (ks := map fst (w_accts (s_w s))).
  destruct (reachable_inv _ R) as (cl & ct & P & HI). pose proof (ld_keys _ _ _ (iv_led _ _ _ _ _ _ HI)) as Nd.
  assert (Hks : forall k, In k ks <-> exists a, acct_get k (w_accts (s_w s)) = Some a).
  { intros k. unfold ks. split.
    - intros Hk. apply in_map_iff in Hk as ((k', a) & <- & Hk). exists a. exact (acct_in_get _ _ _ Nd Hk).
    - intros (a & A). apply acct_get_in in A. exact (in_map fst _ _ A). }
  destruct (prune_all e u ks s Nd R C U) as (s1 & X1 & R1 & C1 & M1 & T1 & K1 & O1 & N1).
  { intros k Hk. apply Hks in Hk as (a & A). exists a. split; [exact A|exact (L1 _ _ A)]. }
  assert (Ho1 : forall sd, orders (s_w s1) sd = []).
  { intros sd. destruct (orders (s_w s1) sd) as [|[t l] r0] eqn:E; [reflexivity|exfalso].
    assert (Hin : In (t, l) (orders (s_w s1) sd)) by (rewrite E; left; reflexivity).
    apply (N1 _ _ _ Hin). apply Hks. apply O1 in Hin. destruct (bk_order _ (reachable_backed _ R) _ _ _ Hin) as (a & oo & A & _). exists a. exact A. }
  assert (Py : payable s dest r) by (split; assumption).
  apply (payable_kept _ s1) in Py; [|exact K1|congruence|exact T1].
  destruct (drain_all e (queue_of (s_w s1)) s1 R1 C1 (Permutation_refl _)) as (s2 & X2 & W2 & R2 & C2 & M2 & E2 & T2 & K2 & B2 & A2).
  apply (payable_kept _ s2) in Py; [|exact K2|exact M2|exact T2].
  assert (Q : resting e u dest r s2).
  { split; [exact R2|exact C2| | |exact W2|exact Py].
    - destruct U as (U1 & U2 & U3). unfold winds_down. rewrite M2, E2, M1. repeat split; assumption || apply U3.
    - intros sd. rewrite <- (Ho1 sd). apply orders_same_book. destruct sd; [exact B2|exact A2]. }
  pose proof (kept_trans _ _ _ K1 K2) as K.
  destruct (settle_all e u dest r ks s2 Q) as (s3 & X3 & Q3 & M3 & P3 & T3).
  { intros k Hk. apply Hks in Hk as (a & A). exact (kept_there _ _ _ _ K A). }
  assert (Hpaid : forall k a, acct_get k (w_accts (s_w s3)) = Some a -> paid a).
  { intros k a A. apply (P3 _ _ A). left. apply Hks. destruct (T3 _ _ A) as (b & B). destruct (kept_back _ _ _ _ K B) as (b0 & B0 & _). exists b0. exact B0. }
  destruct (sweep_works _ _ _ _ _ Q3 Hpaid) as (s4 & X4 & R4 & C4 & U4 & O4 & W4 & F4 & A4).
  destruct (close_works e u s4 R4 C4 U4 O4 W4 F4) as (s5 & X5). { intros k a A. rewrite A4 in A. exact (Hpaid _ _ A). }
  eexists _, s4, s5. split; [|split; [|exact X5]].
  - eapply executes_app; [exact X1|]. eapply executes_app; [exact X2|]. eapply executes_app; [exact X3|]. eapply xs_more; [exact X4|apply xs_none].
  - rewrite !Forall_app. repeat split.
    + apply Forall_forall. intros i Hi. apply in_map_iff in Hi as (k & <- & _). cbn [admin_only]. exact (proj1 (proj2 U)).
    + apply Forall_forall. intros i Hi. apply in_map_iff in Hi as (x & <- & _). cbn [admin_only]. rewrite M1. reflexivity.
    + apply Forall_forall. intros i Hi. apply in_map_iff in Hi as (k & <- & _). cbn [admin_only]. split; [exact (proj1 (proj2 U))|]. split; [destruct (dest k); reflexivity|reflexivity].
    + constructor; [|constructor]. cbn [admin_only]. rewrite M3, M2, M1. split; reflexivity.
Qed.

(** ** Checking that a given market is ready *)
Definition has_room_b (t : tokens) (d vault mint : Z) : bool :=
  match t d, t vault with
  | Some x, Some v => (t_mint x =? mint) && (t_amount x + t_amount v <=? 18446744073709551615)
  | _, _ => false
  end.
Definition owned_by_b (t : tokens) (d u : Z) : bool := match t d with Some x => t_owner x =? u | None => false end.
Definition ready_b (s : sys) (dest : Z -> Z * Z) (receiver : Z) : bool :=
  let t := s_tok s in let c := m_cfg (w_mkt (s_w s)) in
  forallb (fun ka => let p := a_pos (snd ka) in let d := dest (fst ka) in
    (p_bids_base p + p_asks_base p <? 9223372036854775808) && (p_penalty p * 500 <=? 18446744073709551615) &&
    has_room_b t (fst d) (c_base_vault c) (c_base_mint c) && owned_by_b t (fst d) (a_owner (snd ka)) &&
    has_room_b t (snd d) (c_quote_vault c) (c_quote_mint c) && owned_by_b t (snd d) (a_owner (snd ka))) (w_accts (s_w s)) &&
  has_room_b t receiver (c_quote_vault c) (c_quote_mint c).
Lemma has_room_b_ok t d v m : has_room_b t d v m = true -> has_room t d v m.
Proof.
  unfold has_room_b, has_room. destruct (t d) as [x|]; [|intros H; discriminate H]. destruct (t v) as [y|]; [|intros H; discriminate H].
  intros H. apply andb_prop in H as [H1 H2]. exists x, y. repeat split; lia.
Qed.
Lemma owned_by_b_ok t d u : owned_by_b t d u = true -> owned_by t d u.
Proof. unfold owned_by_b, owned_by. destruct (t d) as [x|]; intros H; [|discriminate H]. exists x. split; [reflexivity|lia]. Qed.
Lemma ready_b_ok s dest r : ready_b s dest r = true -> ready s dest r.
Proof.
  unfold ready_b. intros H. apply andb_prop in H as [H H5]. rewrite forallb_forall in H.
  assert (G : forall k a, acct_get k (w_accts (s_w s)) = Some a -> In (k, a) (w_accts (s_w s))) by (intros k a; apply acct_get_in).
  split; try (apply has_room_b_ok; exact H5); intros k a A; specialize (H _ (G _ _ A)); cbn [fst snd] in H; repeat (apply andb_prop in H as [H ?]).
  - change (2 ^ 63) with 9223372036854775808. lia.
  - lia.
  - split; [apply has_room_b_ok|apply owned_by_b_ok]; assumption.
  - split; [apply has_room_b_ok|apply owned_by_b_ok]; assumption.
Qed.

(** ** The terms *)
Lemma executed_ages s ids s' : reachable s -> executed s ids s' -> ages (w_mkt (s_w s)) (w_mkt (s_w s')) /\ reachable s'.
Proof.
  intros R. induction 1 as [|ids s1 e i s2 out _ [IH R1] H]; [split; [apply ages_refl|exact R]|].
  split; [exact (ages_trans _ _ _ IH (exec_ages _ _ _ _ _ R1 H))|exact (reach_step _ _ _ _ _ R1 H)].
Qed.
