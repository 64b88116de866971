(** The SOL collected for events left in the queue, and what becomes of accounts whose market
    is closed. *)
From Coq Require Import ZArith List Bool Lia ZifyBool Permutation.
From Verif Require Import Base Nodes OrderTree BookSide Heap Market OpenOrders Order Book Instructions
  BaseFacts SpecBook SpecFees SpecOrder MatchFacts OrderFacts PlaceFacts OrderSpecProofs
  Steps StepFacts TokenFacts SpecLedger SpecEvents Ledger LedgerOps LedgerMoves LedgerPlace LedgerOrder LedgerInv SpecSystem SystemFacts Solvency SpecControl ControlFacts LifeFacts IdFacts AuthFacts EndFacts
  Sol SpecSol SolFacts.
Import ListNotations.
Open Scope Z_scope.

Lemma unpaid_nonneg s k : reachable s -> 0 <= unpaid_by k (s_w s).
Proof.
  intros R. destruct (reachable_inv _ R) as (cl & ct & P & HI). unfold unpaid_by. destruct (acct_get k (w_accts (s_w s))) as [a|] eqn:A; [|lia].
  pose proof (po_pn _ _ (ac_pos _ _ _ _ (ld_acct _ _ _ (iv_led _ _ _ _ _ _ HI) _ _ A))) as G. unfold u64_ok in G. lia.
Qed.

Lemma sol_transfer_inv l market n from to l' : sol_transfer l market n from to = Ok l' ->
  (n <= 0 /\ l' = l) \/
  (0 < n /\ from <> market /\ n <= l from /\ forall x, l' x = l x + (if x =? to then n else 0) - (if x =? from then n else 0)).
Proof.
  unfold sol_transfer. destruct (Z.ltb_spec 0 n) as [N|N]; intros H; [right|left; injection H as <-; split; [lia|reflexivity]].
  apply bind_ok in H as (u1 & H1 & H). apply require_ok in H1. apply bind_ok in H as (u2 & H2 & H). apply require_ok in H2. cbv zeta in H.
  apply bind_ok in H as (u3 & H3 & H). injection H as <-. split; [exact N|]. split; [lia|]. split; [lia|]. intros x. unfold l_upd.
  destruct (Z.eqb_spec x to) as [E1|E1]; destruct (Z.eqb_spec x from) as [E2|E2]; subst; rewrite ?Z.eqb_refl; try lia.
  all: destruct (Z.eqb_spec to from); try lia; subst; lia.
Qed.

Lemma due_price e s i s' out : reachable s -> exec e s i = Ok (s', out) -> penalty_due s i s' = 500 * penalties_paid s i s' /\ 0 <= penalties_paid s i s'.
Proof.
  intros R H. pose proof (litters_grows _ _ _ _ _ R H) as L. pose proof (unpaid_nonneg s) as N.
  destruct i; cbn [penalty_due penalties_paid settled_by]; try lia.
  - rewrite L. cbn [sends_orders]. unfold grows. destruct (_ <? _); unfold PENALTY_EVENT_HEAP; lia.
  - specialize (N k R). unfold unpaid_by in *. destruct (acct_get _ _); unfold PENALTY_EVENT_HEAP; lia.
  - specialize (N k R). unfold unpaid_by in *. destruct (acct_get _ _); unfold PENALTY_EVENT_HEAP; lia.
Qed.

Lemma exec_sol_inv e market s l payer dest i s' l' out : exec_sol e market s l payer dest i = Ok (s', l', out) ->
  exec e s i = Ok (s', out) /\
  match i with ICloseMarket _ => sol_close l market dest = Ok l' | _ => sol_transfer l market (penalty_due s i s') payer market = Ok l' end.
Proof.
  unfold exec_sol. intros H. apply bind_ok in H as ([s1 o1] & E & H). apply bind_ok in H as (l1 & L & H). injection H as <- <- <-.
  split; [exact E|destruct i; exact L].
Qed.
Lemma not_close i : (forall u, i <> ICloseMarket u) -> closes_market i = false.
Proof. intros H. destruct i; try reflexivity. exfalso. eapply H. reflexivity. Qed.

Lemma call_paid e market s l payer dest i s' l' out : reachable s -> exec_sol e market s l payer dest i = Ok (s', l', out) -> closes_market i = false ->
  l' market = l market + 500 * penalties_paid s i s' /\
  (payer <> market -> l' payer = l payer - 500 * penalties_paid s i s') /\ (forall x, x <> market -> x <> payer -> l' x = l x) /\
  (0 < penalties_paid s i s' -> payer <> market /\ 500 * penalties_paid s i s' <= l payer).
Proof.
  intros R H C. apply exec_sol_inv in H as [E H]. destruct (due_price _ _ _ _ _ R E) as [D N].
  assert (T : sol_transfer l market (500 * penalties_paid s i s') payer market = Ok l') by (rewrite <- D; destruct i; try exact H; discriminate C).
  apply sol_transfer_inv in T as [[G ->]|(G & Np & Le & X)].
  - assert (penalties_paid s i s' = 0) as -> by lia. repeat split; try lia.
  - rewrite !X, !Z.eqb_refl. split; [destruct (Z.eqb_spec market payer); lia|]. split; [destruct (Z.eqb_spec payer market); lia|].
    split; [|intros _; split; [exact Np|exact Le]]. intros x X1 X2. rewrite X. destruct (Z.eqb_spec x market); [lia|]. destruct (Z.eqb_spec x payer); lia.
Qed.
Lemma balance e s i s' out : reachable s -> exec e s i = Ok (s', out) ->
  penalties_paid s i s' + unpaid (s_w s') = unpaid (s_w s) + litters s i s'.
Proof.
  intros R H. pose proof (litters_grows _ _ _ _ _ R H) as L. pose proof (exec_charged _ _ _ _ _ R H) as B. unfold charged, change in B. apply bo_sum in B.
  destruct i; cbn [orders_for settled_by sends_orders fst snd penalties_paid] in *; lia.
Qed.
Lemma counters e s i s' out k : reachable s -> exec e s i = Ok (s', out) ->
  unpaid_by k (s_w s') =
    match orders_for i, settled_by i with
    | Some j, _ => unpaid_by k (s_w s) + (if k =? j then litters s i s' else 0)
    | None, Some j => if k =? j then 0 else unpaid_by k (s_w s)
    | None, None => unpaid_by k (s_w s)
    end.
Proof.
  intros R H. pose proof (litters_grows _ _ _ _ _ R H) as L. pose proof (exec_charged _ _ _ _ _ R H) as B. unfold charged, change in B. pose proof (bo_each _ _ _ _ B k) as X.
  clear B. destruct i; cbn [orders_for settled_by sends_orders fst snd] in *; try lia;
    match goal with |- context [if k =? ?j then _ else _] => destruct (Z.eqb_spec k j) as [Ek|Ek]; [try rewrite <- Ek in X|]; lia end.
Qed.

Lemma history_reachable market s l n g s' l' : reachable s -> history market s l n g s' l' -> reachable s'.
Proof.
  intros R. induction 1 as [|n g s1 l1 e payer dest i s2 l2 out _ IH E _|n g s1 l1 from to amount l2 _ IH _]; [exact R| |exact IH].
  apply exec_sol_inv in E as [E _]. exact (reach_step _ _ _ _ _ IH E).
Qed.
Lemma penalties_add_up market s l n g s' l' : reachable s -> history market s l n g s' l' ->
  l' market + 500 * unpaid (s_w s') = l market + 500 * unpaid (s_w s) + 500 * n + g.
Proof.
  intros R. induction 1 as [|n g s1 l1 e payer dest i s2 l2 out H0 IH E C|n g s1 l1 from to amount l2 H0 IH T]; [lia| |].
  - pose proof (history_reachable _ _ _ _ _ _ _ R H0) as R1. pose proof (call_paid _ _ _ _ _ _ _ _ _ _ R1 E (not_close _ C)) as (P & _).
    apply exec_sol_inv in E as [E _]. pose proof (balance _ _ _ _ _ R1 E). lia.
  - apply sol_transfer_inv in T as [[G ->]|(G & N & _ & X)].
    + replace (0 <? amount) with false by lia. rewrite andb_false_r. lia.
    + replace (0 <? amount) with true by lia. rewrite andb_true_r, X. rewrite (Z.eqb_sym market to), (Z.eqb_sym market from).
      replace (from =? market) with false by lia. lia.
Qed.

Lemma enough_sol e market s l payer dest i s' out : reachable s -> exec e s i = Ok (s', out) -> closes_market i = false ->
  payer <> market -> 500 * penalties_paid s i s' <= l payer -> l market + 500 * penalties_paid s i s' <= u64_max ->
  exists l', exec_sol e market s l payer dest i = Ok (s', l', out).
Proof.
  intros R E C N P M. destruct (due_price _ _ _ _ _ R E) as [D _].
  assert (T : exists l', sol_transfer l market (penalty_due s i s') payer market = Ok l').
  { rewrite D. unfold sol_transfer. destruct (0 <? _); [|eexists; reflexivity].
    replace (payer =? market) with false by lia. cbn [negb require bind]. replace (500 * penalties_paid s i s' <=? l payer) with true by lia. cbn [require bind]. cbv zeta.
    unfold l_upd at 1. replace (market =? payer) with false by lia. replace (l market + 500 * penalties_paid s i s' <=? u64_max) with true by lia. cbn [require bind].
    eexists. reflexivity. }
  destruct T as (l' & T). exists l'. unfold exec_sol. rewrite E. cbn [bind]. destruct i; try discriminate C; rewrite T; reflexivity.
Qed.

Lemma closing_pays e market s l payer dest u s' l' out : exec_sol e market s l payer dest (ICloseMarket u) = Ok (s', l', out) ->
  dest <> market /\ l' market = 0 /\ l' dest = l dest + l market /\ forall x, x <> market -> x <> dest -> l' x = l x.
Proof.
  intros H. apply exec_sol_inv in H as [_ H]. unfold sol_close in H. apply bind_ok in H as (u1 & H1 & H). apply require_ok in H1. cbv zeta in H.
  apply bind_ok in H as (u2 & _ & H). injection H as <-. split; [lia|]. unfold l_upd. rewrite !Z.eqb_refl. replace (market =? dest) with false by lia.
  replace (dest =? market) with false by lia. repeat split; try lia. intros x X1 X2. replace (x =? dest) with false by lia. replace (x =? market) with false by lia. reflexivity.
Qed.

(** ** After the market is closed *)
Lemma place_closed e s x o limit s' id : place_order_ix e s x o limit = Ok (s', id) -> s_closed s' = s_closed s.
Proof. intros H. apply place_ix_inv in H as (_ & _ & _ & _ & oracle & w1 & r & w2 & d & t & _ & _ & _ & _ & _ & -> & _). reflexivity. Qed.
Lemma exec_closed e s i s' out : exec e s i = Ok (s', out) -> closes_market i = false -> s_closed s' = s_closed s.
Proof.
  intros H C. destruct (is_placing i) eqn:Hp.
  - apply exec_placing in H; [|exact Hp].
    destruct H as [i _ N1 N2|i x o limit s' id Hi _ Hps _ H|i x cid ex o limit s' id Hi _ Hps _ H|x g o limit s' _ _ Hps _ E|x cancel t bids asks limit os s' ids _ _ Hps _ H].
    + reflexivity.
    + exact (place_closed _ _ _ _ _ _ _ H).
    + unfold edit_order_ix in H. apply bind_ok in H as (u1 & _ & H). apply bind_ok in H as ([w q] & E & H). cbv zeta in H. apply bind_ok in H as (f & _ & H).
      match type of H with (if ?c then _ else _) = _ => destruct c end; [|injection H as <- _; reflexivity].
      apply bind_ok in H as (mb & _ & H). exact (place_closed _ _ _ _ _ _ _ H).
    + unfold place_take_ix in E. cbv zeta in E. do 6 (apply bind_ok in E as (? & _ & E)). apply bind_ok in E as ([w1 r] & En & E).
      apply bind_ok in E as (reb & _ & E). destruct (o_side o); do 5 (apply bind_ok in E as (? & _ & E)); injection E as <-; reflexivity.
    + unfold multi_ix in H. cbv zeta in H. do 3 (apply bind_ok in H as (? & _ & H)). apply bind_ok in H as (w0 & E0 & H).
      do 2 (apply bind_ok in H as (? & _ & H)). apply bind_ok in H as ([[[w1 ba] qa] is] & E1 & H). apply bind_ok in H as (a & _ & H). cbv zeta in H.
      do 9 (apply bind_ok in H as (? & _ & H)). injection H as <- _. reflexivity.
  - unfold exec in H. destruct (s_closed s && needs_market i); [discriminate H|]. unfold exec_open in H. cbv zeta in H.
    destruct i as [| | | | | |u k' id|u k' c|u k' sd l|u l r|u l r|u k' ub uq b q|u k' ub uq b q|u k' ub uq ref|u k' ub uq ref|u r
      |k' ow dl n|u k'|u k' d|u|u k' l|u|au f t n|t n|k0 mi ow0|au k0 ow0|au k0 n|au k0]; try discriminate Hp; try discriminate C; unfold lift_w, lift_s in H.
    1: { apply bind_ok in H as (w & _ & H). injection H as <- _. reflexivity. }
    1-2: do 2 (apply bind_ok in H as (? & _ & H)); apply bind_ok in H as ([w q] & E & H); injection H as <- _; reflexivity.
    1-2: do 3 (apply bind_ok in H as (? & _ & H)); injection H as <- _; reflexivity.
    1: { do 3 (apply bind_ok in H as (? & _ & H)). apply bind_ok in H as (s1 & E & H). injection H as <- _. unfold deposit_ix in E. cbv zeta in E. do 10 (apply bind_ok in E as (? & _ & E)). injection E as <-. reflexivity. }
    1: { do 3 (apply bind_ok in H as (? & _ & H)). apply bind_ok in H as (s1 & E & H). injection H as <- _. unfold refill_ix in E. do 3 (apply bind_ok in E as (? & _ & E)).
         unfold deposit_ix in E. cbv zeta in E. do 10 (apply bind_ok in E as (? & _ & E)). injection E as <-. reflexivity. }
    1: { apply bind_ok in H as (s1 & E & H). injection H as <- _. unfold settle_funds_ix in E. do 7 (apply bind_ok in E as (? & _ & E)).
         apply settle_inv in E as (a & t0 & t1 & t2 & Ha & E). cbv zeta in E. destruct E as (_ & _ & _ & _ & ->). reflexivity. }
    1: { apply bind_ok in H as (s1 & E & H). injection H as <- _. unfold settle_funds_expired_ix in E. do 8 (apply bind_ok in E as (? & _ & E)).
         apply settle_inv in E as (a & t0 & t1 & t2 & Ha & E). cbv zeta in E. destruct E as (_ & _ & _ & _ & ->). reflexivity. }
    1: { apply bind_ok in H as (s1 & E & H). injection H as <- _. unfold sweep_fees_ix in E. cbv zeta in E. do 4 (apply bind_ok in E as (? & _ & E)). injection E as <-. reflexivity. }
    1-4: apply bind_ok in H as (w & _ & H); injection H as <- _; reflexivity.
    1: { do 2 (apply bind_ok in H as (? & _ & H)). injection H as <- _. reflexivity. }
    all: repeat (apply bind_ok in H as (? & _ & H)); injection H as <- _; reflexivity.
Qed.

(** A closed market leaves only empty accounts behind. *)
Lemma closed_empty s : reachable s -> s_closed s = true -> forall k a, acct_get k (w_accts (s_w s)) = Some a -> empty_handed a.
Proof.
  induction 1 as [now t c te s H|e s i s' out R IH H]; intros C k a A.
  - unfold create_market_ix in H. repeat (apply bind_ok in H as (? & _ & H)). cbv zeta in H. injection H as <-. discriminate C.
  - destruct (closes_market i) eqn:Ci.
    + destruct i; try discriminate Ci. destruct (close_market_ok _ _ _ _ _ R H) as (_ & _ & _ & _ & G & _ & _ & W & _ & _). rewrite W in A. exact (G _ _ A).
    + rewrite (exec_closed _ _ _ _ _ H Ci) in C. specialize (IH C). pose proof H as H0.
      unfold exec in H. rewrite C in H. cbn [andb] in H. destruct (needs_market i) eqn:Nm; [discriminate H|]. unfold exec_open in H. cbv zeta in H.
      destruct i; try discriminate Nm; unfold lift_w in H.
      1: { unfold exec in H0. pose proof H as H1. apply bind_ok in H1 as (w & E & H1). injection H1 as <- _. unfold close_account_ix in E. apply bind_ok in E as (b & B & E). apply acct_load_ok in B.
           destruct (close_account_ok e s signer k0 (s_set_w s w) out b R H0 B) as (_ & _ & _ & D1 & D2).
           destruct (Z.eq_dec k k0) as [->|N]; [rewrite D1 in A; discriminate A|]. rewrite (D2 _ N) in A. exact (IH _ _ A). }
      1: { apply bind_ok in H as (w & E & H). injection H as <- _. unfold set_delegate_ix in E. apply bind_ok in E as (b & B & E). apply acct_load_ok in B.
           apply bind_ok in E as (? & _ & E). injection E as <-. cbn [s_set_w s_w w_set_acct w_set_accts w_accts] in A. rewrite acct_get_set in A.
           destruct (k =? k0); [|exact (IH _ _ A)]. rewrite B in A. injection A as <-. exact (IH _ _ B). }
      all: repeat (apply bind_ok in H as (? & _ & H)); injection H as <- _; exact (IH _ _ A).
Qed.
Lemma closes_if_paid e s k a : reachable s -> s_closed s = true -> acct_get k (w_accts (s_w s)) = Some a ->
  (exists s' out, exec e s (ICloseAccount (a_owner a) k) = Ok (s', out)) <-> p_penalty (a_pos a) = 0.
Proof.
  intros R C A. split.
  - intros (s' & out & H). unfold exec in H. rewrite C in H. cbn [andb needs_market] in H. unfold exec_open in H. cbv zeta in H. unfold lift_w in H.
    apply bind_ok in H as (w & E & H). unfold close_account_ix in E. apply bind_ok in E as (b & B & E). apply acct_load_ok in B. rewrite A in B. injection B as <-.
    apply bind_ok in E as (? & _ & E). apply bind_ok in E as (? & P & E). apply require_ok in P.
    unfold position_is_empty in P. repeat (apply andb_prop in P; destruct P as [P ?]). lia.
  - intros P. pose proof (closed_empty _ R C _ _ A) as G. unfold empty_handed in G. cbv zeta in G. destruct G as (G1 & G2 & G3 & G4 & G5 & G6 & G7 & _).
    unfold exec. rewrite C. cbn [andb needs_market]. unfold exec_open. cbv zeta. unfold lift_w, close_account_ix, acct_load. rewrite A. cbn [bind]. rewrite Z.eqb_refl. cbn [require bind].
    unfold position_is_empty. rewrite G1, G2, G3, G4, G5, G6, G7, P. cbn [Z.eqb andb]. rewrite orb_true_r. cbn [require bind]. eexists. eexists. reflexivity.
Qed.
Lemma stuck_step e s i s' out k : reachable s -> s_closed s = true -> 0 < unpaid_by k (s_w s) -> exec e s i = Ok (s', out) ->
  s_closed s' = true /\ unpaid_by k (s_w s') = unpaid_by k (s_w s).
Proof.
  intros R C U H. destruct (closes_market i) eqn:Ci.
  - destruct i; try discriminate Ci. unfold exec in H. rewrite C in H. discriminate H.
  - split; [rewrite (exec_closed _ _ _ _ _ H Ci); exact C|]. rewrite (counters _ _ _ _ _ k R H).
    unfold exec in H. rewrite C in H. cbn [andb] in H. destruct (needs_market i) eqn:N; [discriminate H|]. destruct i; try discriminate N; reflexivity.
Qed.
Lemma stuck s ids s' k : reachable s -> s_closed s = true -> 0 < unpaid_by k (s_w s) -> executed s ids s' ->
  reachable s' /\ s_closed s' = true /\ unpaid_by k (s_w s') = unpaid_by k (s_w s).
Proof.
  intros R C U. induction 1 as [|ids s1 e i s2 out _ IH E]; [repeat split; assumption|]. destruct IH as (R1 & C1 & U1).
  split; [exact (reach_step _ _ _ _ _ R1 E)|]. rewrite <- U1. apply (stuck_step e s1 i s2 out k R1 C1); [lia|exact E].
Qed.
Lemma stuck_forever s ids s' e u k : reachable s -> s_closed s = true -> 0 < unpaid_by k (s_w s) -> executed s ids s' ->
  (exists a, acct_get k (w_accts (s_w s')) = Some a /\ empty_handed a) /\ (forall s2 out, exec e s' (ICloseAccount u k) <> Ok (s2, out)).
Proof.
  intros R C U H. destruct (stuck _ _ _ _ R C U H) as (R1 & C1 & U1). pose proof U1 as U2. unfold unpaid_by in U2 at 1.
  destruct (acct_get k (w_accts (s_w s'))) as [a|] eqn:A; [|lia].
  split; [exists a; split; [reflexivity|exact (closed_empty _ R1 C1 _ _ A)]|]. intros s2 out E.
  pose proof E as E0. unfold exec in E. rewrite C1 in E. cbn [andb needs_market] in E. unfold exec_open in E. cbv zeta in E. unfold lift_w in E.
  apply bind_ok in E as (w & E & _). unfold close_account_ix in E. apply bind_ok in E as (b & B & E). apply acct_load_ok in B. rewrite A in B. injection B as <-.
  apply bind_ok in E as (? & _ & E). apply bind_ok in E as (? & P & E). apply require_ok in P.
  unfold position_is_empty in P. repeat (apply andb_prop in P; destruct P as [P ?]). lia.
Qed.
Lemma closing_all e market s l payer dest u s' l' out : reachable s -> exec_sol e market s l payer dest (ICloseMarket u) = Ok (s', l', out) ->
  u = c_close_market_admin (m_cfg (w_mkt (s_w s))) /\ u <> 0 /\ dest <> market /\
  l' market = 0 /\ l' dest = l dest + l market /\ forall x, x <> market -> x <> dest -> l' x = l x.
Proof.
  intros R H. pose proof (closing_pays _ _ _ _ _ _ _ _ _ _ H) as G. apply exec_sol_inv in H as [H _].
  destruct (close_market_ok _ _ _ _ _ R H) as (_ & W & _). unfold winds_down in W. repeat split; try apply G; try lia; intuition congruence.
Qed.
