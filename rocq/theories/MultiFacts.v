(** Cancelling and placing several orders at once: what the orders ask for is covered. *)
From Coq Require Import ZArith List Bool Lia ZifyBool Permutation.
From Verif Require Import Base Nodes OrderTree BookSide Heap Market OpenOrders Order Book Instructions
  BaseFacts HeapFacts SpecBook SpecFees SpecOrder MatchFacts OrderFacts PlaceFacts OrderSpecProofs OrderClaims
  Steps StepFacts TokenFacts SpecLedger SpecEvents Ledger LedgerOps LedgerMoves LedgerPlace LedgerOrder LedgerInv SpecSystem SystemFacts Solvency
  SpecControl ControlFacts AuthFacts ConsumeFacts CancelFacts LifeFacts QuietFacts SpecMulti.
Import ListNotations.
Open Scope Z_scope.

(** The free balances of account [k] did not shrink. *)
Definition richer (k : Z) (w w' : world) : Prop :=
  forall a, acct_get k (w_accts w) = Some a -> exists a', acct_get k (w_accts w') = Some a' /\
    p_base_free (a_pos a) <= p_base_free (a_pos a') /\ p_quote_free (a_pos a) <= p_quote_free (a_pos a').
Lemma richer_same k w w' : w_accts w' = w_accts w -> richer k w w'.
Proof. intros E a Ha. exists a. rewrite E. split; [exact Ha|lia]. Qed.
Lemma richer_trans k w w1 w2 : richer k w w1 -> richer k w1 w2 -> richer k w w2.
Proof.
  intros H1 H2 a Ha. destruct (H1 a Ha) as (a1 & Ha1 & T1). destruct (H2 a1 Ha1) as (a2 & Ha2 & T2).
  exists a2. split; [exact Ha2|]. lia.
Qed.
Lemma richer_bystander k w w' : bystander k w w' -> richer k w w'.
Proof. intros H a Ha. destruct (H a Ha) as (a' & Ha' & T). exists a'. split; [exact Ha'|]. destruct T. split; assumption. Qed.
Lemma richer_set k k1 w w' a a' : acct_get k1 (w_accts w) = Some a -> w_accts w' = acct_set k1 a' (w_accts w) ->
  p_base_free (a_pos a) <= p_base_free (a_pos a') -> p_quote_free (a_pos a) <= p_quote_free (a_pos a') -> richer k w w'.
Proof.
  intros Ha E H1 H2 b Hb. rewrite E, acct_get_set. destruct (k =? k1) eqn:K.
  - assert (k = k1) as -> by lia. rewrite Ha. cbn [option_map]. exists a'. split; [reflexivity|]. replace b with a by congruence. lia.
  - exists b. split; [exact Hb|lia].
Qed.
Lemma cancel_richer k k1 w w' a a' sl q m : acct_get k1 (w_accts w) = Some a -> ooa_cancel_order a sl q m = Ok a' ->
  w_accts w' = acct_set k1 a' (w_accts w) -> richer k w w'.
Proof. intros A E X. apply cancel_traded in E. eapply richer_set; [exact A|exact X| |]; destruct E; assumption. Qed.

Lemma taker_richer a m s b q tf ra a' m' : 0 <= b -> execute_taker a m s b q tf ra = Ok (a', m') ->
  p_base_free (a_pos a) <= p_base_free (a_pos a') /\ p_quote_free (a_pos a) <= p_quote_free (a_pos a').
Proof.
  unfold execute_taker. intros Hb H. cbv zeta in H. apply bind_ok in H as (p1 & P & H). do 3 (apply bind_ok in H as (? & _ & H)).
  injection H as <- _. cbn [a_pos a_set_pos p_set_rebates p_set_taker_volume p_base_free p_quote_free]. destruct s.
  - apply bind_ok in P as (v & V & P). apply chk_u64_ok in V as [-> _]. injection P as <-. cbn [p_set_base_free p_base_free p_quote_free]. lia.
  - apply bind_ok in P as (d & D & P). apply chk_u64_ok in D as [-> D]. apply bind_ok in P as (v & V & P). apply chk_u64_ok in V as [-> _].
    injection P as <-. cbn [p_set_quote_free p_base_free p_quote_free]. lia.
Qed.

Lemma settle_taker_richer k o taker maxq s w' bt qt tf ra rq : settle_taker o taker maxq s = Ok (w', bt, qt, tf, ra, rq) ->
  richer k (ms_w s) w'.
Proof.
  intros H. unfold settle_taker in H. cbv zeta in H.
  do 6 (apply bind_ok in H as (? & _ & H)). apply bind_ok in H as ([[w1 f1] r1] & E & H).
  do 5 (apply bind_ok in H as (? & _ & H)). injection H as <- _ _ _ _ _.
  match type of E with (if ?c then _ else _) = _ => destruct c end; [|injection E as <- _ _; apply richer_same; reflexivity].
  do 2 (apply bind_ok in E as (? & _ & E)). apply bind_ok in E as ([[w2 f2] r2] & E1 & E).
  assert (U2 : w_accts w2 = w_accts (ms_w s)).
  { match type of E1 with (if ?c then _ else _) = _ => destruct c end; [|injection E1 as <- _ _; reflexivity].
    do 3 (apply bind_ok in E1 as (? & _ & E1)). injection E1 as <- _ _. reflexivity. }
  apply bind_ok in E as (w3 & E2 & E). apply bind_ok in E as (? & _ & E). injection E as <- _ _.
  eapply richer_trans; [apply richer_same; exact U2|].
  destruct taker as [t|].
  - apply bind_ok in E2 as (a & A & E2). apply acct_load_ok in A. apply bind_ok in E2 as ([a' m'] & E3 & E2). injection E2 as <-.
    apply taker_richer in E3 as [L C]; [|apply as_u64_nonneg]. eapply richer_set; [exact A|reflexivity|exact L|exact C].
  - apply bind_ok in E2 as (tv & _ & E2). injection E2 as <-. apply richer_same. reflexivity.
Qed.

Lemma process_out_richer k w tk owner rem ev w' : process_out_event w tk owner rem ev = Ok w' -> richer k w w'.
Proof.
  intros H.
  assert (L : forall t k a, load_remaining w t k = Ok a -> acct_get k (w_accts w) = Some a).
  { intros t k0 a G. unfold load_remaining in G. destruct (is_taker t k0); [discriminate G|]. apply acct_load_ok in G. exact G. }
  unfold process_out_event in H. destruct tk as [t|].
  - destruct (owner =? oe_owner ev); [|destruct (mem_key _ _)].
    + apply bind_ok in H as (a & A & H). apply acct_load_ok in A. apply bind_ok in H as (a' & E & H). injection H as <-. eapply cancel_richer; [exact A|exact E|reflexivity].
    + apply bind_ok in H as (a & A & H). apply L in A. apply bind_ok in H as (a' & E & H). injection H as <-. eapply cancel_richer; [exact A|exact E|reflexivity].
    + apply bind_ok in H as (h & E & H). injection H as <-. apply richer_same. reflexivity.
  - destruct (mem_key _ _).
    + apply bind_ok in H as (a & A & H). apply L in A. apply bind_ok in H as (a' & E & H). injection H as <-. eapply cancel_richer; [exact A|exact E|reflexivity].
    + apply bind_ok in H as (h & E & H). injection H as <-. apply richer_same. reflexivity.
Qed.
Lemma set_book_richer k w s b : richer k w (w_set_book w s b).
Proof. apply richer_same. destruct s; reflexivity. Qed.

Lemma post_order_richer k w o taker owner rem oracle now id pl price qty target w' pb pq mf :
  post_order w o taker owner rem oracle now id pl price qty target = Ok (w', pb, pq, mf) -> richer k w w'.
Proof.
  intros H. unfold post_order in H. cbv zeta in H. do 6 (apply bind_ok in H as (? & _ & H)).
  apply bind_ok in H as ([w1 f1] & E1 & H). apply bind_ok in H as ([b1 ex] & _ & H). apply bind_ok in H as (w3 & E3 & H).
  apply bind_ok in H as (w4 & E4 & H). apply bind_ok in H as (a & A & H). apply acct_load_ok in A. apply bind_ok in H as (? & _ & H).
  apply bind_ok in H as ([[b3 ?] ?] & _ & H). apply bind_ok in H as (a' & E5 & H). injection H as <- _ _ _.
  assert (U1 : richer k w w1).
  { destruct (o_side o); [|injection E1 as <- _; apply richer_same; reflexivity].
    do 2 (apply bind_ok in E1 as (? & _ & E1)). apply bind_ok in E1 as (b & B & E1). apply acct_load_ok in B. apply bind_ok in E1 as (l & _ & E1). injection E1 as <- _.
    eapply richer_set; [exact B|reflexivity| |]; cbn; lia. }
  assert (U3 : richer k w1 w3).
  { destruct ex; [|injection E3 as <-; apply set_book_richer]. apply (process_out_richer k) in E3. eapply richer_trans; [apply set_book_richer|exact E3]. }
  assert (U4 : richer k w3 w4).
  { destruct (is_full _); [|injection E4 as <-; apply richer_same; reflexivity]. apply bind_ok in E4 as ([b2 ow] & _ & E4). apply bind_ok in E4 as ([wo wp] & _ & E4).
    apply bind_ok in E4 as (? & _ & E4). apply (process_out_richer k) in E4. eapply richer_trans; [apply set_book_richer|exact E4]. }
  eapply richer_trans; [exact U1|]. eapply richer_trans; [exact U3|]. eapply richer_trans; [exact U4|].
  eapply richer_trans; [apply (set_book_richer k w4 (o_side o) b3)|].
  assert (P : p_base_free (a_pos a') = p_base_free (a_pos a) /\ p_quote_free (a_pos a') = p_quote_free (a_pos a)).
  { unfold add_order in E5. cbv zeta in E5. apply bind_ok in E5 as (p' & P & E5). apply bind_ok in E5 as (? & _ & E5). injection E5 as <-.
    destruct (o_side o); repeat (apply bind_ok in P as (? & _ & P)); injection P as <-; split; reflexivity. }
  destruct P as [P1 P2]. eapply (richer_set k _ _ _ a a'); [|reflexivity|lia|lia]. destruct (o_side o); exact A.
Qed.

Lemma new_order_richer k w o oracle taker owner now limit rem w' r : sound_call w o taker owner ->
  new_order w o oracle taker owner now limit rem = Ok (w', r) -> richer k w w'.
Proof.
  intros Hsc H. pose proof Hsc as [Hc Hsd Hso Htk]. pose proof Hso as [Hb0 Hq0 _].
  destruct (sc_other_fits _ _ _ _ Hsc) as (T & Hf & Hage).
  destruct (new_order_inv _ _ _ _ _ _ _ _ _ _ _ Hf Htk Hc Hb0 Hq0 H)
    as (price & pd & maxq & acts & ms & lf & w2 & bt & qt & tf & ra & rq & mf & b2 & T2 & Hpl & Hfin).
  destruct (placed_numbers _ _ _ _ _ _ _ _ _ _ _ _ _ _ _ _ _ _ _ _ _ _ _ _ Hsc Hf Hpl)
    as (_ & _ & _ & _ & _ & _ & _ & _ & _ & _ & _ & _ & _ & _ & _ & _ & Hef & _).
  pose proof (pc_settle _ _ _ _ _ _ _ _ _ _ _ _ _ _ _ _ _ _ _ _ _ _ _ _ Hpl) as Hst.
  apply (effects_bystander k) in Hef. apply richer_bystander in Hef.
  apply (settle_taker_richer k) in Hst.
  eapply richer_trans; [|eapply richer_trans; [exact Hef|eapply richer_trans; [exact Hst|]]]; [apply richer_same; reflexivity|].
  destruct Hfin as [Hno|t w4 pb pq mfees Hpos Htg Hpeg Hpost].
  - apply set_book_richer.
  - eapply richer_trans; [apply set_book_richer|]. eapply post_order_richer. exact Hpost.
Qed.

(** ** The loop over the orders *)
Lemma max_lots_cover lot lam v : 1 <= lot <= 9223372036854775807 -> 0 <= lam -> max_lots_from_lamports lot lam = Ok v -> v * lot <= lam.
Proof.
  intros Hl Hm H. unfold max_lots_from_lamports in H. apply bind_ok in H as (cap & E & H). apply bind_ok in H as (u & _ & H).
  apply chk_i64_ok in H as [-> _]. rewrite (as_u64_id lot) by lia. pose proof (Z.mul_div_le lam lot ltac:(lia)). nia.
Qed.

(** What was taken so far is covered by the wallet and the free balances. *)
Definition covered (w : world) (k ub uq ba qa : Z) : Prop :=
  exists a, acct_get k (w_accts w) = Some a /\ ba <= ub + p_base_free (a_pos a) /\ qa <= uq + p_quote_free (a_pos a).
Lemma covered_richer w w' k ub uq ba qa : richer k w w' -> covered w k ub uq ba qa -> covered w' k ub uq ba qa.
Proof. intros R (a & A & H1 & H2). destruct (R a A) as (a' & A' & R1 & R2). exists a'. split; [exact A'|lia]. Qed.

Lemma multi_one_covered w x ub uq oracle now limit o ba qa w' ba' qa' id :
  world_sound w -> params_sane (o_params o) ->
  multi_one w x ub uq oracle now limit o ba qa = Ok (w', ba', qa', id) ->
  covered w (mx_acct x) ub uq ba qa -> covered w' (mx_acct x) ub uq ba' qa'.
Proof.
  intros [Hc Hs] Hp H (a0 & A0 & C1 & C2). unfold multi_one in H.
  apply bind_ok in H as (capb & E1 & H). apply max_base_lots_nonneg in E1; [|exact Hc].
  apply bind_ok in H as (u2 & E2 & H). apply require_ok in E2.
  apply bind_ok in H as (a & Ea & H). apply acct_load_ok in Ea. assert (a0 = a) as -> by congruence.
  apply bind_ok in H as (o' & Eo & H).
  pose proof (cs_bls _ Hc) as B1. pose proof (cs_qls _ Hc) as B2. unfold i64_max in B1, B2.
  apply bind_ok in H as ([w1 r] & En & H).
  destruct (o_side o) eqn:Es.
  - apply bind_ok in Eo as (y & X & Eo). apply chk_u64_ok in X as [-> X]. apply bind_ok in Eo as (av & X1 & Eo). apply chk_u64_ok in X1 as [-> X1].
    apply bind_ok in Eo as (l & X2 & Eo). pose proof X2 as X3. unfold max_quote_lots_from_lamports in X2, X3.
    apply max_lots_nonneg in X2; [|exact B2|lia]. apply max_lots_cover in X3; [|exact B2|lia]. injection Eo as <-.
    assert (So : sound_call w (mkOrder Bid capb (Z.min (o_max_quote o) l) (o_client_id o) (o_tif o) (o_self_trade o) (o_params o))
      (Some (mx_acct x)) (mx_acct x)).
    { apply sound_call_of; [split; assumption| |left; reflexivity]. constructor; cbn [o_max_base o_max_quote o_params]; [lia|lia|exact Hp]. }
    pose proof (within_budget _ _ _ _ _ _ _ _ _ _ So En) as [W _]. cbn [o_side o_max_quote] in W.
    pose proof (new_order_richer (mx_acct x) _ _ _ _ _ _ _ _ _ _ So En) as R.
    do 3 (let Y := fresh in apply bind_ok in H as (? & Y & H); apply chk_u64_ok in Y as [-> ?]).
    apply bind_ok in H as (u5 & X9 & H). injection H as <- <- <- <-.
    eapply covered_richer; [exact R|]. exists a. split; [exact Ea|]. split; [exact C1|].
    change (qls (w_mkt w)) with (c_qls (m_cfg (w_mkt w))) in *. nia.
  - apply bind_ok in Eo as (y & X & Eo). apply chk_u64_ok in X as [-> X]. apply bind_ok in Eo as (av & X1 & Eo). apply chk_u64_ok in X1 as [-> X1].
    apply bind_ok in Eo as (l & X2 & Eo). pose proof X2 as X3. unfold max_base_lots_from_lamports in X2, X3.
    apply max_lots_nonneg in X2; [|exact B1|lia]. apply max_lots_cover in X3; [|exact B1|lia]. injection Eo as <-.
    assert (So : sound_call w (o_set_max_base o (Z.min capb l)) (Some (mx_acct x)) (mx_acct x)).
    { apply sound_call_of; [split; assumption| |left; reflexivity]. constructor; cbn [o_set_max_base o_max_base o_max_quote o_params]; [lia|lia|exact Hp]. }
    pose proof (within_budget _ _ _ _ _ _ _ _ _ _ So En) as [_ W]. cbn [o_set_max_base o_max_base] in W.
    pose proof (new_order_richer (mx_acct x) _ _ _ _ _ _ _ _ _ _ So En) as R.
    apply bind_ok in H as (x1 & X4 & H). apply chk_u64_ok in X4 as [-> _].
    apply bind_ok in H as (u5 & X4 & H). injection H as <- <- <- <-.
    eapply covered_richer; [exact R|]. exists a. split; [exact Ea|]. split; [|exact C2].
    change (bls (w_mkt w)) with (c_bls (m_cfg (w_mkt w))) in *. nia.
Qed.

Lemma multi_loop_covered os : forall w x ub uq oracle now limit ba qa w' ba' qa' ids,
  world_sound w -> Forall (fun o => params_sane (o_params o)) os -> 0 <= limit -> 0 <= now ->
  multi_loop w x ub uq oracle now limit os ba qa = Ok (w', ba', qa', ids) ->
  covered w (mx_acct x) ub uq ba qa -> covered w' (mx_acct x) ub uq ba' qa'.
Proof.
  induction os as [|o r IH]; intros w x ub uq oracle now limit ba qa w' ba' qa' ids Hs Ho Hl Hn H C; cbn [multi_loop] in H.
  - injection H as <- <- <- _. exact C.
  - apply bind_ok in H as ([[[w1 b1] q1] i1] & E & H). inversion Ho as [|o0 r0 Ho1 Ho2]; subst.
    pose proof (multi_one_covered _ _ _ _ _ _ _ _ _ _ _ _ _ _ Hs Ho1 E C) as C1.
    apply multi_one_steps in E; [|exact Hs|exact Ho1|exact Hl|exact Hn].
    apply bind_ok in H as ([[[w2 b2] q2] i2] & E2 & H). injection H as <- <- <- _.
    eapply IH; [eapply wstep_sound; [exact E|exact Hs]|exact Ho2|exact Hl|exact Hn|exact E2|exact C1].
Qed.

(** ** The whole instruction *)
Lemma transfer_never t d from to auth : (forall a b, t from = Some a -> t to = Some b -> t_mint a = t_mint b /\ t_owner a = auth /\ d <= t_amount a /\ t_amount a + t_amount b <= u64_max) ->
  never TokenError (token_transfer t d from to auth).
Proof.
  intros H. unfold token_transfer. destruct (0 <? d) eqn:D; [|apply never_ok].
  unfold tok_load. destruct (t from) as [a|] eqn:A; cbn [bind]; [|apply never_err; discriminate].
  destruct (t to) as [b|] eqn:B; cbn [bind]; [|apply never_err; discriminate].
  destruct (H a b eq_refl eq_refl) as (H1 & H2 & H3 & H4).
  replace (t_mint a =? t_mint b) with true by lia. replace (t_owner a =? auth) with true by lia.
  replace (d <=? t_amount a) with true by lia. cbn [require bind]. unfold upd at 1.
  destruct (to =? from) eqn:E; cbn [bind].
  - assert (to = from) by lia. subst. cbn [t_amount]. assert (a = b) as <- by congruence.
    replace (t_amount a - d + d <=? u64_max) with true by lia. apply never_ok.
  - rewrite B. cbn [bind]. replace (t_amount b + d <=? u64_max) with true by lia. apply never_ok.
Qed.

Lemma cancel_all_richer k n : forall i w limit total so co w' q,
  cancel_all_loop n i w k limit total so co = Ok (w', q) -> richer k w w'.
Proof.
  induction n as [|n IH]; intros i w limit total so co w' q H; cbn [cancel_all_loop] in H.
  - injection H as <- _. apply richer_same. reflexivity.
  - apply bind_ok in H as (a & _ & H). apply bind_ok in H as (oo & _ & H). cbv zeta in H.
    destruct (oo_free oo); [exact (IH _ _ _ _ _ _ _ _ H)|].
    match type of H with (if ?c then _ else _) = _ => destruct c end; [exact (IH _ _ _ _ _ _ _ _ H)|].
    match type of H with (if ?c then _ else _) = _ => destruct c end; [exact (IH _ _ _ _ _ _ _ _ H)|].
    destruct (limit =? 0); [injection H as <- _; apply richer_same; reflexivity|].
    destruct (book_cancel_order w k (oo_id oo) (oo_side oo) (oo_tree oo) None) as [[w1 l]|x] eqn:E.
    + apply bind_ok in H as (t & _ & H). apply book_cancel_inv in E as (b & a1 & a2 & _ & _ & Ha1 & E & ->).
      eapply richer_trans; [|exact (IH _ _ _ _ _ _ _ _ H)]. eapply richer_trans; [apply (set_book_richer k w (oo_side oo) b)|].
      eapply cancel_richer; [destruct (oo_side oo); exact Ha1|exact E|reflexivity].
    + destruct x; try discriminate H. exact (IH _ _ _ _ _ _ _ _ H).
Qed.

Lemma cancel_orders_richer k w limit so co w' q : cancel_all_orders w k limit so co = Ok (w', q) -> richer k w w'.
Proof. unfold cancel_all_orders. apply cancel_all_richer. Qed.
Lemma cancel_orders_never k w limit so co : never TokenError (cancel_all_orders w k limit so co).
Proof. unfold cancel_all_orders. apply t_cancel_all. Qed.

Lemma transfer_elsewhere t d from to auth t' k : token_transfer t d from to auth = Ok t' -> k <> from -> k <> to -> t' k = t k.
Proof.
  unfold token_transfer. intros H H1 H2. destruct (0 <? d); [|injection H as <-; reflexivity].
  repeat (apply bind_ok in H as (? & _ & H)). cbv zeta in H. repeat (apply bind_ok in H as (? & _ & H)). injection H as <-.
  unfold upd. replace (k =? to) with false by lia. replace (k =? from) with false by lia. reflexivity.
Qed.

Lemma multi_never e s x cancel os limit : reachable s -> Forall (fun o => params_sane (o_params o)) os -> 0 <= limit ->
  never TokenError (e_oracle e) -> multi_constraints s x = Ok tt ->
  can_pay (s_tok s) (mx_signer x) (mx_user_base x) (c_base_vault (m_cfg (w_mkt (s_w s)))) ->
  can_pay (s_tok s) (mx_signer x) (mx_user_quote x) (c_quote_vault (m_cfg (w_mkt (s_w s)))) ->
  never TokenError (multi_ix e s x cancel os limit).
Proof.
  intros Hr Ho Hl He Hc (ub & vb & U1 & V1 & O1 & N1 & R1) (uq & vq & U2 & V2 & O2 & N2 & R2).
  pose proof (reachable_sound _ Hr) as Hs. pose proof (reachable_funded _ Hr) as ((Dv & Dm) & (vb' & W1 & _ & M1 & _) & (vq' & W2 & _ & M2 & _)).
  assert (vb' = vb) as -> by congruence. assert (vq' = vq) as -> by congruence.
  unfold multi_constraints in Hc. cbv zeta in Hc. apply bind_ok in Hc as (a0 & A0 & Hc). apply acct_load_ok in A0. apply bind_ok in Hc as (? & _ & Hc).
  apply bind_ok in Hc as (? & X2 & Hc). apply bind_ok in Hc as (? & X1 & _).
  unfold check_mint, tok_load in X1, X2. rewrite U1, V1 in X1. rewrite U2, V2 in X2. cbn [bind] in X1, X2. apply require_ok in X1. apply require_ok in X2.
  apply Z.eqb_eq in X1. apply Z.eqb_eq in X2.
  unfold multi_ix. cbv zeta. apply never_bind; [nv|intros u0 _]. apply never_bind; [nv|intros now En]. apply now_u64_ok in En.
  apply never_bind; [apply q_oracle; [apply special_tok|exact He]|intros oracle _].
  apply never_bind; [destruct cancel; [|nv]; apply never_bind; [apply cancel_orders_never|intros [w' q] _; apply never_ok]|intros w0 E0].
  assert (S0 : wsteps (Some (mx_acct x)) (s_w s) 0 0 w0 0 0 /\ richer (mx_acct x) (s_w s) w0).
  { destruct cancel; [|injection E0 as <-; split; [constructor|apply richer_same; reflexivity]]. apply bind_ok in E0 as ([w' q] & E1 & E0). injection E0 as <-.
    split; [eapply cancel_orders_steps; exact E1|exact (cancel_orders_richer _ _ _ _ _ _ _ E1)]. }
  destruct S0 as [S0 S1]. unfold tok_load at 1 2. rewrite U1, U2. cbn [bind].
  apply never_bind; [apply t_multi_loop|intros [[[w1 ba] qa] ids] E1].
  destruct (S1 _ A0) as (a1 & A1 & F1 & F2).
  destruct (reachable_inv _ Hr) as (cl & ct & P & HI). destruct (led_free _ _ (iv_led _ _ _ _ _ _ HI) _ _ A0) as [G1 G2].
  assert (C : covered w1 (mx_acct x) (t_amount ub) (t_amount uq) ba qa).
  { eapply multi_loop_covered; [eapply wsteps_sound; [exact S0|exact Hs]|exact Ho|exact Hl|exact En|exact E1|].
    exists a1. split; [exact A1|]. lia. }
  destruct C as (a & A & C1 & C2). unfold acct_load. rewrite A. cbn [bind].
  apply never_bind; [nv|intros db Edb]. apply chk_u64_ok in Edb as [-> Edb].
  apply never_bind; [nv|intros dq Edq]. apply chk_u64_ok in Edq as [-> Edq].
  do 4 (apply never_bind; [nv|intros ? _]). apply never_bind; [nv|intros p2 _].
  apply never_bind.
  - apply transfer_never. intros u v H1 H2. replace u with uq by congruence. replace v with vq by congruence.
    split; [lia|]. split; [exact O2|]. split; [lia|exact R2].
  - intros t1 T1. apply never_bind; [|intros t2 _; nv].
    apply transfer_never. intros u v H1 H2.
    assert (K1 : mx_user_base x <> mx_user_quote x) by congruence.
    assert (K2 : mx_user_base x <> c_quote_vault (m_cfg (w_mkt (s_w s)))) by congruence.
    assert (K3 : c_base_vault (m_cfg (w_mkt (s_w s))) <> mx_user_quote x) by congruence.
    rewrite (transfer_elsewhere _ _ _ _ _ _ _ T1 K1 K2) in H1. rewrite (transfer_elsewhere _ _ _ _ _ _ _ T1 K3 Dv) in H2.
    replace u with ub by congruence. replace v with vb by congruence.
    split; [lia|]. split; [exact O1|]. split; [lia|exact R1].
Qed.

Theorem refresh_affordable e s x cancel t bids asks limit : reachable s -> e_oracle e <> Err TokenError ->
  can_pay (s_tok s) (mx_signer x) (mx_user_base x) (c_base_vault (m_cfg (w_mkt (s_w s)))) ->
  can_pay (s_tok s) (mx_signer x) (mx_user_quote x) (c_quote_vault (m_cfg (w_mkt (s_w s)))) ->
  exec e s (IPlaceMulti x cancel t bids asks limit) <> Err TokenError.
Proof.
  intros Hr He H1 H2. change (never TokenError (exec e s (IPlaceMulti x cancel t bids asks limit))).
  unfold exec. destruct (s_closed s && needs_market _); [apply never_err; discriminate|]. unfold exec_open. cbv zeta.
  apply never_bind; [unfold check_multi_args; nv|intros u1 E1]. apply never_bind; [unfold u8_arg; nv|intros u2 E2].
  apply never_bind; [unfold multi_constraints; nv|intros u3 E3]. destruct u3.
  apply never_bind; [nv|intros u4 _]. apply never_bind; [nv|intros now En].
  apply never_bind; [nv|intros bo Eb]. apply never_bind; [nv|intros ao Ea].
  apply never_bind; [|intros [s' ids] _; nv].
  apply require_ok in E1. apply require_ok in E2. rewrite forallb_app in E1. apply andb_prop in E1 as [F1 F2].
  apply multi_never; [exact Hr| | |exact He|exact E3|exact H1|exact H2].
  - apply Forall_app. split; [exact (orders_of_multi_sane _ _ _ _ _ _ F1 Eb)|exact (orders_of_multi_sane _ _ _ _ _ _ F2 Ea)].
  - unfold in_range in E2. lia.
Qed.

(** ** After a refresh nothing of the account rests but what the call placed *)
Lemma residue_owner acts t l l' : residue acts t l = Some l' -> lf_owner l' = lf_owner l.
Proof.
  intros H. destruct (residue_cases _ _ _ _ H) as [-> | (i & q & _ & _ & _ & ->)]; reflexivity.
Qed.

Lemma new_order_among ids k w o oracle taker owner now limit rem w' r : sound_call w o taker owner ->
  new_order w o oracle taker owner now limit rem = Ok (w', r) -> all_among ids k w -> all_among (ids ++ [oa_order_id r]) k w'.
Proof.
  intros Hsc H HA. destruct (new_order_full _ _ _ _ _ _ _ _ _ _ Hsc H)
    as (T & T0 & price & pd & maxq & acts & ms & lf & w2 & bt & qt & tf & ra & rq & mf & b2 & T2 & T3 & gone & put
        & Hf & Hf0 & Hpl & Hex & _ & _ & _ & _ & _ & Eb2 & Hf3 & HP & Ec & Es & Hput).
  pose proof Hpl as [_ Hseq _ _ _ _ _ Hf2 Hlv _ _ _]. pose proof (ex_put _ _ _ _ _ _ _ _ _ _ _ _ _ Hex) as Hpo.
  intros sd t l Hl Eo. apply in_or_app. assert (Hcase : sd = o_side o \/ sd = invert_side (o_side o)) by (destruct sd, (o_side o); auto).
  destruct Hcase as [-> | ->].
  - apply (in_orders _ _ _ _ _ _ Hf3 eq_refl) in Hl. apply in_all_leaves in Hl.
    assert (Hin : In (t, l) ((match put with Some x => [x] | None => [] end) ++ all_leaves T0)).
    { apply (Permutation_in _ (Permutation_sym HP)). apply in_or_app. left. exact Hl. }
    apply in_app_or in Hin as [Hin|Hin].
    + right. destruct put as [[t' l']|]; [|destruct Hin]. destruct Hin as [E|[]]. injection E as -> ->.
      cbn [put_ok] in Hpo. destruct Hpo as (_ & -> & _). left. reflexivity.
    + left. apply (HA (o_side o) t); [|exact Eo]. apply (in_orders _ _ _ _ _ _ Hf0 eq_refl). apply in_all_leaves. exact Hin.
  - rewrite <- Eb2 in Hf2. apply (in_orders _ _ _ _ _ _ Hf2 eq_refl) in Hl. rewrite Hlv in Hl. apply residues_in in Hl as (l0 & Hl0 & R).
    left. rewrite (residue_key _ _ _ _ R). apply (HA (invert_side (o_side o)) t); [|rewrite <- Eo; symmetry; exact (residue_owner _ _ _ _ R)].
    apply (in_orders _ _ _ _ _ _ Hf eq_refl). exact Hl0.
Qed.

Lemma multi_loop_among os : forall pre w x ub uq oracle now limit ba qa w' ba' qa' ids,
  world_sound w -> Forall (fun o => params_sane (o_params o)) os ->
  multi_loop w x ub uq oracle now limit os ba qa = Ok (w', ba', qa', ids) ->
  all_among pre (mx_acct x) w -> all_among (pre ++ ids) (mx_acct x) w'.
Proof.
  induction os as [|o r IH]; intros pre w x ub uq oracle now limit ba qa w' ba' qa' ids Hs Ho H HA; cbn [multi_loop] in H.
  - injection H as <- <- <- <-. rewrite app_nil_r. exact HA.
  - apply bind_ok in H as ([[[w1 b1] q1] i1] & E & H). inversion Ho as [|o0 r0 Ho1 Ho2]; subst.
    apply bind_ok in H as ([[[w2 b2] q2] i2] & E2 & H). injection H as <- <- <- <-.
    destruct (multi_one_place _ _ _ _ _ _ _ _ _ _ _ _ _ _ Hs Ho1 E) as (o' & r' & Go & _ & En & -> & _ & _).
    assert (Hsc : sound_call w o' (Some (mx_acct x)) (mx_acct x)) by (apply sound_call_of; [exact Hs|exact Go|left; reflexivity]).
    replace (pre ++ oa_order_id r' :: i2) with ((pre ++ [oa_order_id r']) ++ i2) by (rewrite <- app_assoc; reflexivity).
    eapply IH; [eapply new_order_sound; [exact Hsc|exact En]|exact Ho2|exact E2|].
    exact (new_order_among _ _ _ _ _ _ _ _ _ _ _ _ Hsc En HA).
Qed.

Theorem refresh_replaces e s x t bids asks limit a s' ids : reachable s -> acct_get (mx_acct x) (w_accts (s_w s)) = Some a ->
  p_bids_base (a_pos a) + p_asks_base (a_pos a) < 2 ^ 63 ->
  exec e s (IPlaceMulti x true t bids asks limit) = Ok (s', OIds ids) -> all_among ids (mx_acct x) (s_w s').
Proof.
  intros Hr Ha Hb H. unfold exec in H. destruct (s_closed s && needs_market _); [discriminate|]. unfold exec_open in H. cbv zeta in H.
  apply bind_ok in H as (u1 & E1 & H). apply bind_ok in H as (u2 & E2 & H). apply bind_ok in H as (u3 & E3 & H).
  apply bind_ok in H as (u4 & E4 & H). apply bind_ok in H as (now & En & H). apply bind_ok in H as (bo & Eb & H). apply bind_ok in H as (ao & Ea & H).
  apply bind_ok in H as ([s1 ids1] & H & E). injection E as -> ->.
  apply require_ok in E1. rewrite forallb_app in E1. apply andb_prop in E1 as [F1 F2].
  unfold multi_ix in H. cbv zeta in H. apply bind_ok in H as (u5 & _ & H). apply bind_ok in H as (now' & En' & H). apply bind_ok in H as (oracle & _ & H).
  apply bind_ok in H as (w0 & E0 & H). apply bind_ok in E0 as ([w0' q] & E0 & E). injection E as ->.
  apply bind_ok in H as (ub & _ & H). apply bind_ok in H as (uq & _ & H). apply bind_ok in H as ([[[w1 ba] qa] ids2] & E5 & H).
  destruct (reachable_inv _ Hr) as (cl & ct & P & HI).
  destruct (cancel_all_orders_ok _ _ _ _ _ _ u8_max None None HI Ha) as (w0'' & gone & P' & G & Ht & _ & _ & _ & Hn); [unfold u8_max; lia|exact Hb|].
  rewrite G in E0. injection E0 as -> _.
  assert (HA : all_among [] (mx_acct x) w0).
  { intros sd t' l Hl Eo. exfalso. apply (Hn ltac:(unfold u8_max; lia) sd t' l Hl). split; [exact Eo|]. split; exact I. }
  assert (HB : all_among ids2 (mx_acct x) w1).
  { apply (multi_loop_among (bo ++ ao) [] w0 x (t_amount ub) (t_amount uq) oracle now' limit 0 0 w1 ba qa ids2); [|apply Forall_app; split; [exact (orders_of_multi_sane _ _ _ _ _ _ F1 Eb)|exact (orders_of_multi_sane _ _ _ _ _ _ F2 Ea)]|exact E5|exact HA].
    eapply wsteps_sound; [eapply cancel_orders_steps; exact G|exact (reachable_sound _ Hr)]. }
  apply bind_ok in H as (a' & _ & H). do 6 (apply bind_ok in H as (? & _ & H)). apply bind_ok in H as (p2 & _ & H). do 2 (apply bind_ok in H as (? & _ & H)).
  injection H as <- <-. exact HB.
Qed.

(** For the examples. *)
Definition can_pay_b (t : tokens) (signer user vault : Z) : bool :=
  match t user, t vault with
  | Some u, Some v => (t_owner u =? signer) && (0 <=? t_amount u) && (t_amount u + t_amount v <=? u64_max)
  | _, _ => false
  end.
Lemma can_pay_b_ok t signer user vault : can_pay_b t signer user vault = true -> can_pay t signer user vault.
Proof. unfold can_pay_b, can_pay. destruct (t user) as [u|]; [|discriminate]. destruct (t vault) as [v|]; [|discriminate]. intros H. exists u, v. repeat split; lia. Qed.
