(** Expiry, closing, settling twice, and order ids over whole executions. *)
From Coq Require Import ZArith List Bool Lia ZifyBool Permutation.
From Verif Require Import Base Nodes OrderTree BookSide Heap Market OpenOrders Order Book Instructions
  BaseFacts HeapFacts SpecBook SpecFees SpecOrder MatchFacts OrderFacts PlaceFacts OrderSpecProofs
  Steps StepFacts TokenFacts SpecLedger SpecEvents Ledger LedgerOps LedgerMoves LedgerPlace LedgerOrder LedgerInv SpecSystem SystemFacts Solvency SpecControl ControlFacts LifeFacts IdFacts AuthFacts.
Import ListNotations.
Open Scope Z_scope.

(** ** Order ids *)
Lemma executed_numbered s ids s' : reachable s -> executed s ids s' ->
  reachable s' /\ numbered (m_seq (w_mkt (s_w s))) ids (m_seq (w_mkt (s_w s'))).
Proof.
  intros Hr H. induction H as [|ids s1 e i s2 out _ [IH1 IH2] H]; [split; [exact Hr|constructor; lia]|].
  split; [exact (reach_step _ _ _ _ _ IH1 H)|]. eapply numbered_app; [exact IH2|exact (exec_numbered _ _ _ _ _ IH1 H)].
Qed.
Lemma ids_distinct s ids s' : reachable s -> executed s ids s' -> m_seq (w_mkt (s_w s')) < 2 ^ 63 -> NoDup ids.
Proof. intros Hr H Hs. eapply numbered_nodup; [exact (proj2 (executed_numbered _ _ _ Hr H))|exact Hs]. Qed.

Lemma resting_seq s sd t l : reachable s -> In (t, l) (orders (s_w s) sd) -> seq_of sd l <= m_seq (w_mkt (s_w s)).
Proof.
  intros Hr Hl. destruct (reachable_inv _ Hr) as (cl & ct & P & HI). destruct (order_piece _ _ _ _ _ (iv_rep _ _ _ _ _ _ HI) Hl) as (lp & Hp).
  pose proof (pk_seq _ _ (ld_piece _ _ _ (iv_led _ _ _ _ _ _ HI) _ Hp)) as G. cbn [pc_side pc_id] in G. exact (proj2 G).
Qed.
Lemma new_id_fresh s ids s1 e i s2 out sd t l : reachable s -> executed s ids s1 -> exec e s1 i = Ok (s2, out) ->
  In (t, l) (orders (s_w s2) sd) -> (forall l0, In (t, l0) (orders (s_w s1) sd) -> lf_key l0 <> lf_key l) ->
  forall t0 l0, In (t0, l0) (orders (s_w s) sd) -> lf_key l0 <> lf_key l.
Proof.
  intros Hr Hx H Hl Hn t0 l0 Hl0 E. destruct (executed_numbered _ _ _ Hr Hx) as [Hr1 Hnum]. apply numbered_le in Hnum.
  destruct (proj1 (exec_older _ _ _ _ _ Hr1 H) sd t l Hl) as [(l1 & H1 & E1)|[G _]]; [exact (Hn _ H1 E1)|].
  pose proof (resting_seq _ _ _ _ Hr Hl0) as G0. unfold seq_of in G, G0. rewrite E in G0. lia.
Qed.

(** ** Expiry *)
Lemma wstep_expiry who w db dq w' db' dq' : world_sound w -> wstep who w db dq w' db' dq' ->
  m_time_expiry (w_mkt w') = m_time_expiry (w_mkt w) \/ m_time_expiry (w_mkt w') = -1.
Proof.
  intros Hs H. destruct H as [w db dq o oracle taker owner now limit rem w' r Ho Ht _ _ H _|w db dq k a oo ex w' l _ _ _ H _|w db dq rem slot w' H| | | | | | |]; try (left; reflexivity).
  - left. assert (Hsc : sound_call w o taker owner) by (apply sound_call_of; [exact Hs|exact Ho|destruct Ht as [->|[-> _]]; auto]).
    apply (new_order_terms _ _ _ _ _ _ _ _ _ _ Hsc H).
  - left. apply book_cancel_mkt in H as [-> _]. reflexivity.
  - left. apply consume_one_terms in H. apply H.
  - right. reflexivity.
Qed.
Lemma wsteps_expiry who w db dq w' db' dq' : wsteps who w db dq w' db' dq' -> world_sound w ->
  m_time_expiry (w_mkt w') = m_time_expiry (w_mkt w) \/ m_time_expiry (w_mkt w') = -1.
Proof.
  induction 1 as [|w db dq w1 db1 dq1 w2 db2 dq2 H1 H2 IH]; intros Hs; [left; reflexivity|].
  pose proof (wstep_expiry _ _ _ _ _ _ _ Hs H1) as G1. pose proof (IH (wstep_sound _ _ _ _ _ _ _ H1 Hs)) as G2. lia.
Qed.
Lemma exec_expiry e s i s' out : reachable s -> exec e s i = Ok (s', out) ->
  m_time_expiry (w_mkt (s_w s')) = m_time_expiry (w_mkt (s_w s)) \/ m_time_expiry (w_mkt (s_w s')) = -1.
Proof.
  intros Hr H. pose proof (exec_steps _ _ _ _ _ (reachable_sound s Hr) H) as Hst.
  destruct i; try (eapply wsteps_expiry; [eassumption|exact (reachable_sound s Hr)]).
  destruct Hst as (b & _ & _ & Hw). rewrite Hw. left. reflexivity.
Qed.
Lemma later_reachable now s now' s' : reachable s -> later now s now' s' -> reachable s'.
Proof. intros Hr H. induction H as [|n1 s1 e i s2 out _ IH _ H]; [exact Hr|exact (reach_step _ _ _ _ _ IH H)]. Qed.
Lemma later_expired now s now' s' : reachable s -> 0 <= now -> expired now (w_mkt (s_w s)) -> later now s now' s' ->
  now <= now' /\ expired now' (w_mkt (s_w s')).
Proof.
  intros Hr H0 He H. induction H as [|n1 s1 e i s2 out Hl [IH1 IH2] Hn H]; [split; [lia|exact He]|].
  pose proof (later_reachable _ _ _ _ Hr Hl) as Hr1. split; [lia|].
  unfold expired in *. destruct (exec_expiry _ _ _ _ _ Hr1 H) as [-> | ->]; lia.
Qed.

Lemma expired_true m now : expired now m -> market_is_expired m now = true.
Proof. unfold expired, market_is_expired. lia. Qed.

Lemma consume_seq ss : forall w rem w', consume_loop w rem ss = Ok w' -> m_seq (w_mkt w') = m_seq (w_mkt w).
Proof.
  induction ss as [|a ss IH]; intros w0 rem w' E; cbn [consume_loop] in E; [injection E as <-; reflexivity|].
  apply bind_ok in E as (w1 & E1 & E). rewrite (IH _ _ _ E). clear - E1. apply consume_one_inv in E1 as (ev & _ & E1). destruct ev as [f|o].
  - destruct (mem_key _ _); [|subst; reflexivity]. destruct E1 as (b & b' & m' & h' & x & _ & E2 & _ & ->). apply execute_maker_mkt in E2 as (_ & E2 & _). exact E2.
  - destruct (mem_key _ _); [|subst; reflexivity]. destruct E1 as (b & b' & h' & x & _ & _ & _ & ->). reflexivity.
Qed.
(** On an expired market only token movements outside the program take from anyone but the
    market, and nothing is placed. *)
Lemma exec_expired e s i s' out : reachable s -> exec e s i = Ok (s', out) -> expired (e_now e) (w_mkt (s_w s)) ->
  m_seq (w_mkt (s_w s')) = m_seq (w_mkt (s_w s)) /\
  match i with
  | IExtTransfer _ _ _ _ | IExtMint _ _ | IExtCreate _ _ _ | IExtGive _ _ _ | IExtBurn _ _ _ | IExtClose _ _ => True
  | _ => guarded [c_authority (m_cfg (w_mkt (s_w s)))] (s_tok s) (s_tok s')
  end.
Proof.
  intros Hr H He. pose proof (reachable_sound _ Hr) as Hs. apply expired_true in He.
  destruct (is_placing i) eqn:Hp.
  - apply exec_placing in H; [|exact Hp].
    destruct H as [i _ _ _|i x o limit s' id Hi _ _ _ H|i x cid ex o limit s' id Hi _ _ _ H|x g o limit s' _ _ _ _ H|x cancel t bids asks limit os s' ids _ _ _ _ H].
    + split; [reflexivity|]. destruct i; try exact I; apply guarded_refl.
    + apply place_ix_inv in H as (_ & _ & _ & Hx & _). congruence.
    + unfold edit_order_ix in H. apply bind_ok in H as (u1 & _ & H). apply bind_ok in H as ([w q] & E & H). cbv zeta in H.
      pose proof (cancel_orders_seq _ _ _ _ _ _ _ E) as Em.
      apply bind_ok in H as (f & _ & H). match type of H with (if ?c then _ else _) = _ => destruct c end.
      * apply bind_ok in H as (mb & _ & H). apply place_ix_inv in H as (_ & _ & _ & Hx & _). cbn [s_set_w s_w] in Hx. rewrite Em in Hx. congruence.
      * injection H as <- _. cbn [s_set_w s_w s_tok]. rewrite Em. split; [reflexivity|]. destruct Hi as [(g & ->)|(g & ->)]; apply guarded_refl.
    + unfold place_take_ix in H. cbv zeta in H. do 2 (apply bind_ok in H as (? & _ & H)). apply bind_ok in H as (u & E & _). apply require_ok in E. rewrite He in E. discriminate.
    + unfold multi_ix in H. cbv zeta in H. apply bind_ok in H as (u & E & _). apply require_ok in E. rewrite He in E. discriminate.
  - unfold exec in H. destruct (s_closed s && needs_market i); [discriminate H|]. unfold exec_open in H. cbv zeta in H.
    destruct i as [| | | | | |u k' id|u k' c|u k' sd l|u l r|u l r|u k' ub uq b q|u k' ub uq b q|u k' ub uq ref|u k' ub uq ref|u r
      |k' ow dl n|u k'|u k' d|u|u k' l|u|au f t n|t n|k0 mi ow0|au k0 ow0|au k0 n|au k0]; try discriminate Hp; unfold lift_w, lift_s in H.
    + apply bind_ok in H as (w & E & H). injection H as <- _. cbn [s_set_w s_w s_tok]. split; [|apply guarded_refl].
      unfold cancel_order_ix in E. do 3 (apply bind_ok in E as (? & _ & E)). destruct (find_order_with_order_id _ _); [|discriminate].
      apply bind_ok in E as ([w1 l] & E & E'). injection E' as <-. apply book_cancel_mkt in E as [-> _]. reflexivity.
    + do 2 (apply bind_ok in H as (? & _ & H)). apply bind_ok in H as ([w q] & E & H). injection H as <- _. cbn [s_set_w s_w s_tok].
      rewrite (cancel_orders_seq _ _ _ _ _ _ _ E). split; [reflexivity|apply guarded_refl].
    + do 2 (apply bind_ok in H as (? & _ & H)). apply bind_ok in H as ([w q] & E & H). injection H as <- _. cbn [s_set_w s_w s_tok].
      rewrite (cancel_orders_seq _ _ _ _ _ _ _ E). split; [reflexivity|apply guarded_refl].
    + do 2 (apply bind_ok in H as (? & _ & H)). apply bind_ok in H as (w & E & H). injection H as <- _. cbn [s_set_w s_w s_tok]. split; [|apply guarded_refl].
      unfold consume_events_ix in E. apply bind_ok in E as (ss & _ & E). exact (consume_seq _ _ _ _ E).
    + do 2 (apply bind_ok in H as (? & _ & H)). apply bind_ok in H as (w & E & H). injection H as <- _. cbn [s_set_w s_w s_tok]. split; [|apply guarded_refl].
      unfold consume_events_ix in E. apply bind_ok in E as (ss & _ & E). exact (consume_seq _ _ _ _ E).
    + do 3 (apply bind_ok in H as (? & _ & H)). apply bind_ok in H as (s1 & E & H). unfold deposit_ix in E. cbv zeta in E.
      do 3 (apply bind_ok in E as (? & _ & E)). apply bind_ok in E as (? & E1 & _). apply require_ok in E1. rewrite He in E1. discriminate.
    + do 3 (apply bind_ok in H as (? & _ & H)). apply bind_ok in H as (s1 & E & H). unfold refill_ix in E. do 3 (apply bind_ok in E as (? & _ & E)). unfold deposit_ix in E. cbv zeta in E.
      do 3 (apply bind_ok in E as (? & _ & E)). apply bind_ok in E as (? & E1 & _). apply require_ok in E1. rewrite He in E1. discriminate.
    + apply bind_ok in H as (s1 & E & H). injection H as <- _. unfold settle_funds_ix in E. do 7 (apply bind_ok in E as (? & _ & E)).
      split; [|exact (settle_guarded _ _ _ _ _ _ E)]. apply settle_inv in E as (a & t0 & t1 & t2 & _ & E). cbv zeta in E. destruct E as (_ & _ & _ & _ & ->). reflexivity.
    + apply bind_ok in H as (s1 & E & H). injection H as <- _. unfold settle_funds_expired_ix in E. do 8 (apply bind_ok in E as (? & _ & E)).
      split; [|exact (settle_guarded _ _ _ _ _ _ E)]. apply settle_inv in E as (a & t0 & t1 & t2 & _ & E). cbv zeta in E. destruct E as (_ & _ & _ & _ & ->). reflexivity.
    + apply bind_ok in H as (s1 & E & H). injection H as <- _. unfold sweep_fees_ix in E. cbv zeta in E. do 3 (apply bind_ok in E as (? & _ & E)).
      apply bind_ok in E as (t1 & T & E). injection E as <-. split; [reflexivity|exact (transfer_guarded _ _ _ _ _ _ T)].
    + apply bind_ok in H as (w & E & H). injection H as <- _. unfold create_account_ix in E. do 2 (apply bind_ok in E as (? & _ & E)). injection E as <-. split; [reflexivity|apply guarded_refl].
    + apply bind_ok in H as (w & E & H). injection H as <- _. unfold close_account_ix in E. do 3 (apply bind_ok in E as (? & _ & E)). injection E as <-. split; [reflexivity|apply guarded_refl].
    + apply bind_ok in H as (w & E & H). injection H as <- _. unfold set_delegate_ix in E. do 2 (apply bind_ok in E as (? & _ & E)). injection E as <-. split; [reflexivity|apply guarded_refl].
    + apply bind_ok in H as (w & E & H). injection H as <- _. unfold set_market_expired_ix in E. do 2 (apply bind_ok in E as (? & _ & E)). injection E as <-. split; [reflexivity|apply guarded_refl].
    + apply bind_ok in H as (? & _ & H). apply bind_ok in H as (w & E & H). injection H as <- _. unfold prune_orders_ix in E. do 3 (apply bind_ok in E as (? & _ & E)).
      apply bind_ok in E as ([w1 q] & E & E'). injection E' as <-. cbn [s_set_w s_w s_tok]. rewrite (cancel_orders_seq _ _ _ _ _ _ _ E). split; [reflexivity|apply guarded_refl].
    + apply bind_ok in H as (w & _ & H). injection H as <- _. split; [reflexivity|apply guarded_refl].
    + apply bind_ok in H as (? & _ & H). apply bind_ok in H as (t1 & T & H). injection H as <- _. split; [reflexivity|exact I].
    + do 3 (apply bind_ok in H as (? & _ & H)). injection H as <- _. split; [reflexivity|exact I].
    + do 1 (apply bind_ok in H as (? & _ & H)). injection H as <- _. split; [reflexivity|exact I].
    + do 3 (apply bind_ok in H as (? & _ & H)). injection H as <- _. split; [reflexivity|exact I].
    + do 5 (apply bind_ok in H as (? & _ & H)). injection H as <- _. split; [reflexivity|exact I].
    + do 4 (apply bind_ok in H as (? & _ & H)). injection H as <- _. split; [reflexivity|exact I].
Qed.
Lemma exec_expired_reports e s i s' out : reachable s -> exec e s i = Ok (s', out) -> expired (e_now e) (w_mkt (s_w s)) -> reported out = [].
Proof.
  intros Hr H He. pose proof (proj1 (exec_expired _ _ _ _ _ Hr H He)) as Es. pose proof (exec_numbered _ _ _ _ _ Hr H) as Hn. rewrite Es in Hn.
  inversion Hn as [|lo sd id r hi Hlt H2]; [reflexivity|]. apply numbered_le in H2. lia.
Qed.

(** ** Settling again *)
Lemma settle_twice s k ub uq ref s1 ub' uq' ref' s2 : reachable s -> reachable s1 -> settle_core s k ub uq ref = Ok s1 ->
  settle_core s1 k ub' uq' ref' = Ok s2 -> (forall v, s_tok s2 v = s_tok s1 v) /\
  m_fees_available (w_mkt (s_w s2)) = m_fees_available (w_mkt (s_w s1)) /\ m_base_total (w_mkt (s_w s2)) = m_base_total (w_mkt (s_w s1)) /\
  m_quote_total (w_mkt (s_w s2)) = m_quote_total (w_mkt (s_w s1)) /\ acct_get k (w_accts (s_w s2)) = acct_get k (w_accts (s_w s1)).
Proof.
  intros Hr Hr1 H1 H2. pose proof H1 as H1'. apply settle_inv in H1' as (a & t0 & t1 & t2 & Ha & H1'). cbv zeta in H1'. destruct H1' as (_ & _ & _ & _ & E1).
  destruct (settle_settlement _ _ _ _ _ _ _ Hr H1 Ha) as [_ _ _ _ Ha1 _ _]. cbv zeta in Ha1.
  destruct (settle_settlement _ _ _ _ _ _ _ Hr1 H2 Ha1) as [Ht Hf Hb Hq Ha2 _ _]. cbv zeta in Ht.
  assert (Hcfg : m_cfg (w_mkt (s_w s1)) = m_cfg (w_mkt (s_w s))) by (rewrite E1; reflexivity).
  set (p1 := mkPos _ _ _ _ _ _ _ _ _ _) in *.
  assert (Hl : leftover (w_mkt (s_w s1)) p1 = 0).
  { unfold p1. unfold leftover at 1. cbn [p_bids_base p_locked_fees]. unfold leftover, maker_fee. rewrite Hcfg.
    destruct ((0 <? c_maker_fee (m_cfg (w_mkt (s_w s)))) && (p_bids_base (a_pos a) =? 0)); lia. }
  assert (Ep : a_pos (a_set_pos a p1) = p1) by reflexivity. rewrite Ep in *. rewrite Hl in *.
  change (p_base_free p1) with 0 in *. change (p_quote_free p1) with 0 in *. change (p_rebates p1) with 0 in *.
  repeat split.
  - intros v. specialize (Ht v). rewrite Ht. destruct (s_tok s1 v) as [[x1 x2 x3]|]; [|reflexivity]. cbn [option_map t_mint t_owner t_amount]. f_equal. f_equal.
    unfold net. destruct ref'; cbn [map fst snd]; unfold sumZ; cbn [fold_left fold_right];
      repeat match goal with |- context [if ?c then _ else _] => destruct c end; lia.
  - rewrite Hf. destruct ref'; lia.
  - lia.
  - rewrite Hq. destruct ref'; lia.
  - rewrite Ha2, Ha1. cbv zeta. rewrite Hl, Z.sub_0_r. reflexivity.
Qed.

(** ** Closing the market *)
Lemma sum_zero {A} (f : A -> Z) l : (forall x, In x l -> 0 <= f x) -> sumZ (map f l) = 0 -> forall x, In x l -> f x = 0.
Proof.
  induction l as [|y l IH]; intros Hn Hs x Hx; [destruct Hx|]. cbn [map] in Hs. rewrite sumZ_cons in Hs.
  assert (0 <= sumZ (map f l)) as Hp.
  { clear - Hn. induction l as [|z l IH]; [cbn; lia|]. cbn [map]. rewrite sumZ_cons. pose proof (Hn z (or_intror (or_introl eq_refl))).
    assert (0 <= sumZ (map f l)) by (apply IH; intros x [<-|Hx]; apply Hn; [left; reflexivity|right; right; exact Hx]). lia. }
  pose proof (Hn y (or_introl eq_refl)). destruct Hx as [<-|Hx]; [lia|]. apply IH; [intros z Hz; apply Hn; right; exact Hz|lia|exact Hx].
Qed.

Lemma no_order_no_use w k a : backed w -> orders w Bid = [] -> orders w Ask = [] -> waiting w = [] ->
  acct_get k (w_accts w) = Some a -> forall i oo, order_at a i = Ok oo -> oo_free oo = true.
Proof.
  intros Hb E1 E2 E3 Ha i oo Ho. pose proof (bk_slots _ Hb k a i Ha) as G. unfold occupants, things_sum in G. rewrite E1, E2, E3 in G.
  change (0 + 0 + 0 = one_if (slot_used a i)) in G. unfold slot_used in G. rewrite Ho in G. destruct (oo_free oo); [reflexivity|discriminate].
Qed.

Lemma close_market_ok e s u s' out : reachable s -> exec e s (ICloseMarket u) = Ok (s', out) ->
  s_closed s = false /\ winds_down u (e_now e) (w_mkt (s_w s)) /\ (forall sd, orders (s_w s) sd = []) /\ waiting (s_w s) = [] /\
  (forall k a, acct_get k (w_accts (s_w s)) = Some a -> empty_handed a) /\
  m_base_total (w_mkt (s_w s)) = 0 /\ m_quote_total (w_mkt (s_w s)) = 0 /\
  s_w s' = s_w s /\ s_tok s' = s_tok s /\ s_closed s' = true.
Proof.
  intros Hr H. unfold exec in H. destruct (s_closed s) eqn:Hc; [discriminate H|]. cbn [andb needs_market] in H. unfold exec_open in H. cbv zeta in H.
  apply bind_ok in H as (x & E & H). injection H as <- _. unfold close_market_ix in E.
  apply bind_ok in E as (u1 & E1 & E). apply bind_ok in E as (u2 & E2 & E). apply require_ok in E2. apply bind_ok in E as (u3 & E3 & E). apply require_ok in E3.
  apply bind_ok in E as (b & Eb & E). apply bind_ok in E as (a & Ea & E). apply bind_ok in E as (u4 & E4 & E). apply require_ok in E4. apply require_ok in E.
  destruct b; [|discriminate E4]. destruct a; [|discriminate E4].
  assert (Ho : forall sd, orders (s_w s) sd = []).
  { intros sd. assert (G : bs_is_empty (w_book (s_w s) sd) = Ok true) by (destruct sd; [exact Eb|exact Ea]). clear - G. unfold bs_is_empty in G.
    apply bind_ok in G as (f & F & G). apply bind_ok in G as (p & P & G). unfold orders, tree_orders. cbn [bs_root] in *. rewrite F, P.
    destruct f; [|discriminate G]. destruct p; [|discriminate G]. reflexivity. }
  destruct (reachable_inv _ Hr) as (cl & ct & P & HI). pose proof (iv_rep _ _ _ _ _ _ HI) as HR. pose proof (iv_led _ _ _ _ _ _ HI) as HL.
  assert (Hw : waiting (s_w s) = []).
  { destruct (rp_heap _ _ HR) as (L & Hh & _). unfold waiting, queue_of. rewrite (heap_iter_rep _ _ Hh). destruct Hh as (F & Hh). pose proof (hr_count _ _ _ Hh) as G.
    unfold heap_is_empty in E. destruct L; [reflexivity|cbn [length] in G; lia]. }
  unfold market_is_empty in E3.
  pose proof (base_conserved _ Hr) as Cb. pose proof (quote_conserved _ Hr) as Cq. cbv zeta in Cb, Cq. unfold fills_sum in Cb, Cq. rewrite Hw in Cb, Cq.
  cbn [map] in Cb, Cq. change (sumZ []) with 0 in Cb, Cq.
  pose proof (reachable_backed _ Hr) as Hbk.
  assert (Hin : forall k a, acct_get k (w_accts (s_w s)) = Some a -> In (k, a) (w_accts (s_w s))) by (intros; apply acct_get_in; assumption).
  assert (Hback : forall ka, In ka (w_accts (s_w s)) -> acct_get (fst ka) (w_accts (s_w s)) = Some (snd ka)).
  { intros [k a] G. apply acct_in_get; [exact (ld_keys _ _ _ HL)|exact G]. }
  pose proof (mk_cfg _ (ld_mkt _ _ _ HL)) as Hcf.
  assert (Hnn : forall ka, In ka (w_accts (s_w s)) -> let p := a_pos (snd ka) in
    0 <= p_base_free p /\ 0 <= p_quote_free p /\ 0 <= p_locked_fees p /\ 0 <= p_rebates p /\ p_bids_base p = 0 /\ p_asks_base p = 0 /\ p_bids_quote p = 0).
  { intros ka G. apply Hback in G. cbv zeta. destruct (ac_pos _ _ _ _ (ld_acct _ _ _ HL _ _ G)) as [P1 P2 P3 P4 _ _ _ _]. unfold u64_ok in *.
    pose proof (bk_bids _ Hbk _ _ G) as B1. pose proof (bk_asks _ Hbk _ _ G) as B2. pose proof (bk_quote _ Hbk _ _ G) as B3.
    unfold lots, bid_quote, things_sum in B1, B2, B3. rewrite (Ho Bid), (Ho Ask), Hw in B1, B2, B3.
    cbn [map] in B1, B2, B3. change (sumZ []) with 0 in B1, B2, B3. lia. }
  repeat match goal with |- _ /\ _ => split end; try reflexivity; try lia; try exact Ho; try exact Hw.
  - exact (check_close_inv _ _ _ _ E1 E2).
  - intros k a Ha. pose proof (Hnn _ (Hin _ _ Ha)) as G. cbv zeta in G. cbn [snd] in G.
    assert (Zb : p_base_free (a_pos a) + p_asks_base (a_pos a) * bls (w_mkt (s_w s)) = 0).
    { apply (sum_zero (fun ka => p_base_free (a_pos (snd ka)) + p_asks_base (a_pos (snd ka)) * bls (w_mkt (s_w s))) (w_accts (s_w s))) with (x := (k, a)); [|unfold accounts_sum in Cb; lia|exact (Hin _ _ Ha)].
      intros ka Hk. pose proof (Hnn _ Hk) as G'. cbv zeta in G'. destruct G' as (? & ? & ? & ? & ? & G' & ?). rewrite G'. lia. }
    assert (Zq : p_quote_free (a_pos a) + p_bids_quote (a_pos a) * qls (w_mkt (s_w s)) + p_locked_fees (a_pos a) + p_rebates (a_pos a) = 0).
    { apply (sum_zero (fun ka => p_quote_free (a_pos (snd ka)) + p_bids_quote (a_pos (snd ka)) * qls (w_mkt (s_w s)) + p_locked_fees (a_pos (snd ka)) + p_rebates (a_pos (snd ka))) (w_accts (s_w s))) with (x := (k, a)); [|unfold accounts_sum in Cq; lia|exact (Hin _ _ Ha)].
      intros ka Hk. pose proof (Hnn _ Hk) as G'. cbv zeta in G'. destruct G' as (? & ? & ? & ? & ? & ? & G'). rewrite G'. lia. }
    destruct G as (G1 & G2 & G3 & G4 & G5 & G6 & G7). rewrite G6 in Zb. rewrite G7 in Zq.
    unfold empty_handed. cbv zeta. repeat split; try lia. exact (no_order_no_use _ _ _ Hbk (Ho Bid) (Ho Ask) Hw Ha).
Qed.

(** ** Closing an account *)
Lemma close_account_ok e s u k s' out a : reachable s -> exec e s (ICloseAccount u k) = Ok (s', out) -> acct_get k (w_accts (s_w s)) = Some a ->
  empty_handed a /\ (forall sd t l, In (t, l) (orders (s_w s) sd) -> lf_owner l <> k) /\ (forall ev, In ev (waiting (s_w s)) -> ev_owner ev <> k) /\
  acct_get k (w_accts (s_w s')) = None /\ (forall k', k' <> k -> acct_get k' (w_accts (s_w s')) = acct_get k' (w_accts (s_w s))).
Proof.
  intros Hr H Ha. destruct (reachable_inv _ Hr) as (cl & ct & P & HI). pose proof (iv_rep _ _ _ _ _ _ HI) as HR. pose proof (iv_led _ _ _ _ _ _ HI) as HL.
  pose proof (exec_steps _ _ _ _ _ (reachable_sound s Hr) H) as Hst. cbn in Hst. destruct Hst as (b & Hb & He & Hw). rewrite Ha in Hb. injection Hb as <-.
  unfold position_is_empty in He. repeat (apply andb_prop in He; destruct He as [He ?]).
  assert (Hno : forall p, In p P -> pc_owner p <> k) by (eapply empty_no_pieces; [exact HL|exact Ha|lia|lia]).
  pose proof (ld_acct _ _ _ HL _ _ Ha) as [_ _ _ _ G3 _ G4].
  assert (Z0 : forall f, (forall p, pc_owner p <> k -> f p = 0) -> psum f P = 0).
  { intros f Hf. clear - Hf Hno. induction P as [|p P IH]; [reflexivity|]. rewrite psum_cons, (Hf p (Hno p (or_introl eq_refl))), IH; [lia|]. intros q Hq. apply Hno. right. exact Hq. }
  split; [|split; [|split; [|split]]].
  - unfold empty_handed. cbv zeta. repeat split; try lia.
    + rewrite G3. apply Z0. intros p Hp. unfold of_side. replace (pc_owner p =? k) with false by lia. reflexivity.
    + intros i oo Ho. specialize (G4 i). rewrite Z0 in G4 by (intros p Hp; unfold in_slot; replace (pc_owner p =? k) with false by lia; rewrite andb_false_r; reflexivity).
      unfold used in G4. rewrite Ho in G4. destruct (oo_free oo); [reflexivity|discriminate].
  - intros sd t l Hl. destruct (order_piece _ _ _ _ _ HR Hl) as (lp & Hp). exact (Hno _ Hp).
  - intros ev Hev. destruct (event_pieces _ _ _ HR Hev) as (p & Hp & E). destruct ev as [f|o]; [destruct E as (id & ->)|destruct E as (lp & id & ->)]; exact (Hno _ Hp).
  - rewrite Hw. cbn [w_set_accts w_accts]. apply get_del_same. exact (ld_keys _ _ _ HL).
  - intros k' Hk. rewrite Hw. cbn [w_set_accts w_accts]. apply get_del_other. exact Hk.
Qed.
