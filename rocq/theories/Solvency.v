(** The vaults always cover what is recorded and what can be taken out, and settling works. *)
From Coq Require Import ZArith List Bool Lia ZifyBool Permutation.
From Verif Require Import Base Nodes OrderTree BookSide Heap Market OpenOrders Order Book Instructions
  BaseFacts NodesFacts HeapFacts TreeRep TreeFacts TreeOps TreeIter BookSideFacts BookSideOrder BookSpecProofs SpecBook SpecFees
  FeeFacts SpecOrder MatchFacts MatchBook OrderFacts PlaceFacts OrderSpecProofs OrderClaims Steps StepFacts TokenFacts SpecLedger SpecEvents Ledger LedgerOps LedgerMoves
  LedgerPlace LedgerOrder LedgerInv SpecSystem SystemFacts.
Import ListNotations.
Open Scope Z_scope.

Definition free_ok (w : world) : Prop :=
  forall k a, acct_get k (w_accts w) = Some a -> 0 <= p_base_free (a_pos a) /\ 0 <= p_quote_free (a_pos a).
Lemma led_free w P : Led (w_mkt w) (w_accts w) P -> free_ok w.
Proof. intros HL k a Ha. destruct (ac_pos _ _ _ _ (ld_acct _ _ _ HL _ _ Ha)) as [H1 H2 _ _ _ _ _ _]. unfold u64_ok in *. lia. Qed.

Lemma settle_funded s k ub uq ref s' : free_ok (s_w s) -> settle_core s k ub uq ref = Ok s' ->
  funded_m (w_mkt (s_w s)) (s_tok s) -> funded_m (w_mkt (s_w s')) (s_tok s').
Proof.
  intros Hfr H Hf. apply settle_inv in H as (a & t0 & t1 & t2 & Ha & H). cbv zeta in H. destruct H as (Hr & T0 & T1 & T2 & ->).
  destruct (Hfr _ _ Ha) as [F1 F2]. set (p := a_pos a) in *. set (m := w_mkt (s_w s)) in *.
  cbn [s_w s_tok w_set_acct w_set_accts w_mkt w_set_mkt]. unfold funded_m, settled_mkt. cbv zeta. cbn [m_cfg m_base_total m_quote_total].
  set (rb := p_rebates p + round_off m p) in *.
  assert (G0 : funded (m_cfg m) (m_base_total m) (m_quote_total m - (if match ref with Some _ => true | None => false end then rb else 0)) t0).
  { destruct ref as [r|]; [eapply funded_quote_out; [exact Hf|exact T0|exact Hr]|]. subst t0. rewrite Z.sub_0_r. exact Hf. }
  replace (m_quote_total m - p_quote_free p - (if match ref with Some _ => true | None => false end then rb else 0))
    with (m_quote_total m - (if match ref with Some _ => true | None => false end then rb else 0) - p_quote_free p) by lia.
  eapply funded_quote_out; [eapply funded_base_out; [exact G0|exact T1|exact F1]|exact T2|exact F2].
Qed.

(** A token account that is not the market's may change in any way. *)
Lemma funded_upd m t k y : (forall x, t k = Some x -> t_owner x <> c_authority (m_cfg m)) -> funded_m m t -> funded_m m (upd t k y).
Proof.
  intros H (F1 & (x & Hx & Ox & Mx & Ax) & (z & Hz & Oz & Mz & Az)). split; [exact F1|]. split; [exists x|exists z].
  - rewrite upd_other; [auto|]. intros <-. exact (H _ Hx Ox).
  - rewrite upd_other; [auto|]. intros <-. exact (H _ Hz Oz).
Qed.

Lemma exec_funded e s i s' out : world_sound (s_w s) -> free_ok (s_w s) -> 0 <= m_fees_available (w_mkt (s_w s)) -> exec e s i = Ok (s', out) ->
  funded_m (w_mkt (s_w s)) (s_tok s) -> funded_m (w_mkt (s_w s')) (s_tok s').
Proof.
  intros Hs Hfr Hav H Hf. unfold exec in H. destruct (s_closed s && needs_market i); [discriminate H|].
  unfold exec_open in H. cbv zeta in H.
  assert (Hpl : forall x, place_constraints s x = Ok tt -> px_signer x <> c_authority (m_cfg (w_mkt (s_w s)))).
  { intros x Hx. unfold place_constraints in Hx. cbv zeta in Hx. apply bind_ok in Hx as (a & _ & Hx). apply bind_ok in Hx as (u1 & _ & Hx).
    apply bind_ok in Hx as (u2 & Hx & _). apply require_ok in Hx. lia. }
  assert (Hed : forall x cid expected o limit s1 id, params_sane (o_params o) -> px_signer x <> c_authority (m_cfg (w_mkt (s_w s))) ->
    edit_order_ix e s x cid expected o limit = Ok (s1, id) -> funded_m (w_mkt (s_w s1)) (s_tok s1)).
  { intros x cid expected o limit s1 id Hp Ha E. unfold edit_order_ix in E. apply bind_ok in E as (u1 & _ & E). apply bind_ok in E as ([w q] & E0 & E).
    cbv zeta in E. apply bind_ok in E as (f & _ & E). destruct (cancel_orders_mkt _ _ _ _ _ _ _ E0) as [M0 _].
    apply cancel_orders_steps in E0. pose proof (wsteps_sound _ _ _ _ _ _ _ E0 Hs) as Hs1.
    match type of E with (if ?c then _ else _) = _ => destruct c end.
    - apply bind_ok in E as (mb & _ & E). eapply place_funded; [| |exact E| |]; cbn [s_set_w s_w s_tok o_set_max_base o_params]; rewrite ?M0; auto.
    - injection E as <- _. cbn [s_set_w s_w s_tok]. rewrite M0. exact Hf. }
  destruct i as [x g|x g|x cid ex g|x cid ex g|x g|x cancel t bids asks limit|signer k id|signer k cid|signer k sd limit
    |admin limit rem|admin slots rem|signer k ub uq base quote|signer k ub uq base quote|signer k ub uq ref|admin k ub uq ref
    |signer receiver|k owner delegate num|signer k|signer k delegate|signer|signer k limit|signer|auth from to amount|to amount|k mint owner|auth k owner|auth k amount|auth k].
  - apply bind_ok in H as (u1 & E1 & H). apply bind_ok in H as ([] & E2 & H). apply bind_ok in H as (now & _ & H).
    apply bind_ok in H as (oo & Eo & H). destruct oo as [o|]; [|injection H as <- _; exact Hf].
    unfold lift_id in H. apply bind_ok in H as ([s1 id] & E & H). injection H as <- _.
    apply check_place_ok in E1 as [E1 _]. eapply place_funded; [exact Hs|eapply order_of_args_sane; eassumption|exact E|exact (Hpl _ E2)|exact Hf].
  - apply bind_ok in H as (u1 & E1 & H). apply bind_ok in H as ([] & E2 & H). apply bind_ok in H as (now & _ & H).
    apply bind_ok in H as (oo & Eo & H). destruct oo as [o|]; [|injection H as <- _; exact Hf].
    unfold lift_id in H. apply bind_ok in H as ([s1 id] & E & H). injection H as <- _.
    eapply place_funded; [exact Hs|eapply order_of_peg_sane; eassumption|exact E|exact (Hpl _ E2)|exact Hf].
  - apply bind_ok in H as (u1 & E1 & H). apply bind_ok in H as (u2 & _ & H). apply bind_ok in H as (u3 & _ & H).
    apply bind_ok in H as ([] & E2 & H). apply bind_ok in H as (now & _ & H).
    apply bind_ok in H as (oo & Eo & H). destruct oo as [o|]; [|injection H as <- _; exact Hf].
    unfold lift_id in H. apply bind_ok in H as ([s1 id] & E & H). injection H as <- _.
    apply check_place_ok in E1 as [E1 _]. eapply Hed; [eapply order_of_args_sane; eassumption|exact (Hpl _ E2)|exact E].
  - apply bind_ok in H as (u1 & E1 & H). apply bind_ok in H as (u2 & _ & H). apply bind_ok in H as (u3 & _ & H).
    apply bind_ok in H as ([] & E2 & H). apply bind_ok in H as (now & _ & H).
    apply bind_ok in H as (oo & Eo & H). destruct oo as [o|]; [|injection H as <- _; exact Hf].
    unfold lift_id in H. apply bind_ok in H as ([s1 id] & E & H). injection H as <- _.
    eapply Hed; [eapply order_of_peg_sane; eassumption|exact (Hpl _ E2)|exact E].
  - apply bind_ok in H as (u1 & E1 & H). apply bind_ok in H as (u2 & _ & H). apply bind_ok in H as (u3 & E3 & H). apply require_ok in E3.
    apply bind_ok in H as (o & Eo & H). unfold lift_s in H. apply bind_ok in H as (s1 & E & H). injection H as <- _.
    apply check_take_ok in E1 as [E1 _]. eapply take_funded; [exact Hs|eapply order_of_take_sane; eassumption| |exact E|exact Hf]. lia.
  - apply bind_ok in H as (u1 & E1 & H). apply require_ok in E1. apply bind_ok in H as (u2 & E2 & H).
    apply bind_ok in H as (u3 & _ & H). apply bind_ok in H as (u4 & E4 & H). apply require_ok in E4. apply bind_ok in H as (now & _ & H).
    apply bind_ok in H as (bo & B1 & H). apply bind_ok in H as (ao & B2 & H). apply bind_ok in H as ([s1 ids] & E & H). injection H as <- _.
    rewrite forallb_app in E1. apply andb_prop in E1 as [F1 F2].
    eapply multi_funded; [exact Hs| | |exact E|exact Hf].
    + apply Forall_app. split; [exact (orders_of_multi_sane _ _ _ _ _ _ F1 B1)|exact (orders_of_multi_sane _ _ _ _ _ _ F2 B2)].
    + lia.
  - unfold lift_w in H. apply bind_ok in H as (w & E & H). injection H as <- _. cbn [s_set_w s_w s_tok].
    unfold cancel_order_ix in E. apply bind_ok in E as (a & Ea & E).
    apply bind_ok in E as (u1 & _ & E). apply bind_ok in E as (u2 & _ & E).
    destruct (find_order_with_order_id a id) as [oo|] eqn:Ef; [|discriminate E].
    apply bind_ok in E as ([w1 l] & Ec & E). injection E as <-. apply book_cancel_mkt in Ec as [-> _]. exact Hf.
  - apply bind_ok in H as (u1 & _ & H). apply bind_ok in H as (u2 & _ & H). apply bind_ok in H as ([w q] & E & H). injection H as <- _.
    cbn [s_set_w s_w s_tok]. apply cancel_orders_mkt in E as [-> _]. exact Hf.
  - apply bind_ok in H as (u1 & _ & H). apply bind_ok in H as (u2 & _ & H). apply bind_ok in H as ([w q] & E & H). injection H as <- _.
    cbn [s_set_w s_w s_tok]. apply cancel_orders_mkt in E as [-> _]. exact Hf.
  - apply bind_ok in H as (u1 & _ & H). apply bind_ok in H as (u2 & _ & H). unfold lift_w in H.
    apply bind_ok in H as (w & E & H). injection H as <- _. unfold consume_events_ix in E. apply bind_ok in E as (ss & _ & E).
    cbn [s_set_w s_w s_tok]. eapply funded_terms; [eapply consume_terms; exact E|exact Hf].
  - apply bind_ok in H as (u1 & _ & H). apply bind_ok in H as (u2 & _ & H). unfold lift_w in H.
    apply bind_ok in H as (w & E & H). injection H as <- _. unfold consume_events_ix in E. apply bind_ok in E as (ss & _ & E).
    cbn [s_set_w s_w s_tok]. eapply funded_terms; [eapply consume_terms; exact E|exact Hf].
  - apply bind_ok in H as (u1 & E1 & H). apply require_ok in E1. apply bind_ok in H as (u2 & E2 & H). apply require_ok in E2.
    apply bind_ok in H as (u3 & E3 & H). apply require_ok in E3. unfold in_u64, in_range in E1, E2.
    unfold lift_s in H. apply bind_ok in H as (s1 & E & H). injection H as <- _. eapply deposit_funded; [| | |exact E|exact Hf]; lia.
  - apply bind_ok in H as (u1 & E1 & H). apply bind_ok in H as (u2 & E2 & H).
    apply bind_ok in H as (u3 & E3 & H). apply require_ok in E3.
    unfold lift_s in H. apply bind_ok in H as (s1 & E & H). injection H as <- _. unfold refill_ix in E.
    apply bind_ok in E as (a & _ & E). apply bind_ok in E as (q & X1 & E). apply chk_u64_ok in X1 as [-> X1].
    apply bind_ok in E as (b & X2 & E). apply chk_u64_ok in X2 as [-> X2]. eapply deposit_funded; [| | |exact E|exact Hf]; lia.
  - unfold lift_s in H. apply bind_ok in H as (s1 & E & H). injection H as <- _. unfold settle_funds_ix in E.
    do 7 (apply bind_ok in E as (? & _ & E)). eapply settle_funded; [exact Hfr|exact E|exact Hf].
  - unfold lift_s in H. apply bind_ok in H as (s1 & E & H). injection H as <- _. unfold settle_funds_expired_ix in E.
    do 8 (apply bind_ok in E as (? & _ & E)). eapply settle_funded; [exact Hfr|exact E|exact Hf].
  - unfold lift_s in H. apply bind_ok in H as (s1 & E & H). injection H as <- _. unfold sweep_fees_ix in E. cbv zeta in E.
    apply bind_ok in E as (u1 & _ & E). apply bind_ok in E as (u2 & _ & E). apply bind_ok in E as (q & X & E). apply chk_u64_ok in X as [-> X].
    apply bind_ok in E as (t & T & E). injection E as <-. cbn [s_w s_tok w_mkt w_set_mkt]. unfold funded_m.
    cbn [m_set_quote_total m_set_fees_available m_cfg m_base_total m_quote_total]. eapply funded_quote_out; [exact Hf|exact T|exact Hav].
  - unfold lift_w in H. apply bind_ok in H as (w & E & H). injection H as <- _. unfold create_account_ix in E.
    apply bind_ok in E as (u1 & _ & E). apply bind_ok in E as (u2 & _ & E). injection E as <-. exact Hf.
  - unfold lift_w in H. apply bind_ok in H as (w & E & H). injection H as <- _. unfold close_account_ix in E.
    apply bind_ok in E as (a & Ea & E). apply bind_ok in E as (u1 & _ & E).
    apply bind_ok in E as (u2 & E2 & E). injection E as <-. exact Hf.
  - unfold lift_w in H. apply bind_ok in H as (w & E & H). injection H as <- _. unfold set_delegate_ix in E.
    apply bind_ok in E as (a & Ea & E). apply bind_ok in E as (u1 & _ & E). injection E as <-. exact Hf.
  - unfold lift_w in H. apply bind_ok in H as (w & E & H). injection H as <- _. unfold set_market_expired_ix in E.
    apply bind_ok in E as (u1 & _ & E). apply bind_ok in E as (u2 & _ & E). injection E as <-. exact Hf.
  - apply bind_ok in H as (u1 & _ & H). unfold lift_w in H. apply bind_ok in H as (w & E & H). injection H as <- _. unfold prune_orders_ix in E.
    apply bind_ok in E as (u2 & _ & E). apply bind_ok in E as (u3 & _ & E). apply bind_ok in E as (u4 & _ & E).
    apply bind_ok in E as ([w1 q] & E1 & E). injection E as <-. cbn [s_set_w s_w s_tok]. apply cancel_orders_mkt in E1 as [-> _]. exact Hf.
  - apply bind_ok in H as (u1 & _ & H). injection H as <- _. exact Hf.
  - apply bind_ok in H as (u1 & E1 & H). apply require_ok in E1. apply bind_ok in H as (t & T & H). injection H as <- _.
    cbn [s_set_tok s_w s_tok]. destruct (Z.leb_spec 0 amount) as [Hp|Hp].
    + pose proof (funded_in _ _ _ _ _ _ _ _ _ Hf T Hp ltac:(lia)) as (G1 & (x & Gx & Ox & Mx & Ax) & (y & Gy & Oy & My & Ay)).
      split; [exact G1|]. split; [exists x|exists y]; repeat split; try assumption.
      * destruct (c_base_vault (m_cfg (w_mkt (s_w s))) =? to); lia.
      * destruct (c_quote_vault (m_cfg (w_mkt (s_w s))) =? to); lia.
    + unfold token_transfer in T. replace (0 <? amount) with false in T by lia. injection T as <-. exact Hf.
  - apply bind_ok in H as (u1 & E1 & H). apply require_ok in E1. unfold in_u64, in_range in E1. apply bind_ok in H as (b & Eb & H). apply tok_load_ok in Eb.
    apply bind_ok in H as (u2 & _ & H). injection H as <- _. cbn [s_set_tok s_w s_tok].
    assert (G : forall v a mint n, holds_at_least (s_tok s) v a mint n ->
      holds_at_least (upd (s_tok s) to (Some (mkTacc (t_mint b) (t_owner b) (t_amount b + amount)))) v a mint n).
    { intros v a mint n (x & Hx & Ho & Hm & Hn). destruct (Z.eqb_spec v to) as [->|Hne].
      - rewrite Eb in Hx. injection Hx as ->. eexists. split; [apply upd_same|]. cbn [t_owner t_mint t_amount]. split; [exact Ho|]. split; [exact Hm|]. lia.
      - exists x. rewrite upd_other by exact Hne. auto. }
    destruct Hf as (F1 & F2 & F3). split; [exact F1|]. split; apply G; assumption.
  - apply bind_ok in H as (u1 & E1 & H). apply require_ok in E1. injection H as <- _. cbn [s_set_tok s_w s_tok].
    apply funded_upd; [|exact Hf]. intros x Hx. rewrite Hx in E1. discriminate E1.
  - apply bind_ok in H as (u1 & E1 & H). apply require_ok in E1. apply bind_ok in H as (a & Ea & H). apply tok_load_ok in Ea.
    apply bind_ok in H as (u2 & E2 & H). apply require_ok in E2. injection H as <- _. cbn [s_set_tok s_w s_tok].
    apply funded_upd; [|exact Hf]. intros x Hx. rewrite Ea in Hx. injection Hx as <-. lia.
  - apply bind_ok in H as (u0 & _ & H). apply bind_ok in H as (u1 & E1 & H). apply require_ok in E1. apply bind_ok in H as (a & Ea & H). apply tok_load_ok in Ea.
    apply bind_ok in H as (u2 & E2 & H). apply require_ok in E2. apply bind_ok in H as (u3 & _ & H). injection H as <- _. cbn [s_set_tok s_w s_tok].
    apply funded_upd; [|exact Hf]. intros x Hx. rewrite Ea in Hx. injection Hx as <-. lia.
  - apply bind_ok in H as (u1 & E1 & H). apply require_ok in E1. apply bind_ok in H as (a & Ea & H). apply tok_load_ok in Ea.
    apply bind_ok in H as (u2 & E2 & H). apply require_ok in E2. apply bind_ok in H as (u3 & _ & H). injection H as <- _. cbn [s_set_tok s_w s_tok].
    apply funded_upd; [|exact Hf]. intros x Hx. rewrite Ea in Hx. injection Hx as <-. lia.
Qed.

Lemma create_funded now t c te s : create_market_ix now t c te = Ok s -> funded_m (w_mkt (s_w s)) (s_tok s).
Proof.
  intros H. unfold create_market_ix in H. apply bind_ok in H as (u & C & H). unfold create_market_checks in C.
  do 6 (apply bind_ok in C as (? & _ & C)). apply require_ok in C. do 6 (apply bind_ok in H as (? & _ & H)).
  apply bind_ok in H as (v & E & H). apply require_ok in E. cbv zeta in H. injection H as <-.
  cbn [s_w s_tok w_mkt]. unfold funded_m. cbn [m_cfg m_base_total m_quote_total].
  assert (Hne : c_base_vault c <> c_quote_vault c) by lia. split; [split; [exact Hne|lia]|]. split.
  - eexists. split; [rewrite upd_other by exact Hne; apply upd_same|]. cbn [t_owner t_mint t_amount]. lia.
  - eexists. split; [apply upd_same|]. cbn [t_owner t_mint t_amount]. lia.
Qed.

Lemma reachable_funded s : reachable s -> funded_m (w_mkt (s_w s)) (s_tok s).
Proof.
  induction 1 as [now t c te s H|e s i s' out Hr IH H]; [eapply create_funded; exact H|].
  destruct (reachable_inv _ Hr) as (cl & ct & P & HI). pose proof (iv_led _ _ _ _ _ _ HI) as HL.
  eapply exec_funded; [apply reachable_sound; exact Hr|exact (led_free _ _ HL)| |exact H|exact IH].
  pose proof (mk_avail _ (ld_mkt _ _ _ HL)) as G. unfold u64_ok in G. lia.
Qed.

(** What can be taken out. *)
Lemma inv_takeable w cl ct P : Inv w 0 0 cl ct P ->
  asum p_base_free (w_accts w) <= m_base_total (w_mkt w) /\
  asum p_quote_free (w_accts w) + asum p_locked_fees (w_accts w) + asum p_rebates (w_accts w) + m_fees_available (w_mkt w) <= m_quote_total (w_mkt w).
Proof.
  intros [HR HL Gb Gq _ _ _ _]. unfold base_gap, quote_gap in *. pose proof (mk_cfg _ (ld_mkt _ _ _ HL)) as Hc.
  assert (S4 : 0 <= psum (base_claim (w_mkt w)) P) by (apply psum_nonneg; intros p Hp; apply base_claim_nonneg; [exact Hc|exact (ld_piece _ _ _ HL _ Hp)]).
  assert (S5 : 0 <= psum (quote_claim (w_mkt w)) P) by (apply psum_nonneg; intros p Hp; apply quote_claim_nonneg; [exact Hc|exact (ld_piece _ _ _ HL _ Hp)]).
  lia.
Qed.

Theorem reachable_solvent s : reachable s -> solvent s.
Proof.
  intros H. pose proof (reachable_funded _ H) as (_ & F1 & F2). destruct (reachable_inv _ H) as (cl & ct & P & HI).
  destruct (inv_takeable _ _ _ _ HI) as [G1 G2]. constructor; [exact F1|exact F2|exact G1|].
  unfold accounts_sum. change (asum (fun p => p_quote_free p + p_rebates p + p_locked_fees p) (w_accts (s_w s)) + m_fees_available (w_mkt (s_w s)) <= m_quote_total (w_mkt (s_w s))).
  rewrite !asum_add. lia.
Qed.

(** One account's share. *)
Lemma asum_one f ac k a : (forall k' a', acct_get k' ac = Some a' -> 0 <= f (a_pos a')) -> NoDup (map fst ac) ->
  acct_get k ac = Some a -> f (a_pos a) <= asum f ac.
Proof.
  intros Hn Hnd. induction ac as [|[k0 a0] r IH]; [discriminate|]. cbn [acct_get]. unfold asum. cbn [map fst snd]. rewrite sumZ_cons.
  inversion Hnd as [|? ? N1 N2]; subst.
  assert (Hr : forall k' a', acct_get k' r = Some a' -> 0 <= f (a_pos a')).
  { intros k' a' H. apply (Hn k'). cbn [acct_get]. destruct (Z.eqb_spec k' k0) as [->|]; [|exact H].
    exfalso. apply N1. apply in_map_iff. exists (k0, a'). split; [reflexivity|]. apply acct_get_in. exact H. }
  fold (asum f r). destruct (Z.eqb_spec k k0) as [->|].
  - intros E. injection E as ->. assert (0 <= asum f r); [|lia]. clear - Hr N2. induction r as [|[k1 a1] r IH]; [reflexivity|].
    unfold asum. cbn [map fst snd]. rewrite sumZ_cons. fold (asum f r). inversion N2 as [|? ? M1 M2]; subst.
    assert (0 <= f (a_pos a1)) by (apply (Hr k1); cbn [acct_get]; rewrite Z.eqb_refl; reflexivity).
    assert (0 <= asum f r); [|lia]. apply IH; [exact M2|]. intros k' a' G. apply (Hr k'). cbn [acct_get].
    destruct (Z.eqb_spec k' k1) as [->|]; [|exact G]. exfalso. apply M1. apply in_map_iff. exists (k1, a'). split; [reflexivity|]. apply acct_get_in. exact G.
  - intros E. specialize (IH Hr N2 E). specialize (Hn k0 a0). cbn [acct_get] in Hn. rewrite Z.eqb_refl in Hn. specialize (Hn eq_refl). lia.
Qed.

(** ** Settling *)
(** Token accounts after a settlement that pays [b] base, [q] quote and [f] to the referrer. *)
Definition after_settle (c : mcfg) (ub uq : Z) (ref : option Z) (b q f v : Z) : Z :=
  (if v =? ub then b else 0) + (if v =? uq then q else 0) + (match ref with Some r => if v =? r then f else 0 | None => 0 end)
  - (if v =? c_base_vault c then b else 0)
  - (if v =? c_quote_vault c then q + match ref with Some _ => f | None => 0 end else 0).

Lemma transfer_at t d from to auth t' v : token_transfer t d from to auth = Ok t' -> 0 <= d ->
  t' v = option_map (fun x => mkTacc (t_mint x) (t_owner x) (t_amount x + ((if v =? to then d else 0) - (if v =? from then d else 0)))) (t v).
Proof.
  intros H Hd. pose proof (transfer_effect _ _ _ _ _ _ H v) as G. destruct (t v) as [x|]; cbn [option_map]; [|exact G].
  destruct G as [G _]. rewrite G. unfold moved. rewrite Z.max_r by exact Hd. reflexivity.
Qed.

Lemma settle_tokens s k ub uq ref s' a : free_ok (s_w s) -> acct_get k (w_accts (s_w s)) = Some a -> settle_core s k ub uq ref = Ok s' ->
  let m := w_mkt (s_w s) in let p := a_pos a in
  let rebate := p_rebates p + round_off m p in
  s_w s' = w_set_acct (w_set_mkt (s_w s) (settled_mkt m p (match ref with Some _ => true | None => false end))) k (a_set_pos a (settled_pos m p)) /\
  s_closed s' = s_closed s /\
  forall v, s_tok s' v = option_map (fun x => mkTacc (t_mint x) (t_owner x)
    (t_amount x + after_settle (m_cfg m) ub uq ref (p_base_free p) (p_quote_free p) rebate v)) (s_tok s v).
Proof.
  intros Hfr Ha H. apply settle_inv in H as (a' & t0 & t1 & t2 & Ha' & H). rewrite Ha in Ha'. injection Ha' as <-. cbv zeta in H.
  destruct H as (Hr & T0 & T1 & T2 & ->). destruct (Hfr _ _ Ha) as [F1 F2]. cbv zeta. cbn [s_w s_tok s_closed].
  split; [reflexivity|]. split; [reflexivity|]. intros v.
  rewrite (transfer_at _ _ _ _ _ _ v T2 F2), (transfer_at _ _ _ _ _ _ v T1 F1).
  set (c := m_cfg (w_mkt (s_w s))) in *. set (p := a_pos a) in *. set (rb := p_rebates p + round_off (w_mkt (s_w s)) p) in *.
  destruct ref as [r|].
  - rewrite (transfer_at _ _ _ _ _ _ v T0 Hr). destruct (s_tok s v) as [x|]; cbn [option_map]; [|reflexivity]. cbn [t_mint t_owner t_amount].
    f_equal. f_equal. unfold after_settle. destruct (v =? ub), (v =? uq), (v =? r), (v =? c_base_vault c), (v =? c_quote_vault c); lia.
  - subst t0. destruct (s_tok s v) as [x|]; cbn [option_map]; [|reflexivity]. cbn [t_mint t_owner t_amount].
    f_equal. f_equal. unfold after_settle. destruct (v =? ub), (v =? uq), (v =? c_base_vault c), (v =? c_quote_vault c); lia.
Qed.

(** Settling works whenever the destinations exist, have the right mint and can hold the
    amounts. *)
Lemma chk_u64_in z : 0 <= z <= 18446744073709551615 -> chk_u64 z = Ok z.
Proof. intros H. unfold chk_u64, chk, in_u64, in_range, u64_max. replace ((0 <=? z) && (z <=? 18446744073709551615)) with true by lia. reflexivity. Qed.
Lemma chk_u128_in z : 0 <= z <= 340282366920938463463374607431768211455 -> chk_u128 z = Ok z.
Proof. intros H. unfold chk_u128, chk, in_u128, in_range, u128_max. replace ((0 <=? z) && (z <=? 340282366920938463463374607431768211455)) with true by lia. reflexivity. Qed.

Definition takes (t : tokens) (k mint n : Z) : Prop :=
  exists x, t k = Some x /\ t_mint x = mint /\ t_amount x + n <= 18446744073709551615.

Lemma settle_succeeds s k ub uq ref a P cl ct : Inv (s_w s) 0 0 cl ct P -> funded_m (w_mkt (s_w s)) (s_tok s) ->
  acct_get k (w_accts (s_w s)) = Some a ->
  let m := w_mkt (s_w s) in let c := m_cfg m in let p := a_pos a in
  let most := p_quote_free p + p_rebates p + p_locked_fees p in
  takes (s_tok s) ub (c_base_mint c) (p_base_free p) -> takes (s_tok s) uq (c_quote_mint c) most ->
  match ref with
  | Some r => takes (s_tok s) r (c_quote_mint c) most /\
              m_fees_to_referrers m + p_rebates p + p_locked_fees p <= 340282366920938463463374607431768211455
  | None => True
  end ->
  p_penalty p * 500 <= 18446744073709551615 ->
  exists s', settle_core s k ub uq ref = Ok s'.
Proof.
  intros HI Hf Ha m c p most Hub Huq Href Hpen.
  destruct (inv_takeable _ _ _ _ HI) as [T1 T2]. pose proof HI as [HR HL _ _ _ _ _ _]. fold m in T1, T2, HL. pose proof (ld_keys _ _ _ HL) as Hnd.
  assert (Hpos : forall k' a', acct_get k' (w_accts (s_w s)) = Some a' -> pos_ok m (a_pos a')) by (intros k' a' G; exact (ac_pos _ _ _ _ (ld_acct _ _ _ HL _ _ G))).
  assert (B1 : p_base_free p <= asum p_base_free (w_accts (s_w s))).
  { apply (asum_one p_base_free _ k a); [|exact Hnd|exact Ha]. intros k' a' G. pose proof (po_bf _ _ (Hpos _ _ G)) as X. unfold u64_ok in X. lia. }
  assert (B2 : p_quote_free p <= asum p_quote_free (w_accts (s_w s))).
  { apply (asum_one p_quote_free _ k a); [|exact Hnd|exact Ha]. intros k' a' G. pose proof (po_qf _ _ (Hpos _ _ G)) as X. unfold u64_ok in X. lia. }
  assert (B3 : p_locked_fees p <= asum p_locked_fees (w_accts (s_w s))).
  { apply (asum_one p_locked_fees _ k a); [|exact Hnd|exact Ha]. intros k' a' G. pose proof (po_lf _ _ (Hpos _ _ G)) as X. unfold u64_ok in X. lia. }
  assert (B4 : p_rebates p <= asum p_rebates (w_accts (s_w s))).
  { apply (asum_one p_rebates _ k a); [|exact Hnd|exact Ha]. intros k' a' G. pose proof (po_rb _ _ (Hpos _ _ G)) as X. unfold u64_ok in X. lia. }
  pose proof (ld_reb _ _ _ HL) as Hreb. fold m in Hreb.
  destruct (Hpos _ _ Ha) as [P1 P2 P3 P4 P5 _ _ _]. fold p in P1, P2, P3, P4, P5. destruct (ld_mkt _ _ _ HL) as [_ M1 M2 M3 M4 _ _ M5 _ _]. fold m in M1, M2, M3, M4, M5.
  unfold u64_ok in *.
  assert (Hro : 0 <= round_off m p <= p_locked_fees p) by (unfold round_off; destruct (round_now m p); lia).
  set (rb := p_rebates p + round_off m p). assert (Hrb : 0 <= rb <= p_rebates p + p_locked_fees p) by (unfold rb; lia).
  (* the transfers *)
  destruct Hf as ((Hv & Hmn) & (vb & Vb & Ob & Mb & Ab) & (vq & Vq & Oq & Mq & Aq)). fold m c in Hv, Hmn, Vb, Ob, Mb, Ab, Vq, Oq, Mq, Aq.
  destruct Hub as (xb & Xb & XMb & XAb). destruct Huq as (xq & Xq & XMq & XAq).
  assert (N1 : uq <> ub) by (intros ->; rewrite Xb in Xq; injection Xq as ->; congruence).
  assert (N2 : c_base_vault c <> uq) by (intros <-; rewrite Vb in Xq; injection Xq as ->; congruence).
  assert (N3 : c_quote_vault c <> ub) by (intros <-; rewrite Vq in Xb; injection Xb as ->; congruence).
  assert (G0 : exists t0, match ref with Some r => token_transfer (s_tok s) rb (c_quote_vault c) r (c_authority c) | None => Ok (s_tok s) end = Ok t0 /\
    t0 (c_base_vault c) = Some vb /\ t0 ub = Some xb /\
    (exists x, t0 (c_quote_vault c) = Some x /\ t_owner x = c_authority c /\ t_mint x = c_quote_mint c /\ p_quote_free p <= t_amount x) /\
    (exists x, t0 uq = Some x /\ t_mint x = c_quote_mint c /\ t_amount x + p_quote_free p <= 18446744073709551615)).
  { destruct ref as [r|].
    2:{ exists (s_tok s). split; [reflexivity|]. split; [exact Vb|]. split; [exact Xb|]. split; [exists vq|exists xq]; repeat split; try assumption; lia. }
    destruct Href as [(xr & Xr & XMr & XAr) _].
    destruct (transfer_succeeds (s_tok s) rb (c_quote_vault c) r (c_authority c) vq xr Vq Xr ltac:(congruence) Oq ltac:(lia) ltac:(lia)) as (t0 & T0).
    assert (N4 : c_base_vault c <> r) by (intros <-; rewrite Vb in Xr; injection Xr as ->; congruence).
    assert (N5 : ub <> r) by (intros <-; rewrite Xb in Xr; injection Xr as ->; congruence).
    assert (At : forall v, t0 v = option_map (fun x => mkTacc (t_mint x) (t_owner x) (t_amount x + ((if v =? r then rb else 0) - (if v =? c_quote_vault c then rb else 0)))) (s_tok s v))
      by (intros v; apply (transfer_at _ _ _ _ _ _ v T0); lia).
    exists t0. split; [exact T0|]. split; [|split; [|split]].
    - rewrite At, Vb. cbn [option_map]. f_equal. destruct vb as [x1 x2 x3]. cbn [t_mint t_owner t_amount]. f_equal.
      replace (c_base_vault c =? r) with false by lia. replace (c_base_vault c =? c_quote_vault c) with false by lia. lia.
    - rewrite At, Xb. cbn [option_map]. f_equal. destruct xb as [x1 x2 x3]. cbn [t_mint t_owner t_amount]. f_equal.
      replace (ub =? r) with false by lia. replace (ub =? c_quote_vault c) with false by lia. lia.
    - rewrite At, Vq. cbn [option_map]. eexists. split; [reflexivity|]. cbn [t_mint t_owner t_amount]. split; [exact Oq|]. split; [exact Mq|].
      rewrite Z.eqb_refl. destruct (c_quote_vault c =? r); lia.
    - rewrite At, Xq. cbn [option_map]. eexists. split; [reflexivity|]. cbn [t_mint t_owner t_amount]. split; [exact XMq|].
      destruct (uq =? r), (uq =? c_quote_vault c); lia. }
  destruct G0 as (t0 & T0 & V0b & X0b & (v0q & V0q & O0q & M0q & A0q) & (x0q & X0q & XM0q & XA0q)).
  destruct (transfer_succeeds t0 (p_base_free p) (c_base_vault c) ub (c_authority c) vb xb V0b X0b ltac:(congruence) Ob ltac:(lia) ltac:(lia)) as (t1 & T1').
  assert (At : forall v, t1 v = option_map (fun x => mkTacc (t_mint x) (t_owner x) (t_amount x + ((if v =? ub then p_base_free p else 0) - (if v =? c_base_vault c then p_base_free p else 0)))) (t0 v))
    by (intros v; apply (transfer_at _ _ _ _ _ _ v T1'); lia).
  assert (V1q : t1 (c_quote_vault c) = Some v0q).
  { rewrite At, V0q. cbn [option_map]. f_equal. destruct v0q as [x1 x2 x3]. cbn [t_mint t_owner t_amount]. f_equal.
    replace (c_quote_vault c =? ub) with false by lia. replace (c_quote_vault c =? c_base_vault c) with false by lia. lia. }
  assert (X1q : t1 uq = Some x0q).
  { rewrite At, X0q. cbn [option_map]. f_equal. destruct x0q as [x1 x2 x3]. cbn [t_mint t_owner t_amount]. f_equal.
    replace (uq =? ub) with false by lia. replace (uq =? c_base_vault c) with false by lia. lia. }
  destruct (transfer_succeeds t1 (p_quote_free p) (c_quote_vault c) uq (c_authority c) v0q x0q V1q X1q ltac:(congruence) O0q ltac:(lia) ltac:(lia)) as (t2 & T2').
  (* the arithmetic *)
  unfold settle_core. cbv zeta. unfold acct_load. rewrite Ha. cbn [bind]. fold m p c. fold (round_now m p). fold (round_off m p).
  assert (E1 : p_rebates (if round_now m p then p_set_locked_fees p 0 else p) = p_rebates p) by (destruct (round_now m p); reflexivity).
  assert (E2 : p_base_free (if round_now m p then p_set_locked_fees p 0 else p) = p_base_free p) by (destruct (round_now m p); reflexivity).
  assert (E3 : p_quote_free (if round_now m p then p_set_locked_fees p 0 else p) = p_quote_free p) by (destruct (round_now m p); reflexivity).
  assert (E4 : p_penalty (if round_now m p then p_set_locked_fees p 0 else p) = p_penalty p) by (destruct (round_now m p); reflexivity).
  rewrite E1, E2, E3, E4. fold rb. rewrite (chk_u64_in rb) by lia. cbn [bind].
  assert (G1 : exists m1, match ref with
      | Some _ => f <- chk_u128 (m_fees_to_referrers m + rb);; q <- chk_u64 (m_quote_total m - rb);; Ok (m_set_quote_total (m_set_fees_to_referrers m f) q)
      | None => f <- chk_u64 (m_fees_available m + rb);; Ok (m_set_fees_available m f) end = Ok m1 /\
      m_base_total m1 = m_base_total m /\ m_rebates_accrued m1 = m_rebates_accrued m /\ p_quote_free p <= m_quote_total m1 <= m_quote_total m).
  { destruct ref as [r|].
    - destruct Href as [_ Hr]. rewrite chk_u128_in by lia. cbn [bind]. rewrite chk_u64_in by lia. cbn [bind].
      eexists. split; [reflexivity|]. cbn [m_set_quote_total m_set_fees_to_referrers m_base_total m_rebates_accrued m_quote_total]. lia.
    - rewrite chk_u64_in by lia. cbn [bind]. eexists. split; [reflexivity|]. cbn [m_set_fees_available m_base_total m_rebates_accrued m_quote_total]. lia. }
  destruct G1 as (m1 & G1 & Eb & Er & Eq). rewrite G1. cbn [bind]. rewrite Eb, Er.
  rewrite (chk_u64_in (m_base_total m - p_base_free p)) by lia. cbn [bind]. rewrite (chk_u64_in (m_quote_total m1 - p_quote_free p)) by lia. cbn [bind].
  rewrite (chk_u64_in (m_rebates_accrued m - p_rebates p)) by lia. cbn [bind]. rewrite (chk_u64_in (p_penalty p * 500)) by lia. cbn [bind].
  rewrite T0. cbn [bind]. rewrite T1'. cbn [bind]. rewrite T2'. cbn [bind]. eauto.
Qed.
