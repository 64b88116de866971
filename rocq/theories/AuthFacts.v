(** Who an instruction needs the signature of, and what it does to token accounts. *)
From Coq Require Import ZArith List Bool Lia ZifyBool Permutation.
From Verif Require Import Base Nodes OrderTree BookSide Heap Market OpenOrders Order Book Instructions
  BaseFacts SpecBook SpecFees SpecOrder MatchFacts OrderFacts PlaceFacts OrderSpecProofs
  Steps StepFacts TokenFacts SpecLedger Ledger LedgerOps LedgerMoves LedgerPlace LedgerOrder LedgerInv SpecSystem SystemFacts Solvency SpecControl ControlFacts LifeFacts IdFacts.
Import ListNotations.
Open Scope Z_scope.

Lemma owner_or_delegate_controls a u : is_owner_or_delegate a u = true -> controls u a.
Proof. unfold is_owner_or_delegate, controls. destruct (a_delegate a =? 0) eqn:E; lia. Qed.
Lemma controls_owner_or_delegate a u : controls u a -> is_owner_or_delegate a u = true.
Proof. unfold is_owner_or_delegate, controls. destruct (a_delegate a =? 0) eqn:E; lia. Qed.

Lemma place_constraints_inv s x : place_constraints s x = Ok tt -> exists a, acct_get (px_acct x) (w_accts (s_w s)) = Some a /\
  controls (px_signer x) a /\ px_signer x <> c_authority (m_cfg (w_mkt (s_w s))).
Proof.
  intros H. unfold place_constraints in H. cbv zeta in H. apply bind_ok in H as (a & Ea & H). apply acct_load_ok in Ea.
  apply bind_ok in H as (u1 & E1 & H). apply require_ok in E1. apply bind_ok in H as (u2 & E2 & _). apply require_ok in E2.
  exists a. split; [exact Ea|]. split; [apply owner_or_delegate_controls; exact E1|lia].
Qed.
Lemma multi_constraints_inv s x : multi_constraints s x = Ok tt -> exists a, acct_get (mx_acct x) (w_accts (s_w s)) = Some a /\ controls (mx_signer x) a.
Proof.
  intros H. unfold multi_constraints in H. cbv zeta in H. apply bind_ok in H as (a & Ea & H). apply acct_load_ok in Ea.
  apply bind_ok in H as (u1 & E1 & _). apply require_ok in E1. exists a. split; [exact Ea|apply owner_or_delegate_controls; exact E1].
Qed.
Lemma check_od w u k x : check_owner_or_delegate w u k = Ok x -> exists a, acct_get k (w_accts w) = Some a /\ controls u a.
Proof.
  intros H. unfold check_owner_or_delegate in H. apply bind_ok in H as (a & Ea & H). apply acct_load_ok in Ea. apply require_ok in H.
  exists a. split; [exact Ea|apply owner_or_delegate_controls; exact H].
Qed.
Lemma check_close_inv m u x now : check_close_admin m u = Ok x -> market_is_expired m now = true -> winds_down u now m.
Proof.
  intros H E. unfold check_close_admin in H. cbv zeta in H. apply bind_ok in H as (y & E1 & H). apply require_ok in E1. apply require_ok in H.
  unfold market_is_expired in E. unfold winds_down. lia.
Qed.

Lemma exec_permitted e s i s' out k a : exec e s i = Ok (s', out) -> acts_for i k -> acct_get k (w_accts (s_w s)) = Some a -> permitted e s i a.
Proof.
  intros H Hf Ha. unfold exec in H. destruct (s_closed s && needs_market i); [discriminate H|]. unfold exec_open in H. cbv zeta in H.
  assert (Hpl : forall x u, place_constraints s x = Ok u -> k = px_acct x -> controls (px_signer x) a).
  { intros x u E ->. apply unit_ok in E. apply place_constraints_inv in E as (b & Eb & G & _). congruence. }
  destruct i as [x g|x g|x cid ex g|x cid ex g|x g|x cancel t bids asks limit|u k' id|u k' c|u k' sd l| | |u k' ub uq b q|u k' ub uq b q|u k' ub uq ref|u k' ub uq ref|u r
    |k' ow dl n|u k'|u k' d|u|u k' l|u|au f t n|t n|k0 mi ow0|au k0 ow0|au k0 n|au k0]; cbn [acts_for permitted signer_of] in *; try contradiction; try exact I.
  - apply bind_ok in H as (u1 & _ & H). apply bind_ok in H as (u2 & E & _). exact (Hpl _ _ E Hf).
  - apply bind_ok in H as (u1 & _ & H). apply bind_ok in H as (u2 & E & _). exact (Hpl _ _ E Hf).
  - do 3 (apply bind_ok in H as (? & _ & H)). apply bind_ok in H as (u2 & E & _). exact (Hpl _ _ E Hf).
  - do 3 (apply bind_ok in H as (? & _ & H)). apply bind_ok in H as (u2 & E & _). exact (Hpl _ _ E Hf).
  - do 2 (apply bind_ok in H as (? & _ & H)). apply bind_ok in H as (u2 & E & _). apply unit_ok in E. apply multi_constraints_inv in E as (b & Eb & G). congruence.
  - subst k'. unfold lift_w in H. apply bind_ok in H as (w & E & _). unfold cancel_order_ix in E. apply bind_ok in E as (b & Eb & E). apply acct_load_ok in Eb.
    apply bind_ok in E as (u1 & E1 & _). apply require_ok in E1. apply owner_or_delegate_controls in E1. congruence.
  - apply bind_ok in H as (u1 & _ & H). apply bind_ok in H as (u2 & E & _). apply check_od in E as (b & Eb & G). congruence.
  - apply bind_ok in H as (u1 & _ & H). apply bind_ok in H as (u2 & E & _). apply check_od in E as (b & Eb & G). congruence.
  - unfold lift_s in H. apply bind_ok in H as (w & E & _). unfold settle_funds_ix in E. apply bind_ok in E as (b & Eb & E). apply acct_load_ok in Eb.
    apply bind_ok in E as (u1 & E1 & _). apply require_ok in E1. apply owner_or_delegate_controls in E1. congruence.
  - unfold lift_s in H. apply bind_ok in H as (w & E & _). unfold settle_funds_expired_ix in E. apply bind_ok in E as (u1 & E1 & E).
    apply bind_ok in E as (b & _ & E). do 5 (apply bind_ok in E as (? & _ & E)). apply bind_ok in E as (u2 & E2 & _). apply require_ok in E2.
    exact (check_close_inv _ _ _ _ E1 E2).
  - unfold lift_w in H. apply bind_ok in H as (w & E & _). unfold create_account_ix in E. apply bind_ok in E as (u1 & E1 & _). apply require_ok in E1.
    subst k'. rewrite Ha in E1. discriminate.
  - unfold lift_w in H. apply bind_ok in H as (w & E & _). unfold close_account_ix in E. apply bind_ok in E as (b & Eb & E). apply acct_load_ok in Eb.
    apply bind_ok in E as (u1 & E1 & _). apply require_ok in E1. subst k'. rewrite Ha in Eb. injection Eb as <-. lia.
  - unfold lift_w in H. apply bind_ok in H as (w & E & _). unfold set_delegate_ix in E. apply bind_ok in E as (b & Eb & E). apply acct_load_ok in Eb.
    apply bind_ok in E as (u1 & E1 & _). apply require_ok in E1. subst k'. rewrite Ha in Eb. injection Eb as <-. lia.
  - apply bind_ok in H as (u1 & _ & H). unfold lift_w in H. apply bind_ok in H as (w & E & _). unfold prune_orders_ix in E.
    apply bind_ok in E as (u2 & E2 & E). apply bind_ok in E as (b & _ & E). apply bind_ok in E as (u3 & E3 & _). apply require_ok in E3.
    exact (check_close_inv _ _ _ _ E2 E3).
Qed.

(** ** Token accounts *)
Lemma guarded_refl l t : guarded l t t.
Proof. intros v. destruct (t v) as [[x1 x2 x3]|]; [|reflexivity]. exists x3. split; [reflexivity|cbn; lia]. Qed.
Lemma guarded_trans l t1 t2 t3 : guarded l t1 t2 -> guarded l t2 t3 -> guarded l t1 t3.
Proof.
  intros H1 H2 v. specialize (H1 v). specialize (H2 v). destruct (t1 v) as [x|].
  - destruct H1 as (n & E & Hn). rewrite E in H2. cbn [t_mint t_owner t_amount] in H2. destruct H2 as (n' & E' & Hn').
    exists n'. split; [exact E'|]. intros Hl. destruct (Z_lt_le_dec n (t_amount x)) as [G|G]; [auto|]. apply Hn'. lia.
  - rewrite H1 in H2. exact H2.
Qed.
Lemma guarded_incl l l' t t' : guarded l t t' -> incl l l' -> guarded l' t t'.
Proof. intros H Hi v. specialize (H v). destruct (t v); [|exact H]. destruct H as (n & E & Hn). exists n. auto. Qed.
Lemma transfer_guarded t d from to auth t' : token_transfer t d from to auth = Ok t' -> guarded [auth] t t'.
Proof.
  intros H v. pose proof (transfer_effect _ _ _ _ _ _ H v) as G. destruct (t v) as [x|]; [|exact G]. destruct G as [G1 G2].
  eexists. split; [exact G1|]. unfold moved. intros Hl. destruct (Z.eqb_spec v from) as [->|Hne]; [|destruct (v =? to); lia].
  left. destruct (Z.ltb_spec 0 d) as [Hd|Hd]; [symmetry; apply G2; [exact Hd|reflexivity]|]. destruct (from =? to); lia.
Qed.

Lemma place_guarded e s x o limit s' id : place_order_ix e s x o limit = Ok (s', id) -> guarded [px_signer x] (s_tok s) (s_tok s').
Proof.
  intros H. apply place_ix_inv in H as (_ & _ & _ & _ & oracle & w1 & r & w2 & d & t & _ & _ & _ & _ & Ht & -> & _).
  exact (transfer_guarded _ _ _ _ _ _ Ht).
Qed.
Lemma settle_guarded s k ub uq ref s' : settle_core s k ub uq ref = Ok s' -> guarded [c_authority (m_cfg (w_mkt (s_w s)))] (s_tok s) (s_tok s').
Proof.
  intros H. apply settle_inv in H as (a & t0 & t1 & t2 & _ & H). cbv zeta in H. destruct H as (_ & T0 & T1 & T2 & ->). cbn [s_tok].
  eapply guarded_trans; [|eapply guarded_trans; [exact (transfer_guarded _ _ _ _ _ _ T1)|exact (transfer_guarded _ _ _ _ _ _ T2)]].
  destruct ref; [exact (transfer_guarded _ _ _ _ _ _ T0)|subst; apply guarded_refl].
Qed.
Lemma deposit_guarded e s u k ub uq b q s' : deposit_ix e s u k ub uq b q = Ok s' -> guarded [u] (s_tok s) (s_tok s').
Proof.
  intros H. unfold deposit_ix in H. cbv zeta in H. do 4 (apply bind_ok in H as (? & _ & H)). apply bind_ok in H as (t1 & T1 & H).
  do 2 (apply bind_ok in H as (? & _ & H)). apply bind_ok in H as (t2 & T2 & H). do 2 (apply bind_ok in H as (? & _ & H)). injection H as <-.
  eapply guarded_trans; [exact (transfer_guarded _ _ _ _ _ _ T1)|exact (transfer_guarded _ _ _ _ _ _ T2)].
Qed.

Lemma exec_guarded e s i s' out : exec e s i = Ok (s', out) -> reshapes i = false -> guarded (payers s i) (s_tok s) (s_tok s').
Proof.
  intros H Hsh. destruct (is_placing i) eqn:Hp.
  - apply exec_placing in H; [|exact Hp]. clear Hsh.
    destruct H as [i _ _ _|i x o limit s' id Hi _ _ _ H|i x cid ex o limit s' id Hi _ _ _ H|x g o limit s' _ _ _ _ H|x cancel t bids asks limit os s' ids _ _ _ _ H].
    + apply guarded_refl.
    + apply place_guarded in H. eapply guarded_incl; [exact H|]. destruct Hi as [(g & ->)|(g & ->)]; intros z; exact (fun G => G).
    + unfold edit_order_ix in H. apply bind_ok in H as (u1 & _ & H). apply bind_ok in H as ([w q] & _ & H). cbv zeta in H.
      apply bind_ok in H as (f & _ & H). match type of H with (if ?c then _ else _) = _ => destruct c end.
      * apply bind_ok in H as (mb & _ & H). apply place_guarded in H. eapply guarded_incl; [exact H|]. destruct Hi as [(g & ->)|(g & ->)]; intros z; exact (fun G => G).
      * injection H as <- _. apply guarded_refl.
    + unfold place_take_ix in H. cbv zeta in H. do 6 (apply bind_ok in H as (? & _ & H)). apply bind_ok in H as ([w1 r] & _ & H).
      apply bind_ok in H as (rb & _ & H). unfold payers. cbn [signer_of pays_out].
      assert (G : forall d1 f1 u1 t1 d2 f2 u2 t2, token_transfer (s_tok s) d1 f1 u1 (tx_signer x) = Ok t1 -> token_transfer t1 d2 f2 u2 (c_authority (m_cfg (w_mkt (s_w s)))) = Ok t2 ->
        guarded [tx_signer x; c_authority (m_cfg (w_mkt (s_w s)))] (s_tok s) t2).
      { intros d1 f1 u1 t1 d2 f2 u2 t2 T1 T2. apply transfer_guarded in T1. apply transfer_guarded in T2.
        eapply guarded_trans; [eapply guarded_incl; [exact T1|]|eapply guarded_incl; [exact T2|]]; intros z [<-|[]]; [left|right; left]; reflexivity. }
      destruct (o_side o).
      * do 3 (apply bind_ok in H as (? & _ & H)). apply bind_ok in H as (t1 & T1 & H). apply bind_ok in H as (t2 & T2 & H). injection H as <-. exact (G _ _ _ _ _ _ _ _ T1 T2).
      * do 3 (apply bind_ok in H as (? & _ & H)). apply bind_ok in H as (t1 & T1 & H). apply bind_ok in H as (t2 & T2 & H). injection H as <-. exact (G _ _ _ _ _ _ _ _ T1 T2).
    + unfold multi_ix in H. cbv zeta in H. do 6 (apply bind_ok in H as (? & _ & H)).
      apply bind_ok in H as ([[[w1 ba] qa] is] & _ & H). do 8 (apply bind_ok in H as (? & _ & H)).
      apply bind_ok in H as (t1 & T1 & H). apply bind_ok in H as (t2 & T2 & H). injection H as <- _.
      apply transfer_guarded in T1. apply transfer_guarded in T2. exact (guarded_trans _ _ _ _ T1 T2).
  - unfold exec in H. destruct (s_closed s && needs_market i); [discriminate H|]. unfold exec_open in H. cbv zeta in H.
    unfold payers.
    destruct i as [| | | | | |u k' id|u k' c|u k' sd l|u l r|u l r|u k' ub uq b q|u k' ub uq b q|u k' ub uq ref|u k' ub uq ref|u r
      |k' ow dl n|u k'|u k' d|u|u k' l|u|au f t n|t n|k0 mi ow0|au k0 ow0|au k0 n|au k0]; try discriminate Hp; try discriminate Hsh; clear Hsh; cbn [signer_of pays_out]; unfold lift_w, lift_s in H.
    + apply bind_ok in H as (w & _ & H). injection H as <- _. apply guarded_refl.
    + do 2 (apply bind_ok in H as (? & _ & H)). apply bind_ok in H as ([w q] & _ & H). injection H as <- _. apply guarded_refl.
    + do 2 (apply bind_ok in H as (? & _ & H)). apply bind_ok in H as ([w q] & _ & H). injection H as <- _. apply guarded_refl.
    + do 3 (apply bind_ok in H as (? & _ & H)). injection H as <- _. apply guarded_refl.
    + do 3 (apply bind_ok in H as (? & _ & H)). injection H as <- _. apply guarded_refl.
    + do 3 (apply bind_ok in H as (? & _ & H)). apply bind_ok in H as (s1 & E & H). injection H as <- _. exact (deposit_guarded _ _ _ _ _ _ _ _ _ E).
    + do 3 (apply bind_ok in H as (? & _ & H)). apply bind_ok in H as (s1 & E & H). injection H as <- _.
      unfold refill_ix in E. do 3 (apply bind_ok in E as (? & _ & E)). exact (deposit_guarded _ _ _ _ _ _ _ _ _ E).
    + apply bind_ok in H as (s1 & E & H). injection H as <- _. unfold settle_funds_ix in E. do 7 (apply bind_ok in E as (? & _ & E)).
      apply settle_guarded in E. eapply guarded_incl; [exact E|]. intros z [<-|[]]; right; left; reflexivity.
    + apply bind_ok in H as (s1 & E & H). injection H as <- _. unfold settle_funds_expired_ix in E. do 8 (apply bind_ok in E as (? & _ & E)).
      apply settle_guarded in E. eapply guarded_incl; [exact E|]. intros z [<-|[]]; right; left; reflexivity.
    + apply bind_ok in H as (s1 & E & H). injection H as <- _. unfold sweep_fees_ix in E. cbv zeta in E. do 3 (apply bind_ok in E as (? & _ & E)).
      apply bind_ok in E as (t1 & T & E). injection E as <-. apply transfer_guarded in T. eapply guarded_incl; [exact T|]. intros z [<-|[]]; right; left; reflexivity.
    + apply bind_ok in H as (w & _ & H). injection H as <- _. apply guarded_refl.
    + apply bind_ok in H as (w & _ & H). injection H as <- _. apply guarded_refl.
    + apply bind_ok in H as (w & _ & H). injection H as <- _. apply guarded_refl.
    + apply bind_ok in H as (w & _ & H). injection H as <- _. apply guarded_refl.
    + apply bind_ok in H as (? & _ & H). apply bind_ok in H as (w & _ & H). injection H as <- _. apply guarded_refl.
    + apply bind_ok in H as (w & _ & H). injection H as <- _. apply guarded_refl.
    + apply bind_ok in H as (? & _ & H). apply bind_ok in H as (t1 & T & H). injection H as <- _. exact (transfer_guarded _ _ _ _ _ _ T).
    + apply bind_ok in H as (? & En & H). unfold u64_arg in En. apply require_ok in En. apply bind_ok in H as (b & Eb & H). apply tok_load_ok in Eb. apply bind_ok in H as (? & _ & H). injection H as <- _.
      intros v. cbn [s_tok s_set_tok]. unfold upd. destruct (Z.eqb_spec v t) as [->|Hne].
      * rewrite Eb. eexists. split; [reflexivity|]. unfold in_u64, in_range in En. lia.
      * destruct (s_tok s v) as [[x1 x2 x3]|]; [|reflexivity]. exists x3. split; [reflexivity|cbn; lia].
    + do 2 (apply bind_ok in H as (? & _ & H)). apply bind_ok in H as (b & Eb & H). apply tok_load_ok in Eb.
      apply bind_ok in H as (? & Eo & H). apply require_ok in Eo. apply bind_ok in H as (? & _ & H). injection H as <- _.
      intros v. cbn [s_tok s_set_tok]. unfold upd. destruct (Z.eqb_spec v k0) as [->|Hne].
      * rewrite Eb. eexists. split; [reflexivity|]. intros _. left. lia.
      * destruct (s_tok s v) as [[y1 y2 y3]|]; [|reflexivity]. exists y3. split; [reflexivity|cbn; lia].
Qed.
(** An account is opened where there was none, or it was the signer's. *)
Lemma exec_reshapes e s i s' out : exec e s i = Ok (s', out) -> reshapes i = true ->
  forall v, s_tok s' v <> s_tok s v -> match s_tok s v with Some x => t_owner x = signer_of i | None => True end.
Proof.
  intros H Hsh v Hv. unfold exec in H. destruct (s_closed s && needs_market i); [discriminate H|]. unfold exec_open in H. cbv zeta in H.
  destruct i as [| | | | | | | | | | | | | | | | | | | | | | | |k0 mi ow0|au k0 ow0|au k0 n|au k0]; try discriminate Hsh; cbn [signer_of].
  - apply bind_ok in H as (? & E & H). apply require_ok in E. injection H as <- _. cbn [s_tok s_set_tok] in Hv. unfold upd in Hv.
    destruct (Z.eqb_spec v k0) as [Ev|]; [subst v|congruence]. destruct (s_tok s k0); [discriminate E|exact I].
  - apply bind_ok in H as (? & _ & H). apply bind_ok in H as (b & Eb & H). apply tok_load_ok in Eb. apply bind_ok in H as (? & Eo & H). apply require_ok in Eo.
    injection H as <- _. cbn [s_tok s_set_tok] in Hv. unfold upd in Hv. destruct (Z.eqb_spec v k0) as [Ev|]; [subst v|congruence]. rewrite Eb. lia.
  - apply bind_ok in H as (? & _ & H). apply bind_ok in H as (b & Eb & H). apply tok_load_ok in Eb. apply bind_ok in H as (? & Eo & H). apply require_ok in Eo.
    apply bind_ok in H as (? & _ & H). injection H as <- _. cbn [s_tok s_set_tok] in Hv. unfold upd in Hv. destruct (Z.eqb_spec v k0) as [Ev|]; [subst v|congruence]. rewrite Eb. lia.
Qed.

(** ** Deposits *)
Lemma transferred_two t t1 t2 d1 f1 u1 a1 d2 f2 u2 a2 : 0 <= d1 -> 0 <= d2 ->
  token_transfer t d1 f1 u1 a1 = Ok t1 -> token_transfer t1 d2 f2 u2 a2 = Ok t2 -> transferred [(d1, f1, u1); (d2, f2, u2)] t t2.
Proof.
  intros H1 H2 T1 T2 v. rewrite (transfer_at _ _ _ _ _ _ v T2 H2), (transfer_at _ _ _ _ _ _ v T1 H1).
  destruct (t v) as [x|]; [|reflexivity]. cbn [option_map t_mint t_owner t_amount]. f_equal. f_equal.
  unfold net. cbn [map fst snd]. unfold sumZ. cbn [fold_left fold_right]. lia.
Qed.

Lemma deposit_inv e s u k ub uq b q s' a : 0 <= b -> 0 <= q -> deposit_ix e s u k ub uq b q = Ok s' -> acct_get k (w_accts (s_w s)) = Some a ->
  ~ expired (e_now e) (w_mkt (s_w s)) /\ deposited s k ub uq b q a s'.
Proof.
  intros Hb Hq H Ha. unfold deposit_ix in H. cbv zeta in H. do 2 (apply bind_ok in H as (? & _ & H)). apply bind_ok in H as (a' & Ea & H).
  apply acct_load_ok in Ea. rewrite Ha in Ea. injection Ea as <-. apply bind_ok in H as (? & Ex & H). apply require_ok in Ex.
  apply bind_ok in H as (t1 & T1 & H). apply bind_ok in H as (bf & X1 & H). apply chk_u64_ok in X1 as [-> _]. apply bind_ok in H as (bt & X2 & H). apply chk_u64_ok in X2 as [-> _].
  apply bind_ok in H as (t2 & T2 & H). apply bind_ok in H as (qf & X3 & H). apply chk_u64_ok in X3 as [-> _]. apply bind_ok in H as (qt & X4 & H). apply chk_u64_ok in X4 as [-> _].
  injection H as <-. split; [unfold expired; unfold market_is_expired in Ex; lia|]. constructor; try reflexivity.
  - exact (transferred_two _ _ _ _ _ _ _ _ _ _ _ Hb Hq T1 T2).
  - cbn [s_w w_accts w_set_acct w_set_accts w_set_mkt]. rewrite acct_get_set, Z.eqb_refl, Ha. reflexivity.
  - intros k' Hk. cbn [s_w w_accts w_set_acct w_set_accts w_set_mkt]. rewrite acct_get_set. replace (k' =? k) with false by lia. reflexivity.
  - repeat split.
Qed.

Lemma exec_deposit e s u k ub uq b q s' out a : exec e s (IDeposit u k ub uq b q) = Ok (s', out) -> acct_get k (w_accts (s_w s)) = Some a ->
  ~ expired (e_now e) (w_mkt (s_w s)) /\ deposited s k ub uq b q a s'.
Proof.
  intros H Ha. unfold exec in H. destruct (s_closed s && _); [discriminate H|]. unfold exec_open in H. cbv zeta in H.
  apply bind_ok in H as (? & E1 & H). apply bind_ok in H as (? & E2 & H). apply bind_ok in H as (? & _ & H). unfold lift_s in H. apply bind_ok in H as (s1 & E & H). injection H as <- _.
  unfold u64_arg in *. apply require_ok in E1. apply require_ok in E2. unfold in_u64, in_range in *. apply (deposit_inv e s u); [lia|lia|exact E|exact Ha].
Qed.

Lemma exec_refill e s u k ub uq b q s' out a : reachable s -> exec e s (IRefill u k ub uq b q) = Ok (s', out) -> acct_get k (w_accts (s_w s)) = Some a ->
  ~ expired (e_now e) (w_mkt (s_w s)) /\
  deposited s k ub uq (Z.max 0 (b - p_base_free (a_pos a))) (Z.max 0 (q - p_quote_free (a_pos a))) a s'.
Proof.
  intros Hr H Ha. unfold exec in H. destruct (s_closed s && _); [discriminate H|]. unfold exec_open in H. cbv zeta in H.
  apply bind_ok in H as (? & E1 & H). apply bind_ok in H as (? & E2 & H). apply bind_ok in H as (? & _ & H). unfold lift_s in H. apply bind_ok in H as (s1 & E & H). injection H as <- _.
  unfold refill_ix in E. apply bind_ok in E as (a' & Ea & E). apply acct_load_ok in Ea. rewrite Ha in Ea. injection Ea as <-.
  apply bind_ok in E as (q1 & X1 & E). apply chk_u64_ok in X1 as [E3 _]. apply bind_ok in E as (b1 & X2 & E). apply chk_u64_ok in X2 as [E4 _].
  assert (b1 = Z.max 0 (b - p_base_free (a_pos a))) as -> by lia. assert (q1 = Z.max 0 (q - p_quote_free (a_pos a))) as -> by lia.
  apply (deposit_inv e s u); [lia|lia|exact E|exact Ha].
Qed.

(** ** Settling *)
Lemma settle_settlement s k ub uq ref s' a : reachable s -> settle_core s k ub uq ref = Ok s' -> acct_get k (w_accts (s_w s)) = Some a -> settlement s k ub uq ref a s'.
Proof.
  intros Hr H Ha. destruct (reachable_inv _ Hr) as (cl & ct & P & HI). pose proof (led_free _ _ (iv_led _ _ _ _ _ _ HI)) as Hf.
  destruct (settle_tokens _ _ _ _ _ _ _ Hf Ha H) as (Ew & _ & Et).
  assert (El : round_off (w_mkt (s_w s)) (a_pos a) = leftover (w_mkt (s_w s)) (a_pos a)) by reflexivity.
  constructor.
  - intros m p v. rewrite Et. destruct (s_tok s v) as [x|]; [|reflexivity]. cbn [option_map]. f_equal. f_equal. rewrite El. fold m p.
    unfold after_settle, net. destruct ref as [r|]; cbn [map fst snd]; unfold sumZ; cbn [fold_left fold_right]; destruct (v =? c_quote_vault (m_cfg m)); lia.
  - rewrite Ew. cbn [w_mkt w_set_acct w_set_accts w_set_mkt]. unfold settled_mkt. cbn [m_fees_available]. rewrite El. destruct ref; lia.
  - rewrite Ew. reflexivity.
  - rewrite Ew. cbn [w_mkt w_set_acct w_set_accts w_set_mkt]. unfold settled_mkt. cbn [m_quote_total]. rewrite El. destruct ref; reflexivity.
  - rewrite Ew. cbn [w_accts w_set_acct w_set_accts w_set_mkt]. rewrite acct_get_set, Z.eqb_refl, Ha. cbn [option_map]. unfold settled_pos, leftover, round_now. cbv zeta.
    destruct ((0 <? maker_fee (w_mkt (s_w s))) && (p_bids_base (a_pos a) =? 0)); [rewrite Z.sub_diag|rewrite Z.sub_0_r]; reflexivity.
  - intros k' Hk. rewrite Ew. cbn [w_accts w_set_acct w_set_accts w_set_mkt]. rewrite acct_get_set. replace (k' =? k) with false by lia. reflexivity.
  - rewrite Ew. repeat split.
Qed.

Lemma exec_settle e s i k ub uq ref s' out : exec e s i = Ok (s', out) -> settles i k ub uq ref ->
  exists a, acct_get k (w_accts (s_w s)) = Some a /\ settle_core s k ub uq ref = Ok s' /\
    exists xb xq, s_tok s ub = Some xb /\ s_tok s uq = Some xq /\
    (signer_of i = a_owner a /\ (exists u, i = ISettle u k ub uq ref) \/ (t_owner xb = a_owner a /\ t_owner xq = a_owner a)).
Proof.
  intros H Hi. unfold exec in H. destruct (s_closed s && _); [discriminate H|]. unfold exec_open in H. cbv zeta in H.
  destruct Hi as [(u & ->)|(u & ->)]; unfold lift_s in H; apply bind_ok in H as (s1 & E & H); injection H as <- _; cbn [signer_of].
  - unfold settle_funds_ix in E. apply bind_ok in E as (a & Ea & E). apply acct_load_ok in Ea. do 2 (apply bind_ok in E as (? & _ & E)).
    apply bind_ok in E as (xb & Xb & E). apply tok_load_ok in Xb. apply bind_ok in E as (xq & Xq & E). apply tok_load_ok in Xq.
    apply bind_ok in E as (? & E1 & E). apply bind_ok in E as (? & E2 & E). apply require_ok in E1. apply require_ok in E2.
    exists a. split; [exact Ea|]. split; [exact E|]. exists xb, xq. split; [exact Xb|]. split; [exact Xq|].
    unfold is_settle_destination_allowed in *. destruct (negb (a_delegate a =? 0) && (a_delegate a =? u)); [right; lia|left]. split; [lia|eauto].
  - unfold settle_funds_expired_ix in E. apply bind_ok in E as (? & _ & E). apply bind_ok in E as (a & Ea & E). apply acct_load_ok in Ea. apply bind_ok in E as (? & _ & E).
    apply bind_ok in E as (xb & Xb & E). apply tok_load_ok in Xb. apply bind_ok in E as (xq & Xq & E). apply tok_load_ok in Xq.
    apply bind_ok in E as (? & E1 & E). apply bind_ok in E as (? & E2 & E). apply require_ok in E1. apply require_ok in E2. apply bind_ok in E as (? & _ & E).
    exists a. split; [exact Ea|]. split; [exact E|]. exists xb, xq. split; [exact Xb|]. split; [exact Xq|]. right; lia.
Qed.

(** Settling works for the owner, and for the delegate or the closing admin to the owner's
    accounts. *)
Lemma check_mint_ok t u v x y m : t u = Some x -> t v = Some y -> t_mint x = m -> t_mint y = m -> check_mint t u v = Ok tt.
Proof. intros H1 H2 H3 H4. unfold check_mint, tok_load. rewrite H1, H2. cbn [bind]. rewrite H3, H4, Z.eqb_refl. reflexivity. Qed.
Lemma settle_works e s i k ub uq ref a : reachable s -> s_closed s = false -> settles i k ub uq ref -> acct_get k (w_accts (s_w s)) = Some a ->
  permitted e s i a ->
  let m := w_mkt (s_w s) in let c := m_cfg m in let p := a_pos a in
  let most := p_quote_free p + p_rebates p + p_locked_fees p in
  can_take (s_tok s) ub (c_base_mint c) (p_base_free p) -> can_take (s_tok s) uq (c_quote_mint c) most ->
  match ref with
  | Some r => can_take (s_tok s) r (c_quote_mint c) most /\
              m_fees_to_referrers m + p_rebates p + p_locked_fees p <= 340282366920938463463374607431768211455
  | None => True
  end ->
  p_penalty p * 500 <= 18446744073709551615 ->
  (signer_of i <> a_owner a \/ (exists u, i = ISettleExpired u k ub uq ref) \/ signer_of i = a_delegate a ->
     forall x, s_tok s ub = Some x \/ s_tok s uq = Some x -> t_owner x = a_owner a) ->
  exists s', exec e s i = Ok (s', ONone).
Proof.
  intros Hr Hc Hi Ha Hp m c p most Hub Huq Href Hpen Hown. destruct (reachable_inv _ Hr) as (cl & ct & P & HI). pose proof (reachable_funded _ Hr) as Hf.
  destruct (settle_succeeds s k ub uq ref a P cl ct HI Hf Ha Hub Huq Href Hpen) as (s' & Hs). exists s'.
  destruct Hf as (_ & (vb & Vb & _ & Mb & _) & (vq & Vq & _ & Mq & _)). fold m c in Vb, Vq, Mb, Mq.
  assert (Hm : settle_mints s ub uq ref = Ok tt).
  { destruct Hub as (xb & Xb & XMb & _). destruct Huq as (xq & Xq & XMq & _). unfold settle_mints. cbv zeta. fold m c.
    rewrite (check_mint_ok _ _ _ _ _ _ Xb Vb XMb Mb). cbn [bind]. rewrite (check_mint_ok _ _ _ _ _ _ Xq Vq XMq Mq). cbn [bind].
    destruct ref as [r|]; [|reflexivity]. destruct Href as [(xr & Xr & XMr & _) _]. exact (check_mint_ok _ _ _ _ _ _ Xr Vq XMr Mq). }
  destruct Hub as (xb & Xb & _). destruct Huq as (xq & Xq & _).
  unfold exec. rewrite Hc. cbn [andb]. destruct Hi as [(u & ->)|(u & ->)]; unfold exec_open; cbv beta iota zeta; cbn [permitted signer_of] in *.
  - unfold settle_funds_ix, acct_load. rewrite Ha. cbn [bind]. rewrite (controls_owner_or_delegate _ _ Hp). cbn [require bind]. rewrite Hm. cbn [bind].
    unfold tok_load at 1 2. rewrite Xb, Xq. cbn [bind].
    assert (G : forall x, s_tok s ub = Some x \/ s_tok s uq = Some x -> is_settle_destination_allowed a u (t_owner x) = true).
    { intros x Hx. unfold is_settle_destination_allowed. destruct (negb (a_delegate a =? 0) && (a_delegate a =? u)) eqn:E.
      - rewrite (Hown ltac:(right; right; lia) x Hx). lia.
      - destruct Hp as [Hp|Hp]; lia. }
    rewrite (G xb (or_introl Xb)), (G xq (or_intror Xq)). cbn [require bind]. rewrite Hs. reflexivity.
  - unfold settle_funds_expired_ix. destruct Hp as (W1 & W2 & W3 & W4). fold m c in W1, W2, W3, W4. fold m.
    assert (check_close_admin m u = Ok tt) as -> by (unfold check_close_admin; cbv zeta; fold c; replace (c_close_market_admin c =? 0) with false by lia; replace (c_close_market_admin c =? u) with true by lia; reflexivity).
    cbn [bind]. unfold acct_load. rewrite Ha. cbn [bind]. rewrite Hm. cbn [bind]. unfold tok_load at 1 2. rewrite Xb, Xq. cbn [bind].
    assert (G : forall x, s_tok s ub = Some x \/ s_tok s uq = Some x -> t_owner x = a_owner a) by (apply Hown; right; left; eauto).
    rewrite (G xb (or_introl Xb)), (G xq (or_intror Xq)), Z.eqb_refl. cbn [require bind].
    replace (market_is_expired m (e_now e)) with true by (unfold market_is_expired; lia). cbn [require bind]. rewrite Hs. reflexivity.
Qed.
