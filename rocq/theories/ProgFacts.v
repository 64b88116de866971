(** Many markets: each of them is one of the single-market model, and the indexers are right. *)
From Coq Require Import ZArith List Bool Lia ZifyBool Permutation.
From Verif Require Import Base Nodes OrderTree BookSide Heap Market OpenOrders Order Book Instructions
  BaseFacts SpecBook SpecFees SpecOrder MatchFacts OrderFacts PlaceFacts OrderSpecProofs
  Steps StepFacts TokenFacts SpecLedger SpecEvents Ledger LedgerOps LedgerMoves LedgerPlace LedgerOrder LedgerInv SpecSystem SystemFacts Solvency
  SpecControl ControlFacts LifeFacts IdFacts AuthFacts EndFacts SpecWind LockFacts Program SpecProgram.
Import ListNotations.
Open Scope Z_scope.

(** ** Lists by address *)
Lemma al_get_set {A} k (v : A) k' l : al_get k' (al_set k v l) = if k' =? k then option_map (fun _ => v) (al_get k l) else al_get k' l.
Proof.
  induction l as [|[k1 a] r IH]; cbn [al_set al_get].
  - destruct (k' =? k); reflexivity.
  - destruct (k =? k1) eqn:E1; cbn [al_get]; destruct (k' =? k) eqn:E2; destruct (k' =? k1) eqn:E3; try lia; try reflexivity; exact IH.
Qed.
Lemma al_get_same {A} k (v w : A) l : al_get k l = Some w -> al_get k (al_set k v l) = Some v.
Proof. intros H. rewrite al_get_set, Z.eqb_refl, H. reflexivity. Qed.
Lemma al_get_other {A} k (v : A) k' l : k' <> k -> al_get k' (al_set k v l) = al_get k' l.
Proof. intros H. rewrite al_get_set. replace (k' =? k) with false by lia. reflexivity. Qed.
Lemma al_get_del {A} k k' (l : list (Z * A)) : k' <> k -> al_get k' (al_del k l) = al_get k' l.
Proof.
  intros H. induction l as [|[k1 a] r IH]; cbn [al_del al_get]; [reflexivity|].
  destruct (k =? k1) eqn:E1; cbn [al_get]; destruct (k' =? k1) eqn:E2; try lia; try reflexivity; exact IH.
Qed.
Lemma al_get_in {A} k (a : A) l : al_get k l = Some a -> In (k, a) l.
Proof. induction l as [|[k1 b] r IH]; cbn [al_get]; [discriminate|]. destruct (k =? k1) eqn:E; [|right; auto]. intros G. left. f_equal; [lia|congruence]. Qed.
Lemma al_load_ok {A} k (l : list (Z * A)) a : al_load k l = Ok a -> al_get k l = Some a.
Proof. unfold al_load. destruct (al_get k l); [|discriminate]. intros H. congruence. Qed.
Lemma al_keys_set {A} k (v : A) l : map fst (al_set k v l) = map fst l.
Proof. induction l as [|[k1 a] r IH]; cbn [al_set map]; [reflexivity|]. destruct (k =? k1); cbn [map]; [reflexivity|]. f_equal. exact IH. Qed.
Lemma al_get_none {A} k (l : list (Z * A)) : al_get k l = None <-> ~ In k (map fst l).
Proof.
  induction l as [|[k1 a] r IH]; cbn [al_get map]; [split; auto|]. cbn [fst In]. destruct (Z.eqb_spec k k1) as [->|N]; [split; [discriminate|intuition]|]. rewrite IH. intuition congruence.
Qed.
Lemma al_get_key {A} k (l : list (Z * A)) a : NoDup (map fst l) -> In (k, a) l -> al_get k l = Some a.
Proof.
  induction l as [|[k1 b] r IH]; cbn [al_get map fst]; intros N H; [destruct H|]. inversion N as [|? ? N1 N2]; subst.
  destruct H as [H|H]; [injection H as -> ->; rewrite Z.eqb_refl; reflexivity|].
  destruct (Z.eqb_spec k k1) as [->|]; [|exact (IH N2 H)]. exfalso. apply N1. apply (in_map fst) in H. exact H.
Qed.
Lemma al_del_none {A} k (l : list (Z * A)) : NoDup (map fst l) -> al_get k (al_del k l) = None.
Proof.
  induction l as [|[k1 b] r IH]; cbn [al_del map fst]; intros N; [reflexivity|]. inversion N as [|? ? N1 N2]; subst.
  destruct (Z.eqb_spec k k1) as [->|E]; [apply al_get_none; exact N1|]. cbn [al_get]. replace (k =? k1) with false by lia. exact (IH N2).
Qed.
Lemma al_keys_del {A} k (l : list (Z * A)) : NoDup (map fst l) -> NoDup (map fst (al_del k l)).
Proof.
  induction l as [|[k1 b] r IH]; cbn [al_del map fst]; intros N; [exact N|]. inversion N as [|? ? N1 N2]; subst.
  destruct (k =? k1); [exact N2|]. cbn [map fst]. constructor; [|exact (IH N2)].
  intros G. apply N1. clear - G. induction r as [|[k2 c] r IH]; cbn [al_del map fst] in *; [exact G|].
  destruct (k =? k2); [right; exact G|]. destruct G as [G|G]; [left; exact G|right; exact (IH G)].
Qed.

Lemma load_market_in p m s : load_market p m = Ok s -> market_in p m = Some s.
Proof.
  unfold load_market, market_in, al_load. destruct (al_get m (p_mkts p)) as [[w cl]|]; [|discriminate]. cbn [bind option_map fst snd]. intros H. congruence.
Qed.
Lemma market_in_load p m s : market_in p m = Some s -> load_market p m = Ok s.
Proof.
  unfold load_market, market_in, al_load. destruct (al_get m (p_mkts p)) as [[w cl]|]; [|discriminate]. cbn [bind option_map fst snd]. intros H. congruence.
Qed.
Lemma market_in_get p m s : market_in p m = Some s -> al_get m (p_mkts p) = Some (s_w s, s_closed s) /\ s_tok s = p_tok p.
Proof. unfold market_in. destruct (al_get m (p_mkts p)) as [[w cl]|]; [|discriminate]. intros H. injection H as <-. split; reflexivity. Qed.

(** ** Token accounts change by the actions of their owners *)
Inductive tpath (l : list Z) : tokens -> tokens -> Prop :=
| tp_nil t : tpath l t t
| tp_cons t d from to auth t1 t2 : In auth l -> token_transfer t d from to auth = Ok t1 -> tpath l t1 t2 -> tpath l t t2.
Lemma tpath_one l t d from to auth t1 : In auth l -> token_transfer t d from to auth = Ok t1 -> tpath l t t1.
Proof. intros H E. eapply tp_cons; [exact H|exact E|constructor]. Qed.
Lemma tpath_trans l t1 t2 t3 : tpath l t1 t2 -> tpath l t2 t3 -> tpath l t1 t3.
Proof. induction 1; intros; [assumption|]. eapply tp_cons; eauto. Qed.

Lemma place_tpath e s x o limit s' id l : place_order_ix e s x o limit = Ok (s', id) -> In (px_signer x) l -> tpath l (s_tok s) (s_tok s').
Proof.
  intros H Hl. apply place_ix_inv in H as (_ & _ & _ & _ & oracle & w1 & r & w2 & d & t & _ & _ & _ & _ & Ht & -> & _).
  exact (tpath_one _ _ _ _ _ _ _ Hl Ht).
Qed.
Lemma settle_tpath s k ub uq ref s' l : settle_core s k ub uq ref = Ok s' -> In (c_authority (m_cfg (w_mkt (s_w s)))) l -> tpath l (s_tok s) (s_tok s').
Proof.
  intros H Hl. apply settle_inv in H as (a & t0 & t1 & t2 & _ & H). cbv zeta in H. destruct H as (_ & T0 & T1 & T2 & ->). cbn [s_tok].
  eapply tpath_trans; [|eapply tp_cons; [exact Hl|exact T1|exact (tpath_one _ _ _ _ _ _ _ Hl T2)]].
  destruct ref; [exact (tpath_one _ _ _ _ _ _ _ Hl T0)|subst; constructor].
Qed.
Lemma deposit_tpath e s u k ub uq b q s' l : deposit_ix e s u k ub uq b q = Ok s' -> In u l -> tpath l (s_tok s) (s_tok s').
Proof.
  intros H Hl. unfold deposit_ix in H. cbv zeta in H. do 4 (apply bind_ok in H as (? & _ & H)). apply bind_ok in H as (t1 & T1 & H).
  do 2 (apply bind_ok in H as (? & _ & H)). apply bind_ok in H as (t2 & T2 & H). do 2 (apply bind_ok in H as (? & _ & H)). injection H as <-.
  eapply tp_cons; [exact Hl|exact T1|exact (tpath_one _ _ _ _ _ _ _ Hl T2)].
Qed.

Lemma exec_tpath e s i s' out : exec e s i = Ok (s', out) -> is_token_action i = false ->
  tpath [ix_signer i; authority_of (s_w s)] (s_tok s) (s_tok s').
Proof.
  intros H Hta. unfold authority_of. destruct (is_placing i) eqn:Hp.
  - apply exec_placing in H; [|exact Hp]. clear Hta.
    destruct H as [i _ _ _|i x o limit s' id Hi _ _ _ H|i x cid ex o limit s' id Hi _ _ _ H|x g o limit s' _ _ _ _ H|x cancel t bids asks limit os s' ids _ _ _ _ H].
    + constructor.
    + eapply place_tpath; [exact H|]. destruct Hi as [(g & ->)|(g & ->)]; left; reflexivity.
    + unfold edit_order_ix in H. apply bind_ok in H as (u1 & _ & H). apply bind_ok in H as ([w q] & _ & H). cbv zeta in H.
      apply bind_ok in H as (f & _ & H). match type of H with (if ?c then _ else _) = _ => destruct c end.
      * apply bind_ok in H as (mb & _ & H). change (s_tok s) with (s_tok (s_set_w s w)). eapply place_tpath; [exact H|]. destruct Hi as [(g & ->)|(g & ->)]; left; reflexivity.
      * injection H as <- _. constructor.
    + unfold place_take_ix in H. cbv zeta in H. do 6 (apply bind_ok in H as (? & _ & H)). apply bind_ok in H as ([w1 r] & _ & H).
      apply bind_ok in H as (rb & _ & H). cbn [ix_signer].
      assert (G : forall d1 f1 u1 t1 d2 f2 u2 t2, token_transfer (s_tok s) d1 f1 u1 (tx_signer x) = Ok t1 -> token_transfer t1 d2 f2 u2 (c_authority (m_cfg (w_mkt (s_w s)))) = Ok t2 ->
        tpath [tx_signer x; c_authority (m_cfg (w_mkt (s_w s)))] (s_tok s) t2).
      { intros d1 f1 u1 t1 d2 f2 u2 t2 T1 T2. eapply tp_cons; [|exact T1|eapply tpath_one; [|exact T2]]; [left|right; left]; reflexivity. }
      destruct (o_side o).
      * do 3 (apply bind_ok in H as (? & _ & H)). apply bind_ok in H as (t1 & T1 & H). apply bind_ok in H as (t2 & T2 & H). injection H as <-. exact (G _ _ _ _ _ _ _ _ T1 T2).
      * do 3 (apply bind_ok in H as (? & _ & H)). apply bind_ok in H as (t1 & T1 & H). apply bind_ok in H as (t2 & T2 & H). injection H as <-. exact (G _ _ _ _ _ _ _ _ T1 T2).
    + unfold multi_ix in H. cbv zeta in H. do 6 (apply bind_ok in H as (? & _ & H)).
      apply bind_ok in H as ([[[w1 ba] qa] is] & _ & H). do 8 (apply bind_ok in H as (? & _ & H)).
      apply bind_ok in H as (t1 & T1 & H). apply bind_ok in H as (t2 & T2 & H). injection H as <- _. cbn [ix_signer].
      eapply tp_cons; [|exact T1|eapply tpath_one; [|exact T2]]; left; reflexivity.
  - unfold exec in H. destruct (s_closed s && needs_market i); [discriminate H|]. unfold exec_open in H. cbv zeta in H.
    destruct i as [| | | | | |u k' id|u k' c|u k' sd l|u l r|u l r|u k' ub uq b q|u k' ub uq b q|u k' ub uq ref|u k' ub uq ref|u r
      |k' ow dl n|u k'|u k' d|u|u k' l|u| | | | | | ]; try discriminate Hp; try discriminate Hta; clear Hta; cbn [ix_signer]; unfold lift_w, lift_s in H.
    + apply bind_ok in H as (w & _ & H). injection H as <- _. constructor.
    + do 2 (apply bind_ok in H as (? & _ & H)). apply bind_ok in H as ([w q] & _ & H). injection H as <- _. constructor.
    + do 2 (apply bind_ok in H as (? & _ & H)). apply bind_ok in H as ([w q] & _ & H). injection H as <- _. constructor.
    + do 3 (apply bind_ok in H as (? & _ & H)). injection H as <- _. constructor.
    + do 3 (apply bind_ok in H as (? & _ & H)). injection H as <- _. constructor.
    + do 3 (apply bind_ok in H as (? & _ & H)). apply bind_ok in H as (s1 & E & H). injection H as <- _. eapply deposit_tpath; [exact E|left; reflexivity].
    + do 3 (apply bind_ok in H as (? & _ & H)). apply bind_ok in H as (s1 & E & H). injection H as <- _.
      unfold refill_ix in E. do 3 (apply bind_ok in E as (? & _ & E)). eapply deposit_tpath; [exact E|left; reflexivity].
    + apply bind_ok in H as (s1 & E & H). injection H as <- _. unfold settle_funds_ix in E. do 7 (apply bind_ok in E as (? & _ & E)).
      eapply settle_tpath; [exact E|right; left; reflexivity].
    + apply bind_ok in H as (s1 & E & H). injection H as <- _. unfold settle_funds_expired_ix in E. do 8 (apply bind_ok in E as (? & _ & E)).
      eapply settle_tpath; [exact E|right; left; reflexivity].
    + apply bind_ok in H as (s1 & E & H). injection H as <- _. unfold sweep_fees_ix in E. cbv zeta in E. do 3 (apply bind_ok in E as (? & _ & E)).
      apply bind_ok in E as (t1 & T & E). injection E as <-. eapply tpath_one; [|exact T]. right; left; reflexivity.
    + apply bind_ok in H as (w & _ & H). injection H as <- _. constructor.
    + apply bind_ok in H as (w & _ & H). injection H as <- _. constructor.
    + apply bind_ok in H as (w & _ & H). injection H as <- _. constructor.
    + apply bind_ok in H as (w & _ & H). injection H as <- _. constructor.
    + apply bind_ok in H as (? & _ & H). apply bind_ok in H as (w & _ & H). injection H as <- _. constructor.
    + apply bind_ok in H as (w & _ & H). injection H as <- _. constructor.
Qed.

(** ** Seen from another market, these are actions outside the program *)
Lemma action_exec w t cl i t' e : is_token_action i = true -> ix_signer i <> authority_of w ->
  token_action t i = Ok t' -> exec e (mkSys w t cl) i = Ok (mkSys w t' cl, ONone).
Proof.
  intros Hi Hs H. unfold exec. replace (needs_market i) with false by (destruct i; try discriminate Hi; reflexivity).
  rewrite andb_false_r. unfold exec_open. cbv zeta. cbn [s_w s_tok]. unfold authority_of in Hs.
  assert (Na : forall a, ix_signer i = a -> negb (a =? c_authority (m_cfg (w_mkt w))) = true).
  { intros a Ea. rewrite Ea in Hs. apply negb_true_iff. lia. }
  destruct i; try discriminate Hi; cbn [token_action] in H.
  - rewrite (Na auth) by reflexivity. cbn [require bind]. rewrite H. reflexivity.
  - repeat (match type of H with bind ?x _ = _ => destruct x; [|discriminate H]; cbn [bind] in H |- * end). injection H as <-. reflexivity.
  - repeat (match type of H with bind ?x _ = _ => destruct x; [|discriminate H]; cbn [bind] in H |- * end). injection H as <-. reflexivity.
  - rewrite (Na auth) by reflexivity. cbn [require bind].
    repeat (match type of H with bind ?x _ = _ => destruct x; [|discriminate H]; cbn [bind] in H |- * end). injection H as <-. reflexivity.
  - rewrite (Na auth) by reflexivity.
    repeat (match type of H with bind ?x _ = _ => destruct x; [|discriminate H]; cbn [bind require] in H |- * end). injection H as <-. reflexivity.
  - rewrite (Na auth) by reflexivity. cbn [require bind].
    repeat (match type of H with bind ?x _ = _ => destruct x; [|discriminate H]; cbn [bind] in H |- * end). injection H as <-. reflexivity.
Qed.

Inductive outside (w : world) : tokens -> tokens -> Prop :=
| os_nil t : outside w t t
| os_cons t i t1 t2 : is_token_action i = true -> ix_signer i <> authority_of w -> token_action t i = Ok t1 ->
    outside w t1 t2 -> outside w t t2.
Lemma tpath_outside w l t t' : tpath l t t' -> ~ In (authority_of w) l -> outside w t t'.
Proof.
  induction 1 as [t|t d from to auth t1 t2 Hi H _ IH]; intros N; [constructor|].
  apply (os_cons w t (IExtTransfer auth from to d) t1); [reflexivity|cbn [ix_signer]; congruence|exact H|exact (IH N)].
Qed.
Lemma outside_reachable w cl t t' : outside w t t' -> reachable (mkSys w t cl) -> reachable (mkSys w t' cl).
Proof.
  induction 1 as [t|t i t1 t2 Hi Hs H _ IH]; intros R; [exact R|]. apply IH.
  exact (reach_step (mkEnv 0 (Ok None)) _ i _ _ R (action_exec _ _ _ _ _ _ Hi Hs H)).
Qed.
Lemma signer_is i : signer_of i = ix_signer i.
Proof. destruct i; reflexivity. Qed.
(** What the market owns stays. *)
Lemma outside_kept w t t' v x : outside w t t' -> t v = Some x -> t_owner x = authority_of w ->
  exists n, t' v = Some (mkTacc (t_mint x) (t_owner x) n) /\ t_amount x <= n.
Proof.
  intros H. revert x. induction H as [t|t i t1 t2 Hi Hs H _ IH]; intros x Hx Ho; [exists (t_amount x); destruct x; split; [exact Hx|cbn; lia]|].
  pose proof (action_exec w t true i t1 (mkEnv 0 (Ok None)) Hi Hs H) as E.
  assert (G : exists n, t1 v = Some (mkTacc (t_mint x) (t_owner x) n) /\ t_amount x <= n).
  { destruct (reshapes i) eqn:R.
    - pose proof (exec_reshapes _ _ _ _ _ E R v) as G. cbn [s_tok] in G. rewrite Hx, signer_is in G. exists (t_amount x). split; [|lia].
      assert (N : ~ (t1 v <> Some x)) by (intros N; specialize (G N); congruence).
      destruct (t1 v) as [y|]; [|exfalso; apply N; discriminate]. assert (D : {y = x} + {y <> x}) by (repeat decide equality).
      destruct D as [->|D]; [destruct x; reflexivity|]. exfalso. apply N. congruence.
    - pose proof (exec_guarded _ _ _ _ _ E R v) as G. cbn [s_tok] in G. rewrite Hx in G. destruct G as (n & G1 & G2). exists n. split; [exact G1|].
      destruct (Z_lt_le_dec n (t_amount x)) as [L|L]; [|exact L]. exfalso. specialize (G2 L). unfold payers in G2. rewrite signer_is in G2.
      replace (pays_out i) with false in G2 by (destruct i; try discriminate Hi; reflexivity). destruct G2 as [G2|[]]. congruence. }
  destruct G as (n & G1 & G2). destruct (IH _ G1 Ho) as (n' & G3 & G4). exists n'. split; [exact G3|cbn in G4; lia].
Qed.

(** ** The invariant: every market for itself *)
Record pinv (p : prog) : Prop := {
  pv_keys : NoDup (map fst (p_mkts p));
  pv_auth : NoDup (authorities p);
  pv_zero : ~ In 0 (authorities p);
  pv_reach : forall m s, market_in p m = Some s -> reachable s }.

Lemma not_authority p u m s : is_authority p u = false -> market_in p m = Some s -> u <> authority_of (s_w s).
Proof.
  intros H Hm Hu. apply market_in_get in Hm as [Hm _]. apply al_get_in in Hm. unfold is_authority in H.
  assert (In (authority_of (s_w s)) (authorities p)) by (unfold authorities; exact (in_map (fun x => authority_of (fst (snd x))) _ _ Hm)).
  assert (G : existsb (Z.eqb u) (authorities p) = true) by (apply existsb_exists; exists u; split; [congruence|lia]). congruence.
Qed.
Lemma authorities_set p m s s' : market_in p m = Some s -> authority_of (s_w s') = authority_of (s_w s) -> authorities (p_set_mkt p m s') = authorities p.
Proof.
  intros Hm Ha. apply market_in_get in Hm as [Hm _]. unfold authorities. cbn [p_set_mkt p_mkts].
  induction (p_mkts p) as [|[k [w cl]] r IH]; cbn [al_get al_set map] in *; [reflexivity|]. destruct (m =? k); cbn [map snd fst].
  - injection Hm as -> _. rewrite Ha. reflexivity.
  - f_equal. exact (IH Hm).
Qed.
Lemma authorities_differ p m m' s s' : pinv p -> market_in p m = Some s -> market_in p m' = Some s' -> m <> m' -> authority_of (s_w s) <> authority_of (s_w s').
Proof.
  intros [_ HN _ _] H H' N. apply market_in_get in H as [H _]. apply market_in_get in H' as [H' _]. unfold authorities in HN.
  induction (p_mkts p) as [|[k [w cl]] r IH]; cbn [al_get map snd fst] in *; [discriminate|]. inversion HN as [|? ? N1 N2]; subst.
  assert (In1 : forall j x, al_get j r = Some x -> In (authority_of (fst x)) (map (fun x => authority_of (fst (snd x))) r)).
  { intros j x G. apply al_get_in in G. exact (in_map (fun x => authority_of (fst (snd x))) _ _ G). }
  destruct (m =? k) eqn:E1, (m' =? k) eqn:E2; [lia| | |exact (IH N2 H H')].
  - injection H as -> _. apply In1 in H'. cbn [fst] in H'. congruence.
  - injection H' as -> _. apply In1 in H. cbn [fst] in H. congruence.
Qed.

Lemma exec_authority e s i s' out : reachable s -> exec e s i = Ok (s', out) -> authority_of (s_w s') = authority_of (s_w s).
Proof. intros R H. unfold authority_of. rewrite (ag_cfg _ _ (exec_ages _ _ _ _ _ R H)). reflexivity. Qed.

Lemma set_mkt_market p m s' s m' : market_in p m = Some s ->
  market_in (p_set_mkt p m s') m' = if m' =? m then Some s' else option_map (fun x => mkSys (fst x) (s_tok s') (snd x)) (al_get m' (p_mkts p)).
Proof.
  intros H. apply market_in_get in H as [H _]. unfold market_in. cbn [p_set_mkt p_mkts p_tok]. rewrite al_get_set. destruct (m' =? m); [|reflexivity].
  rewrite H. destruct s'. reflexivity.
Qed.
Lemma market_tok p m s : market_in p m = Some s -> s = mkSys (s_w s) (p_tok p) (s_closed s).
Proof. intros H. apply market_in_get in H as [_ H]. rewrite <- H. destruct s; reflexivity. Qed.

(** One market's instruction, seen from all markets. *)
Lemma step_market e p m s i s' out : pinv p -> market_in p m = Some s -> is_token_action i = false -> is_authority p (ix_signer i) = false ->
  exec e s i = Ok (s', out) ->
  pinv (p_set_mkt p m s') /\ forall m' s0, market_in p m' = Some s0 -> m' <> m -> outside (s_w s0) (p_tok p) (s_tok s').
Proof.
  intros Hp Hm Hi Hs H. pose proof (pv_reach _ Hp _ _ Hm) as R.
  assert (O : forall m' s0, market_in p m' = Some s0 -> m' <> m -> outside (s_w s0) (p_tok p) (s_tok s')).
  { intros m' s0 H0 N. pose proof (exec_tpath _ _ _ _ _ H Hi) as T. rewrite (proj2 (market_in_get _ _ _ Hm)) in T.
    apply (tpath_outside _ _ _ _ T). intros [G|[G|[]]]; [exact (not_authority _ _ _ _ Hs H0 G)|exact (authorities_differ _ _ _ _ _ Hp H0 Hm N (eq_sym G))]. }
  split; [|exact O]. pose proof (authorities_set p m s s' Hm (exec_authority _ _ _ _ _ R H)) as Ea. split.
  - cbn [p_set_mkt p_mkts]. rewrite al_keys_set. exact (pv_keys _ Hp).
  - rewrite Ea. exact (pv_auth _ Hp).
  - rewrite Ea. exact (pv_zero _ Hp).
  - intros m' s0 G. rewrite (set_mkt_market _ _ _ _ _ Hm) in G. destruct (Z.eqb_spec m' m) as [->|N].
    + injection G as <-. exact (reach_step _ _ _ _ _ R H).
    + destruct (al_get m' (p_mkts p)) as [[w cl]|] eqn:E; [|discriminate G]. injection G as <-. cbn [fst snd].
      assert (G : market_in p m' = Some (mkSys w (p_tok p) cl)) by (unfold market_in; rewrite E; reflexivity).
      exact (outside_reachable _ _ _ _ (O _ _ G N) (pv_reach _ Hp _ _ G)).
Qed.

Lemma pinv_idx p l : pinv p -> pinv (mkProg (p_mkts p) l (p_tok p)).
Proof. intros [H1 H2 H3 H4]. split; assumption. Qed.

Lemma create_tokens now t c te s : create_market_ix now t c te = Ok s ->
  token_action t (IExtCreate (c_base_vault c) (c_base_mint c) (c_authority c)) = Ok (upd t (c_base_vault c) (Some (mkTacc (c_base_mint c) (c_authority c) 0))) /\
  token_action (upd t (c_base_vault c) (Some (mkTacc (c_base_mint c) (c_authority c) 0))) (IExtCreate (c_quote_vault c) (c_quote_mint c) (c_authority c)) = Ok (s_tok s) /\
  s_closed s = false /\ authority_of (s_w s) = c_authority c.
Proof.
  intros H. unfold create_market_ix in H. cbv zeta in H. do 6 (apply bind_ok in H as (? & _ & H)).
  apply bind_ok in H as (? & E1 & H). apply require_ok in E1. apply bind_ok in H as (? & E2 & H). apply require_ok in E2. injection H as <-.
  cbn [token_action s_tok s_closed s_w]. destruct (t (c_base_vault c)); [discriminate|]. rewrite upd_other by lia. destruct (t (c_quote_vault c)); [discriminate|].
  repeat split; reflexivity.
Qed.

Lemma pexec_inv addr e p i p' out : pinv p -> pexec addr e p i = Ok (p', out) ->
  pinv p' /\ forall m s, market_in p m = Some s -> market_of i <> Some m ->
    market_in p' m = Some (mkSys (s_w s) (p_tok p') (s_closed s)) /\ outside (s_w s) (p_tok p) (p_tok p').
Proof.
  intros Hp H.
  assert (Same : forall l, p' = mkProg (p_mkts p) l (p_tok p) -> pinv p' /\ forall m s, market_in p m = Some s -> market_of i <> Some m ->
    market_in p' m = Some (mkSys (s_w s) (p_tok p') (s_closed s)) /\ outside (s_w s) (p_tok p) (p_tok p')).
  { intros l ->. split; [exact (pinv_idx _ _ Hp)|]. intros m s Hm _. cbn [p_tok]. split; [|constructor].
    rewrite <- (market_tok _ _ _ Hm). exact Hm. }
  assert (Mkt : forall m s j s1 o l, market_in p m = Some s -> is_token_action j = false -> is_authority p (ix_signer j) = false ->
    exec e s j = Ok (s1, o) -> market_of i = Some m -> p' = mkProg (p_mkts (p_set_mkt p m s1)) l (s_tok s1) ->
    pinv p' /\ forall m s, market_in p m = Some s -> market_of i <> Some m ->
      market_in p' m = Some (mkSys (s_w s) (p_tok p') (s_closed s)) /\ outside (s_w s) (p_tok p) (p_tok p')).
  { intros m s j s1 o l Hm T S E Mo ->. destruct (step_market _ _ _ _ _ _ _ Hp Hm T S E) as [G1 G2].
    split; [exact (pinv_idx (p_set_mkt p m s1) l G1)|]. intros m' s0 H0 N. cbn [p_tok]. assert (N' : m' <> m) by congruence.
    split; [|exact (G2 _ _ H0 N')]. unfold market_in. cbn [p_mkts p_set_mkt p_tok]. rewrite (al_get_other _ _ _ _ N').
    rewrite (proj1 (market_in_get _ _ _ H0)). reflexivity. }
  destruct i as [m i|i|m c te|owner|owner|m owner delegate nl|m owner k]; cbn [pexec] in H.
  - apply bind_ok in H as (? & E1 & H). apply require_ok in E1. apply bind_ok in H as (? & E2 & H). apply require_ok in E2.
    apply bind_ok in H as (s & Em & H). apply load_market_in in Em. apply bind_ok in H as ([s' o] & E & H). injection H as <- _.
    apply (Mkt m s i s' o (p_idx p) Em); [destruct (is_token_action i); [discriminate E1|reflexivity]|destruct (is_authority _ _); [discriminate E2|reflexivity]|exact E|reflexivity|reflexivity].
  - apply bind_ok in H as (? & E2 & H). apply require_ok in E2. apply bind_ok in H as (t & E & H). injection H as <- _.
    assert (Ta : is_token_action i = true) by (destruct i; try discriminate E; reflexivity).
    assert (O : forall m s, market_in p m = Some s -> outside (s_w s) (p_tok p) t).
    { intros m s Hm. eapply os_cons; [exact Ta| |exact E|constructor]. apply (not_authority p _ m); [destruct (is_authority _ _); [discriminate E2|reflexivity]|exact Hm]. }
    split.
    + destruct Hp as [H1 H2 H3 H4]. split; [exact H1|exact H2|exact H3|]. intros m s G. unfold market_in in G. cbn [p_set_tok p_mkts p_tok] in G.
      destruct (al_get m (p_mkts p)) as [[w cl]|] eqn:Em; [|discriminate G]. injection G as <-. cbn [fst snd].
      assert (G : market_in p m = Some (mkSys w (p_tok p) cl)) by (unfold market_in; rewrite Em; reflexivity).
      exact (outside_reachable _ _ _ _ (O _ _ G) (H4 _ _ G)).
    + intros m s Hm _. split; [|exact (O _ _ Hm)]. unfold market_in. cbn [p_set_tok p_mkts p_tok]. rewrite (proj1 (market_in_get _ _ _ Hm)). reflexivity.
  - apply bind_ok in H as (? & E1 & H). apply require_ok in E1. apply bind_ok in H as (? & E2 & H). apply require_ok in E2. apply andb_prop in E2 as [E2 E3].
    apply bind_ok in H as (s & E & H). injection H as <- _. destruct (create_tokens _ _ _ _ _ E) as (T1 & T2 & Ec & Ea).
    assert (Fr : al_get m (p_mkts p) = None) by (destruct (al_get m (p_mkts p)); [discriminate E1|reflexivity]).
    assert (O : forall m' s0, market_in p m' = Some s0 -> outside (s_w s0) (p_tok p) (s_tok s)).
    { intros m' s0 H0. assert (N : 0 <> authority_of (s_w s0)).
      { intros G. apply (pv_zero _ Hp). rewrite G. apply market_in_get in H0 as [H0 _]. apply al_get_in in H0. exact (in_map (fun x => authority_of (fst (snd x))) _ _ H0). }
      apply (os_cons _ _ _ _ _ (eq_refl : is_token_action (IExtCreate (c_base_vault c) (c_base_mint c) (c_authority c)) = true) N T1).
      exact (os_cons _ _ _ _ _ (eq_refl : is_token_action (IExtCreate (c_quote_vault c) (c_quote_mint c) (c_authority c)) = true) N T2 (os_nil _ _)). }
    split.
    + split.
      * cbn [p_mkts map fst]. constructor; [apply al_get_none; exact Fr|exact (pv_keys _ Hp)].
      * unfold authorities. cbn [p_mkts map snd fst]. rewrite Ea. constructor; [|exact (pv_auth _ Hp)]. intros G.
        assert (F : is_authority p (c_authority c) = true) by (unfold is_authority; apply existsb_exists; exists (c_authority c); split; [exact G|lia]).
        rewrite F in E2. discriminate E2.
      * unfold authorities. cbn [p_mkts map snd fst]. rewrite Ea. intros [G|G]; [lia|exact (pv_zero _ Hp G)].
      * intros m' s0 G. unfold market_in in G. cbn [p_mkts p_tok al_get] in G. destruct (m' =? m).
        -- injection G as <-. cbn [fst snd]. rewrite <- Ec. assert (Es : s = mkSys (s_w s) (s_tok s) (s_closed s)) by (destruct s; reflexivity). rewrite <- Es. exact (reach_create _ _ _ _ _ E).
        -- destruct (al_get m' (p_mkts p)) as [[w cl]|] eqn:Em; [|discriminate G]. injection G as <-. cbn [fst snd].
           assert (G : market_in p m' = Some (mkSys w (p_tok p) cl)) by (unfold market_in; rewrite Em; reflexivity).
           exact (outside_reachable _ _ _ _ (O _ _ G) (pv_reach _ Hp _ _ G)).
    + intros m' s0 H0 N. cbn [p_tok]. split; [|exact (O _ _ H0)]. unfold market_in. cbn [p_mkts p_tok al_get].
      destruct (Z.eqb_spec m' m) as [->|]; [exfalso; apply N; reflexivity|]. rewrite (proj1 (market_in_get _ _ _ H0)). reflexivity.
  - apply bind_ok in H as (? & _ & H). apply bind_ok in H as (? & _ & H). injection H as <- _. exact (Same _ eq_refl).
  - apply bind_ok in H as (? & _ & H). apply bind_ok in H as (idx & _ & H). apply bind_ok in H as (? & _ & H). injection H as <- _. exact (Same _ eq_refl).
  - apply bind_ok in H as (? & E2 & H). apply require_ok in E2. apply bind_ok in H as (idx & _ & H). do 2 (apply bind_ok in H as (? & _ & H)). cbv zeta in H.
    apply bind_ok in H as (? & _ & H). apply bind_ok in H as (s & Em & H). apply load_market_in in Em. apply bind_ok in H as (? & _ & H).
    apply bind_ok in H as ([s' o] & E & H). injection H as <- _.
    apply (Mkt m s _ s' o _ Em) with (4 := eq_refl) (5 := eq_refl) (3 := E); [reflexivity|cbn [ix_signer]; destruct (is_authority _ _); [discriminate E2|reflexivity]].
  - apply bind_ok in H as (? & E2 & H). apply require_ok in E2. apply bind_ok in H as (idx & _ & H). apply bind_ok in H as (? & _ & H).
    apply bind_ok in H as (s & Em & H). apply load_market_in in Em. apply bind_ok in H as ([s' o] & E & H). apply bind_ok in H as (l & _ & H). injection H as <- _.
    apply (Mkt m s _ s' o _ Em) with (4 := eq_refl) (5 := eq_refl) (3 := E); [reflexivity|cbn [ix_signer]; destruct (is_authority _ _); [discriminate E2|reflexivity]].
Qed.

Lemma preachable_inv addr p : preachable addr p -> pinv p.
Proof.
  induction 1 as [t|e p i p' out R IH H].
  - split; try (constructor; fail); [intros []|]. intros m s G. discriminate G.
  - exact (proj1 (pexec_inv _ _ _ _ _ _ IH H)).
Qed.
