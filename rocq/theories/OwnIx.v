(** What an account's own instructions do to what it is due. *)
From Coq Require Import ZArith List Bool Lia ZifyBool Permutation.
From Verif Require Import Base Nodes OrderTree BookSide Heap Market OpenOrders Order Book Instructions Logs
  BaseFacts NodesFacts HeapFacts TreeRep TreeFacts TreeOps TreeIter BookSideFacts BookSideOrder BookSpecProofs SpecBook SpecFees SpecHeap
  HeapSpecProofs FeeFacts SpecOrder MatchFacts MatchBook OrderFacts PlaceFacts OrderSpecProofs OrderClaims Steps StepFacts TokenFacts
  SpecLedger SpecEvents Ledger LedgerOps LedgerMoves LedgerPlace LedgerOrder LedgerInv SpecSystem SystemFacts Solvency ConsumeFacts
  SpecControl ControlFacts AuthFacts SpecMatch SpecPersist PersistFacts SpecTrade TradeIx SpecLogs LogFacts LogOrder LogTally LogSteps LogProofs LogMoney
  TradeFacts SpecExit ExitFacts DeferFacts DeferOrder SpecWorth WorthFacts WorthSteps WorthRuns WorthIx SpecOwn OwnFacts OwnRuns.
Import ListNotations.
Open Scope Z_scope.

(** ** Sums over the orders of one instruction *)
Definition net_quote (m : market) (k : Z) (M : list fill_event) : Z := deal_quote m k M - self_cost m k M.
Lemma deals_cfg m m' k M : m_cfg m' = m_cfg m ->
  deal_base m' k M = deal_base m k M /\ net_quote m' k M = net_quote m k M /\ self_rounding m' k M = self_rounding m k M.
Proof.
  intros E. unfold net_quote, deal_base, deal_quote, self_cost, self_rounding, taken_base, taken_quote, self_fee, fill_quote, maker_pays, taker_pays, bls, qls, maker_fee, taker_fee.
  rewrite E. repeat split.
Qed.
Lemma deals_none m k : deal_base m k [] = 0 /\ net_quote m k [] = 0 /\ self_rounding m k [] = 0.
Proof.
  unfold net_quote, deal_base, deal_quote, self_cost, self_rounding, with_others, with_self. cbn [filter map length]. change (sumZ []) with 0.
  unfold taker_pays. rewrite fee_up_zero. repeat split. destruct (0 <? maker_fee m); reflexivity.
Qed.

Definition run_deals (k : Z) (W : list (side * option Z)) (deals : list (list fill_event)) : Prop :=
  Forall2 (fun x M => Forall (taken_by k (fst x) (snd x)) M) W deals.
Record earned (k : Z) (W : list (side * option Z)) (L : list log) (w : world) (w' : world) (xb xq : Z) : Prop := {
  ea_deals : exists deals D, run_deals k W deals /\ tallied w D (concat deals) L w' /\
    let m := w_mkt w in
    valued k w (orders w) w' (orders w') (sumZ (map (deal_base m k) deals) + xb) (sumZ (map (net_quote m k) deals) + xq) (sumZ (map (self_rounding m k) deals)) }.
Definition own_run (k : Z) (W : list (side * option Z)) (L : list log) (w : world) (db dq : Z) (w' : world) (db' dq' : Z) : Prop :=
  forall cl ct P, Inv w db dq cl ct P -> (exists P', Inv w' db' dq' cl ct P') /\
    earned k W L w w' ((db' - db) + (m_base_total (w_mkt w') - m_base_total (w_mkt w))) ((dq' - dq) + (m_quote_total (w_mkt w') - m_quote_total (w_mkt w))).

Lemma sumZ_app l l' : sumZ (l ++ l') = sumZ l + sumZ l'.
Proof. induction l as [|x l IH]; [reflexivity|]. cbn [app]. rewrite !sumZ_cons, IH. lia. Qed.
Lemma own_trans k W L w db dq w1 db1 dq1 W' L' w2 db2 dq2 : own_run k W L w db dq w1 db1 dq1 -> own_run k W' L' w1 db1 dq1 w2 db2 dq2 ->
  own_run k (W ++ W') (L ++ L') w db dq w2 db2 dq2.
Proof.
  intros H1 H2 cl ct P HI. destruct (H1 cl ct P HI) as ((P1 & I1) & [(d1 & D1 & F1 & T1 & V1)]).
  destruct (H2 cl ct P1 I1) as (I2 & [(d2 & D2 & F2 & T2 & V2)]). split; [exact I2|]. constructor. exists (d1 ++ d2), (D1 ++ D2).
  split; [apply Forall2_app; assumption|]. split; [rewrite concat_app; eapply tallied_trans; eassumption|]. cbv zeta in *.
  pose proof (vl_cfg _ _ _ _ _ _ _ _ V1) as Ec.
  rewrite !map_app, !sumZ_app. eapply valued_eq; [exact (valued_trans _ _ _ _ _ _ _ _ _ _ _ _ _ V1 V2)| | |].
  - rewrite (map_ext _ _ (fun M => proj1 (deals_cfg _ _ k M Ec))). lia.
  - rewrite (map_ext _ _ (fun M => proj1 (proj2 (deals_cfg _ _ k M Ec)))). lia.
  - rewrite (map_ext _ _ (fun M => proj2 (proj2 (deals_cfg _ _ k M Ec)))). lia.
Qed.
Lemma own_calm k w db dq w' db' dq' : wsteps (Some k) w db dq w' db' dq' -> calm w w' ->
  (forall cl ct P, Inv w db dq cl ct P ->
     valued k w (orders w) w' (orders w') ((db' - db) + (m_base_total (w_mkt w') - m_base_total (w_mkt w))) ((dq' - dq) + (m_quote_total (w_mkt w') - m_quote_total (w_mkt w))) 0) ->
  own_run k [] [] w db dq w' db' dq'.
Proof.
  intros Hs Hc Hv cl ct P HI. split; [exact (wsteps_inv _ _ _ _ _ _ _ _ _ Hs P HI)|]. constructor. exists [], []. split; [constructor|].
  split; [apply calm_tallied; exact Hc|]. cbn [map]. change (sumZ []) with 0. cbv zeta. rewrite !Z.add_0_l. exact (Hv cl ct P HI).
Qed.
Lemma own_nil k w db dq : own_run k [] [] w db dq w db dq.
Proof.
  apply own_calm; [constructor|apply calm_refl|]. intros cl ct P HI. rewrite !Z.sub_diag. apply valued_refl.
Qed.
Lemma own_place k w db dq o oracle now limit rem w' r : sane_order o -> 0 <= limit -> 0 <= now ->
  new_order w o oracle (Some k) k now limit rem = Ok (w', r) ->
  own_run k [(o_side o, order_limit o oracle)] (order_logs w o oracle (Some k) k now limit rem) w db dq w' (db + owed_base o (Some k) r) (dq + owed_quote o (Some k) r).
Proof.
  intros Ho Hl Hn H cl ct P HI. split.
  - exact (wstep_inv _ _ _ _ _ _ _ _ _ _ (ws_place (Some k) w db dq o oracle (Some k) k now limit rem w' r Ho (or_introl eq_refl) Hl Hn H eq_refl) HI).
  - destruct (new_order_valued _ _ _ _ _ _ _ _ _ _ _ _ _ _ HI Ho H) as (M & D & F & T & V). constructor. exists [M], D.
    split; [constructor; [exact F|constructor]|]. cbn [concat]. rewrite app_nil_r. split; [exact T|].
    pose proof HI as [HR HL _ _ _ _ _ _]. pose proof (rep_sound _ _ HR HL) as Hws.
    destruct (new_order_terms _ _ _ _ _ _ _ _ _ _ (sound_call_of _ _ _ _ Hws Ho (or_introl eq_refl)) H) as (_ & _ & E1 & E2 & _).
    cbv zeta. cbn [map]. rewrite !sumZ_cons. change (sumZ []) with 0. unfold net_quote. rewrite E1, E2.
    eapply valued_eq; [exact V|lia|lia|lia].
Qed.
(** Orders that are asked for and not placed. *)
Lemma own_more k W W' L w db dq w' db' dq' : sublist W W' -> own_run k W L w db dq w' db' dq' -> own_run k W' L w db dq w' db' dq'.
Proof.
  intros Hs H cl ct P HI. destruct (H cl ct P HI) as (I & [(deals & D & F & T & V)]). split; [exact I|]. constructor.
  enough (G : exists deals', run_deals k W' deals' /\ concat deals' = concat deals /\ forall g : list fill_event -> Z, g [] = 0 -> sumZ (map g deals') = sumZ (map g deals)).
  { destruct G as (d' & F' & E1 & E2). exists d', D. split; [exact F'|]. rewrite E1. split; [exact T|]. cbv zeta.
    destruct (deals_none (w_mkt w) k) as (N1 & N2 & N3). rewrite !E2 by assumption. exact V. }
  clear - Hs F. revert deals F. induction Hs as [l|x l m Hs IH|x l m Hs IH]; intros deals F.
  - inversion F; subst. exists (map (fun _ => []) l). induction l as [|y l IH]; [split; [constructor|split; reflexivity]|].
    destruct IH as (I1 & I2 & I3). cbn [map concat app]. split; [constructor; [constructor|exact I1]|]. split; [exact I2|].
    intros g Hg. rewrite sumZ_cons, Hg, (I3 g Hg). reflexivity.
  - inversion F as [|? M ? d' F1 F2]; subst. destruct (IH d' F2) as (d2 & I1 & I2 & I3). exists (M :: d2). split; [constructor; assumption|].
    cbn [concat map]. split; [rewrite I2; reflexivity|]. intros g Hg. rewrite !sumZ_cons, (I3 g Hg). reflexivity.
  - destruct (IH deals F) as (d2 & I1 & I2 & I3). exists ([] :: d2). split; [constructor; [constructor|exact I1]|].
    cbn [concat map app]. split; [exact I2|]. intros g Hg. rewrite sumZ_cons, Hg, (I3 g Hg). reflexivity.
Qed.

(** ** Steps *)
(** Money moved between the wallet and the free balance. *)
Lemma valued_moved k w db dq cl ct P a m' a' : Inv w db dq cl ct P -> acct_get k (w_accts w) = Some a ->
  m_cfg m' = m_cfg (w_mkt w) -> a_orders a' = a_orders a ->
  let w' := w_set_acct (w_set_mkt w m') k a' in
  valued k w (orders w) w' (orders w') (p_base_free (a_pos a') - p_base_free (a_pos a)) (p_quote_free (a_pos a') - p_quote_free (a_pos a)) 0.
Proof.
  intros HI Ha Ec Eo w'. pose proof HI as [HR HL _ _ _ _ _ _].
  assert (EL : forall s, orders w' s = orders w s) by (intros []; reflexivity).
  apply (valued_perm k w (orders w) w' (orders w)); [reflexivity|intros s; rewrite EL; reflexivity|].
  apply (valued_shift k w P w' a a' HL (rp_heap _ _ HR) Ha); [eapply acct_get_set_same; exact Ha|reflexivity|exact Ec|].
  intros i oo _ _. unfold order_at. rewrite Eo. reflexivity.
Qed.

Lemma own_cancel k w db dq a oo ex w' l : acct_get k (w_accts w) = Some a -> In oo (a_orders a) -> oo_free oo = false ->
  book_cancel_order w k (oo_id oo) (oo_side oo) (oo_tree oo) ex = Ok (w', l) -> own_run k [] [] w db dq w' db dq.
Proof.
  intros Ha Hoo Hfr H. apply own_calm.
  - eapply wsteps_one; [eapply ws_cancel; [exact Ha|exact Hoo|exact Hfr|exact H|reflexivity]|reflexivity|reflexivity].
  - eapply calm_cancel. exact H.
  - intros cl ct P HI. destruct (cancel_led _ _ _ _ _ _ _ _ _ _ _ _ HI Ha Hoo Hfr H) as (P' & HI' & Ow & _ & _ & HP).
    destruct (book_cancel_mkt _ _ _ _ _ _ _ _ H) as [Em _]. rewrite Em, !Z.sub_diag.
    apply book_cancel_inv in H as (b & a0 & a' & Erm & _ & Ha0 & Hc & ->). rewrite Ha in Ha0. injection Ha0 as <-.
    set (s := oo_side oo) in *. set (t := oo_tree oo) in *.
    pose proof HI as [HR HL _ _ _ _ _ _]. pose proof HI' as [HR' _ _ _ _ _ _ _].
    assert (H1 : Permutation (pleaves s P) ((t, l) :: pleaves s P')).
    { rewrite (pleaves_perm s _ _ HP), pleaves_cons. destruct s; reflexivity. }
    assert (H2 : Permutation (pleaves (invert_side s) P) (pleaves (invert_side s) P')).
    { rewrite (pleaves_perm (invert_side s) _ _ HP), pleaves_cons. destruct s; reflexivity. }
    assert (Hin : In (t, l) (pleaves s P)) by (apply (Permutation_in _ (Permutation_sym H1)); left; reflexivity).
    pose proof (out_now w P s t l 0 HL (rp_heap _ _ HR) Hin None a a') as He. rewrite Ow in He. specialize (He Ha Hc).
    pose proof (tracked_valued _ _ _ _ _ (drop_tracked w P P' s t l 0 _ _ None k HL H1 H2 He (strip_out _ _ _ _))) as V.
    eapply valued_perm; [| |eapply valued_eq; [eapply valued_trans; [exact V|]; apply (valued_same k _ (pool_of P') _ (pool_of P'))|lia|lia|lia]].
    + intros u. symmetry. apply rep_orders. exact HR.
    + intros u. symmetry. apply rep_orders. exact HR'.
    + cbn [w_set_acct w_set_accts w_mkt]. rewrite w_set_book_mkt. reflexivity.
    + apply fate_same; cbn [w_set_acct w_set_accts w_mkt w_heap w_accts]; destruct s; reflexivity.
    + reflexivity.
Qed.
Lemma own_cancel_all n : forall i w k limit total so co w' q db dq, cancel_all_loop n i w k limit total so co = Ok (w', q) -> own_run k [] [] w db dq w' db dq.
Proof.
  induction n as [|n IH]; intros i w k limit total so co w' q db dq H; cbn [cancel_all_loop] in H.
  - injection H as <- _. apply own_nil.
  - apply bind_ok in H as (a & Ea & H). apply acct_load_ok in Ea. apply bind_ok in H as (oo & Eo & H). cbv zeta in H.
    destruct (oo_free oo) eqn:Efr; [eapply IH; exact H|].
    destruct (match so with Some s => negb (side_eqb s (oo_side oo)) | None => false end); [eapply IH; exact H|].
    destruct (match co with Some c => negb (c =? oo_client_id oo) | None => false end); [eapply IH; exact H|].
    destruct (limit =? 0); [injection H as <- _; apply own_nil|].
    destruct (book_cancel_order w k (oo_id oo) (oo_side oo) (oo_tree oo) None) as [[w1 l]|e] eqn:Ec.
    + apply bind_ok in H as (tot & _ & H). change (@nil (side * option Z)) with (@nil (side * option Z) ++ []). change (@nil log) with (@nil log ++ []).
      eapply own_trans; [eapply own_cancel; [exact Ea|eapply order_at_in; exact Eo|exact Efr|exact Ec]|eapply IH; exact H].
    + destruct e; try discriminate H. eapply IH; exact H.
Qed.
Lemma own_cancel_orders w k limit so co w' q db dq : cancel_all_orders w k limit so co = Ok (w', q) -> own_run k [] [] w db dq w' db dq.
Proof. unfold cancel_all_orders. apply own_cancel_all. Qed.

Lemma own_lock w k s r grew w' d : lock_funds w k s r grew = Ok (w', d) ->
  own_run k [] [] w (match s with Bid => 0 | Ask => cost_of s r end) (match s with Bid => cost_of s r | Ask => 0 end) w' 0 0.
Proof.
  intros H. apply own_calm.
  - eapply wsteps_one; [eapply lock_funds_steps; [exact H| |]|reflexivity|reflexivity]; unfold cost_of; destruct s; lia.
  - eapply calm_lock. exact H.
  - intros cl ct P HI. destruct (lock_funds_inv _ _ _ _ _ _ _ H) as (a & m' & p' & Ha & (Hd & Ed & pen & _ & Hm) & ->).
    eapply valued_eq; [eapply (valued_moved k w _ _ cl ct P a m' (a_set_pos a p') HI Ha); [destruct s; destruct Hm as [-> _]; reflexivity|reflexivity]| | |reflexivity];
      cbn [w_set_acct w_set_accts w_mkt w_set_mkt a_set_pos a_pos]; destruct s; destruct Hm as [-> ->]; cbn; lia.
Qed.

(** ** What the vaults get *)
Definition backed (s s' : sys) : Prop :=
  let c := m_cfg (w_mkt (s_w s)) in
  in_wallet s' (c_base_vault c) - in_wallet s (c_base_vault c) = m_base_total (w_mkt (s_w s')) - m_base_total (w_mkt (s_w s)) /\
  in_wallet s' (c_quote_vault c) - in_wallet s (c_quote_vault c) = m_quote_total (w_mkt (s_w s')) - m_quote_total (w_mkt (s_w s)).
Definition amount (t : tokens) (v : Z) : Z := match t v with Some x => t_amount x | None => 0 end.
Lemma vault_paid t d from to auth t' v x : token_transfer t d from to auth = Ok t' -> 0 <= d -> t v = Some x -> t_owner x <> auth ->
  amount t' v = amount t v + (if v =? to then d else 0) /\ exists x', t' v = Some x' /\ t_owner x' = t_owner x.
Proof.
  intros H Hd Hv Ho. pose proof (transfer_at _ _ _ _ _ _ v H Hd) as G. rewrite Hv in G. cbn [option_map] in G.
  assert (Hf : (if v =? from then d else 0) = 0).
  { unfold token_transfer in H. destruct (Z.ltb_spec 0 d); [|destruct (v =? from); lia].
    apply bind_ok in H as (y & Ey & H). apply tok_load_ok in Ey. apply bind_ok in H as (z & _ & H).
    apply bind_ok in H as (u0 & _ & H). apply bind_ok in H as (u1 & E1 & H). apply require_ok in E1.
    destruct (Z.eqb_spec v from) as [E|E]; [|reflexivity]. subst from. rewrite Hv in Ey. injection Ey as <-. lia. }
  rewrite Hf in G. unfold amount. rewrite G, Hv. cbn [t_amount]. split; [lia|]. eexists. split; [reflexivity|reflexivity].
Qed.
Lemma funded_vaults m t : funded_m m t -> c_base_vault (m_cfg m) <> c_quote_vault (m_cfg m) /\
  (exists x, t (c_base_vault (m_cfg m)) = Some x /\ t_owner x = c_authority (m_cfg m)) /\ exists x, t (c_quote_vault (m_cfg m)) = Some x /\ t_owner x = c_authority (m_cfg m).
Proof. intros ((N & _) & (x & X1 & X2 & _) & (y & Y1 & Y2 & _)). split; [exact N|]. split; [exists x|exists y]; auto. Qed.
Lemma backed_refl s : backed s s.
Proof. split; lia. Qed.
Lemma backed_same s w' : w_mkt w' = w_mkt (s_w s) -> backed s (s_set_w s w').
Proof. intros E. unfold backed, in_wallet. cbn [s_set_w s_w s_tok]. rewrite E. split; lia. Qed.

(** ** Instructions *)
Lemma place_own e s x o limit s' id : world_sound (s_w s) -> params_sane (o_params o) -> 0 <= limit ->
  place_order_ix e s x o limit = Ok (s', id) -> px_signer x <> c_authority (m_cfg (w_mkt (s_w s))) -> funded_m (w_mkt (s_w s)) (s_tok s) ->
  exists oracle, oracle_input (w_mkt (s_w s)) e = Ok oracle /\
    own_run (px_acct x) [(o_side o, order_limit o oracle)] (place_logs e s x o limit) (s_w s) 0 0 (s_w s') 0 0 /\ backed s s' /\
    (oracle = None -> forall offset pt pl, o_params o <> OOraclePegged offset pt pl).
Proof.
  intros Hs Hp Hl H Ha Hf. pose proof H as H0.
  apply place_ix_inv in H as (B & Q & V & _ & oracle & w1 & r & w2 & d & t & Hn & Eor & Eo & Ek & Et & -> & _).
  destruct (place_osteps _ _ _ _ _ _ _ Hs Hp Hl H0) as (oracle' & Eor' & _ & Hpg). rewrite Eor in Eor'. injection Eor' as <-.
  assert (Ho : sane_order o) by (constructor; [lia|lia|exact Hp]).
  exists oracle. split; [exact Eor|]. split; [|split; [|exact Hpg]].
  - assert (EL : place_logs e s x o limit = order_logs (s_w s) o oracle (Some (px_acct x)) (px_acct x) (e_now e) limit (px_rem x)).
    { unfold place_logs, now_u64. rewrite Eor. unfold massert. replace (0 <=? e_now e) with true by lia. reflexivity. }
    rewrite EL. rewrite <- (app_nil_r (order_logs _ _ _ _ _ _ _ _)). change [(o_side o, order_limit o oracle)] with ([(o_side o, order_limit o oracle)] ++ []).
    eapply own_trans; [eapply (own_place _ _ 0 0); [exact Ho|exact Hl|exact Hn|exact Eo]|]. cbn [s_w].
    pose proof (own_lock _ _ _ _ _ _ _ Ek) as G. unfold owed_base, owed_quote. unfold cost_of in G. destruct (o_side o); exact G.
  - assert (Hsc : sound_call (s_w s) o (Some (px_acct x)) (px_acct x)) by (apply sound_call_of; [exact Hs|exact Ho|left; reflexivity]).
    destruct (new_order_terms _ _ _ _ _ _ _ _ _ _ Hsc Eo) as (Ec & _ & E1 & E2 & _).
    apply lock_funds_inv in Ek as (a & m' & p' & _ & (Hd & _ & pen & _ & Hm) & ->).
    destruct (funded_vaults _ _ Hf) as (N & (xb & Xb & Ob) & (xq & Xq & Oq)).
    destruct (vault_paid _ _ _ _ _ _ _ _ Et Hd Xb ltac:(congruence)) as [G1 _]. destruct (vault_paid _ _ _ _ _ _ _ _ Et Hd Xq ltac:(congruence)) as [G2 _].
    unfold backed, in_wallet. cbn [s_w s_tok w_set_acct w_set_accts w_mkt w_set_mkt]. fold (amount t (c_base_vault (m_cfg (w_mkt (s_w s))))) (amount t (c_quote_vault (m_cfg (w_mkt (s_w s))))).
    fold (amount (s_tok s) (c_base_vault (m_cfg (w_mkt (s_w s))))) (amount (s_tok s) (c_quote_vault (m_cfg (w_mkt (s_w s))))).
    rewrite G1, G2. unfold vault_by_side in V. rewrite <- V.
    destruct (o_side o); destruct Hm as [-> _]; cbn [m_set_quote_total m_set_base_total m_base_total m_quote_total]; rewrite Z.eqb_refl.
    + rewrite (proj2 (Z.eqb_neq _ _) N). lia.
    + rewrite (proj2 (Z.eqb_neq (c_quote_vault _) (c_base_vault _))) by congruence. lia.
Qed.

Lemma edit_own e s x cid expected o limit s' id : world_sound (s_w s) -> params_sane (o_params o) -> 0 <= limit ->
  edit_order_ix e s x cid expected o limit = Ok (s', id) -> px_signer x <> c_authority (m_cfg (w_mkt (s_w s))) -> funded_m (w_mkt (s_w s)) (s_tok s) ->
  backed s s' /\
  ((own_run (px_acct x) [] (edit_logs e s x cid expected o limit) (s_w s) 0 0 (s_w s') 0 0) \/
   exists oracle, oracle_input (w_mkt (s_w s)) e = Ok oracle /\
    own_run (px_acct x) [(o_side o, order_limit o oracle)] (edit_logs e s x cid expected o limit) (s_w s) 0 0 (s_w s') 0 0 /\
    (oracle = None -> forall offset pt pl, o_params o <> OOraclePegged offset pt pl)).
Proof.
  intros Hs Hp Hl H Ha Hf. unfold edit_order_ix in H. unfold edit_logs. apply bind_ok in H as (u1 & _ & H). apply bind_ok in H as ([w q] & E & H).
  rewrite E. cbn [bind]. pose proof (own_cancel_orders _ _ _ _ _ _ _ 0 0 E) as G0. destruct (cancel_orders_mkt _ _ _ _ _ _ _ E) as [M0 _].
  apply cancel_orders_steps in E. pose proof (wsteps_sound _ _ _ _ _ _ _ E Hs) as Hs1. cbv zeta in H.
  apply bind_ok in H as (f & Ef & H). rewrite Ef. cbn [bind].
  match type of H with (if ?c then _ else _) = _ => destruct c end.
  - apply bind_ok in H as (mb & Em & H). rewrite Em. cbn [bind ok_or].
    apply place_own in H as (oracle & Eor & G1 & G2 & G3); cbn [s_set_w s_w s_tok]; rewrite ?M0; try assumption.
    split; [unfold backed in *; cbn [s_set_w s_w] in G2; rewrite M0 in G2; exact G2|].
    right. exists oracle. split; [cbn [s_set_w s_w] in Eor; rewrite M0 in Eor; exact Eor|]. split; [|exact G3].
    exact (own_trans _ [] [] _ _ _ _ _ _ _ _ _ _ _ G0 G1).
  - injection H as <- _. cbn [ok_or s_set_w s_w]. split; [apply backed_same; exact M0|left; exact G0].
Qed.

Lemma multi_one_own w x ub uq oracle now limit o ba qa w' ba' qa' id :
  world_sound w -> params_sane (o_params o) -> 0 <= limit -> 0 <= now ->
  multi_one w x ub uq oracle now limit o ba qa = Ok (w', ba', qa', id) ->
  exists o', multi_order w x ub uq o ba qa = Ok o' /\
    own_run (mx_acct x) [(o_side o, order_limit o oracle)] (order_logs w o' oracle (Some (mx_acct x)) (mx_acct x) now limit (mx_rem x)) w ba qa w' ba' qa'.
Proof.
  intros [Hc Hs] Hp Hl Hn H. unfold multi_one in H. unfold multi_order.
  apply bind_ok in H as (capb & E1 & H). rewrite E1. cbn [bind]. apply max_base_lots_nonneg in E1; [|exact Hc].
  apply bind_ok in H as (u2 & E2 & H). apply require_ok in E2.
  apply bind_ok in H as (a & Ea & H). rewrite Ea. cbn [bind]. apply bind_ok in H as (o' & Eo & H). exists o'. split; [exact Eo|].
  pose proof (cs_bls _ Hc) as B1. pose proof (cs_qls _ Hc) as B2. unfold i64_max in B1, B2.
  assert (G : sane_order o' /\ o_side o' = o_side o /\ o_params o' = o_params o).
  { destruct (o_side o) eqn:Es.
    - apply bind_ok in Eo as (y & X & Eo). apply bind_ok in Eo as (av & X1 & Eo). apply chk_u64_ok in X1 as [-> X1].
      apply bind_ok in Eo as (l & X2 & Eo). apply max_lots_nonneg in X2; [|exact B2|lia]. injection Eo as <-.
      split; [constructor; cbn [o_max_base o_max_quote o_params]; [lia|lia|exact Hp]|split; first [reflexivity|exact Es]].
    - apply bind_ok in Eo as (y & X & Eo). apply bind_ok in Eo as (av & X1 & Eo). apply chk_u64_ok in X1 as [-> X1].
      apply bind_ok in Eo as (l & X2 & Eo). apply max_lots_nonneg in X2; [|exact B1|lia]. injection Eo as <-.
      split; [constructor; cbn [o_set_max_base o_max_base o_max_quote o_params]; [lia|lia|exact Hp]|split; [exact Es|reflexivity]]. }
  destruct G as (Go & Es' & Ep'). apply bind_ok in H as ([w1 r] & En & H).
  pose proof (own_place (mx_acct x) w ba qa o' oracle now limit (mx_rem x) w1 r Go Hl Hn En) as G.
  assert (EW : order_limit o' oracle = order_limit o oracle) by (unfold order_limit; rewrite Ep'; reflexivity). rewrite EW in G.
  unfold owed_base, owed_quote in G. rewrite Es' in G.
  destruct (o_side o) eqn:Es.
  - do 3 (let X := fresh in apply bind_ok in H as (? & X & H); apply chk_u64_ok in X as [-> ?]).
    apply bind_ok in H as (u5 & X & H). injection H as <- <- <- _. rewrite Z.add_0_r in G. exact G.
  - apply bind_ok in H as (x1 & X & H). apply chk_u64_ok in X as [-> _].
    apply bind_ok in H as (u5 & X & H). injection H as <- <- <- _. rewrite Z.add_0_r in G. exact G.
Qed.
Lemma multi_loop_own os : forall w x ub uq oracle now limit ba qa w' ba' qa' ids,
  world_sound w -> Forall (fun o => params_sane (o_params o)) os -> 0 <= limit -> 0 <= now ->
  multi_loop w x ub uq oracle now limit os ba qa = Ok (w', ba', qa', ids) ->
  own_run (mx_acct x) (map (fun o => (o_side o, order_limit o oracle)) os) (multi_loop_logs w x ub uq oracle now limit os ba qa) w ba qa w' ba' qa'.
Proof.
  induction os as [|o r IH]; intros w x ub uq oracle now limit ba qa w' ba' qa' ids Hs Ho Hl Hn H; cbn [multi_loop multi_loop_logs] in *.
  - injection H as <- <- <- _. apply own_nil.
  - apply bind_ok in H as ([[[w1 b1] q1] i1] & E & H). inversion Ho as [|o0 r0 Ho1 Ho2]; subst.
    destruct (multi_one_own _ _ _ _ _ _ _ _ _ _ _ _ _ _ Hs Ho1 Hl Hn E) as (o' & Eo & T). rewrite Eo, E. cbn [bind ok_or map].
    apply multi_one_steps in E; [|exact Hs|exact Ho1|exact Hl|exact Hn].
    apply bind_ok in H as ([[[w2 b2] q2] i2] & E2 & H). injection H as <- <- <- _.
    apply (own_trans (mx_acct x) [(o_side o, order_limit o oracle)] _ w ba qa w1 b1 q1 (map (fun o => (o_side o, order_limit o oracle)) r) _ w2 b2 q2 T).
    eapply IH; [eapply wstep_sound; [exact E|exact Hs]|exact Ho2|exact Hl|exact Hn|exact E2].
Qed.

Lemma multi_own e s x cancel os limit s' ids : world_sound (s_w s) ->
  Forall (fun o => params_sane (o_params o)) os -> 0 <= limit ->
  multi_ix e s x cancel os limit = Ok (s', ids) -> mx_signer x <> c_authority (m_cfg (w_mkt (s_w s))) -> funded_m (w_mkt (s_w s)) (s_tok s) ->
  exists oracle, oracle_input (w_mkt (s_w s)) e = Ok oracle /\
    own_run (mx_acct x) (map (fun o => (o_side o, order_limit o oracle)) os) (multi_logs e s x cancel os limit) (s_w s) 0 0 (s_w s') 0 0 /\ backed s s'.
Proof.
  intros Hs Ho Hl H Ha Hf. unfold multi_ix in H. unfold multi_logs. cbv zeta in *. apply bind_ok in H as (u1 & _ & H).
  apply bind_ok in H as (now & En & H). rewrite En. apply now_u64_eq in En as [-> En]. apply bind_ok in H as (oracle & Eor & H). rewrite Eor.
  exists oracle. split; [reflexivity|].
  apply bind_ok in H as (w0 & E0 & H). rewrite E0. cbn [bind].
  assert (S0 : own_run (mx_acct x) [] [] (s_w s) 0 0 w0 0 0 /\ world_sound w0 /\ w_mkt w0 = w_mkt (s_w s)).
  { destruct cancel; [|injection E0 as <-; split; [apply own_nil|auto]]. apply bind_ok in E0 as ([w' q] & E1 & E0). injection E0 as <-.
    split; [eapply own_cancel_orders; exact E1|]. split; [|apply cancel_orders_mkt in E1 as [E1 _]; exact E1].
    apply cancel_orders_steps in E1. exact (wsteps_sound _ _ _ _ _ _ _ E1 Hs). }
  destruct S0 as (R0 & S0 & M0).
  apply bind_ok in H as (ub & Eub & H). rewrite Eub. apply bind_ok in H as (uq & Euq & H). rewrite Euq. cbn [bind ok_or].
  apply bind_ok in H as ([[[w1 ba] qa] is] & E1 & H).
  pose proof (multi_loop_terms _ _ _ _ _ _ _ _ _ _ _ _ _ _ S0 Ho E1) as HT. rewrite M0 in HT.
  apply multi_loop_own in E1; [|exact S0|exact Ho|exact Hl|exact En].
  apply bind_ok in H as (a & Ea & H). apply acct_load_ok in Ea.
  apply bind_ok in H as (db & X1 & H). apply chk_u64_ok in X1 as [-> X1].
  apply bind_ok in H as (dq & X2 & H). apply chk_u64_ok in X2 as [-> X2].
  apply bind_ok in H as (fb & X3 & H). apply chk_u64_ok in X3 as [-> X3].
  apply bind_ok in H as (fq & X4 & H). apply chk_u64_ok in X4 as [-> X4].
  apply bind_ok in H as (bt & X5 & H). apply chk_u64_ok in X5 as [-> X5].
  apply bind_ok in H as (qt & X6 & H). apply chk_u64_ok in X6 as [-> X6].
  apply bind_ok in H as (p2 & E2 & H). apply bind_ok in H as (t1 & T1 & H). apply bind_ok in H as (t2 & T2 & H). injection H as <- _.
  cbn [s_w].
  set (LL := multi_loop_logs _ _ _ _ _ _ _ _ _ _) in *.
  set (lb := Z.min ba (p_base_free (a_pos a))) in *. set (lq := Z.min qa (p_quote_free (a_pos a))) in *.
  set (p1 := p_set_quote_free (p_set_base_free (a_pos a) (p_base_free (a_pos a) - lb)) (p_quote_free (a_pos a) - lq)) in *.
  assert (Hp : exists pen, (u64_ok pen \/ pen = p_penalty (a_pos a)) /\ p2 = p_set_penalty p1 pen).
  { match type of E2 with (if ?c then _ else _) = _ => destruct c end.
    - apply bind_ok in E2 as (n & E2 & E3). apply chk_u64_ok in E2 as [-> R]. injection E3 as <-. eexists. split; [left; exact R|reflexivity].
    - injection E2 as <-. exists (p_penalty (a_pos a)). split; [right; reflexivity|reflexivity]. }
  destruct Hp as (pen & Rpen & ->). split.
  - rewrite <- (app_nil_l LL), <- (app_nil_l (map _ os)). eapply own_trans; [exact R0|].
    rewrite <- (app_nil_r LL), <- (app_nil_r (map _ os)). eapply own_trans; [exact E1|]. clear LL E1 R0.
    apply own_calm.
    + eapply wsteps_one; [apply (ws_move _ w1 ba qa (mx_acct x) a (p_base_free (a_pos a) - lb) (p_quote_free (a_pos a) - lq) pen _ _ Ea
        (or_introl X3) (or_introl X4) Rpen (or_introl X5) (or_introl X6) eq_refl)| |]; lia.
    + apply calm_set; try reflexivity. exact Ea.
    + intros cl ct P HI. eapply valued_eq; [eapply (valued_moved _ w1 _ _ cl ct P a _ _ HI Ea); [|reflexivity]| | |reflexivity];
        cbn [w_set_acct w_set_accts w_mkt w_set_mkt a_set_pos a_pos]; [destruct (w_mkt w1); reflexivity| |]; destruct (w_mkt w1); unfold m_set_totals; cbn; lia.
  - destruct HT as (Ec & _ & Eb & Eq & _). destruct (funded_vaults _ _ Hf) as (N & (xb & Xb & Ob) & (xq & Xq & Oq)).
    destruct (vault_paid _ _ _ _ _ _ _ _ T1 ltac:(lia) Xb ltac:(congruence)) as [G1 (xb' & Xb' & Ob')]. destruct (vault_paid _ _ _ _ _ _ _ _ T1 ltac:(lia) Xq ltac:(congruence)) as [G2 (xq' & Xq' & Oq')].
    destruct (vault_paid _ _ _ _ _ _ _ _ T2 ltac:(lia) Xb' ltac:(congruence)) as [G3 _]. destruct (vault_paid _ _ _ _ _ _ _ _ T2 ltac:(lia) Xq' ltac:(congruence)) as [G4 _].
    unfold backed. cbn [s_w s_tok w_set_acct w_set_accts w_mkt w_set_mkt]. unfold in_wallet. cbn [s_tok].
    fold (amount t2 (c_base_vault (m_cfg (w_mkt (s_w s))))) (amount t2 (c_quote_vault (m_cfg (w_mkt (s_w s))))).
    fold (amount (s_tok s) (c_base_vault (m_cfg (w_mkt (s_w s))))) (amount (s_tok s) (c_quote_vault (m_cfg (w_mkt (s_w s))))).
    rewrite G3, G4, G1, G2. rewrite !Z.eqb_refl, (proj2 (Z.eqb_neq _ _) N), (proj2 (Z.eqb_neq (c_quote_vault _) (c_base_vault _))) by congruence.
    unfold m_set_quote_total, m_set_base_total. cbn [m_base_total m_quote_total]. clear - Eb Eq. lia.
Qed.

Lemma deposit_own e s signer k ub uq base quote s' : 0 <= base -> 0 <= quote -> signer <> c_authority (m_cfg (w_mkt (s_w s))) ->
  wsteps (Some k) (s_w s) 0 0 (s_w s') 0 0 ->
  deposit_ix e s signer k ub uq base quote = Ok s' -> funded_m (w_mkt (s_w s)) (s_tok s) ->
  own_run k [] [] (s_w s) 0 0 (s_w s') 0 0 /\ backed s s'.
Proof.
  intros Hb Hq Ha Hst H Hf. pose proof (calm_deposit _ _ _ _ _ _ _ _ _ H) as Hcalm.
  unfold deposit_ix in H. cbv zeta in H. apply bind_ok in H as (u1 & _ & H). apply bind_ok in H as (u2 & _ & H).
  apply bind_ok in H as (a & Ea & H). apply acct_load_ok in Ea. apply bind_ok in H as (u3 & _ & H). apply bind_ok in H as (t1 & T1 & H).
  apply bind_ok in H as (bf & X1 & H). apply chk_u64_ok in X1 as [-> X1]. apply bind_ok in H as (bt & X2 & H). apply chk_u64_ok in X2 as [-> X2].
  apply bind_ok in H as (t2 & T2 & H). apply bind_ok in H as (qf & X3 & H). apply chk_u64_ok in X3 as [-> X3].
  apply bind_ok in H as (qt & X4 & H). apply chk_u64_ok in X4 as [-> X4]. injection H as <-. split.
  - apply own_calm; [exact Hst|exact Hcalm|]. intros cl ct P HI. cbn [s_w].
    eapply valued_eq; [eapply (valued_moved k (s_w s) _ _ cl ct P a _ _ HI Ea); [|reflexivity]| | |reflexivity];
      cbn [w_set_acct w_set_accts w_mkt w_set_mkt a_set_pos a_pos]; [reflexivity| |]; cbn; lia.
  - destruct (funded_vaults _ _ Hf) as (N & (xb & Xb & Ob) & (xq & Xq & Oq)).
    destruct (vault_paid _ _ _ _ _ _ _ _ T1 Hb Xb ltac:(congruence)) as [G1 (xb' & Xb' & Ob')]. destruct (vault_paid _ _ _ _ _ _ _ _ T1 Hb Xq ltac:(congruence)) as [G2 (xq' & Xq' & Oq')].
    destruct (vault_paid _ _ _ _ _ _ _ _ T2 Hq Xb' ltac:(congruence)) as [G3 _]. destruct (vault_paid _ _ _ _ _ _ _ _ T2 Hq Xq' ltac:(congruence)) as [G4 _].
    unfold backed. cbn [s_w s_tok w_set_acct w_set_accts w_mkt w_set_mkt]. unfold in_wallet. cbn [s_tok].
    fold (amount t2 (c_base_vault (m_cfg (w_mkt (s_w s))))) (amount t2 (c_quote_vault (m_cfg (w_mkt (s_w s))))).
    fold (amount (s_tok s) (c_base_vault (m_cfg (w_mkt (s_w s))))) (amount (s_tok s) (c_quote_vault (m_cfg (w_mkt (s_w s))))).
    rewrite G3, G4, G1, G2. rewrite !Z.eqb_refl, (proj2 (Z.eqb_neq _ _) N), (proj2 (Z.eqb_neq (c_quote_vault _) (c_base_vault _))) by congruence.
    cbn [m_set_quote_total m_set_base_total m_base_total m_quote_total]. lia.
Qed.

Lemma own_aside k W L L' w db dq w' db' dq' : aside L -> aside L' -> own_run k W L w db dq w' db' dq' -> own_run k W L' w db dq w' db' dq'.
Proof.
  intros (A1 & A2 & A3) (B1 & B2 & B3) H cl ct P HI. destruct (H cl ct P HI) as (I & [(deals & D & F & T & V)]). split; [exact I|]. constructor. exists deals, D.
  split; [exact F|]. split; [|exact V].
  destruct T as [T1 T2 T3 T4 T5 T6 T7 T8 T9 T10]. unfold total_base, total_quote, total_fees in *.
  constructor; unfold total_base, total_quote, total_fees; try assumption; try (intros; rewrite B3).
  - rewrite B1, <- T3, A1. reflexivity.
  - rewrite B2, <- T4, A2. reflexivity.
  - rewrite T6, A3. reflexivity.
  - rewrite <- T7, A3. reflexivity.
  - rewrite <- T8, A3. reflexivity.
  - specialize (T9 sel). rewrite A3 in T9. exact T9.
  - specialize (T10 k0). rewrite A3 in T10. exact T10.
Qed.

Lemma exec_own e s i s' out k : world_sound (s_w s) -> funded_m (w_mkt (s_w s)) (s_tok s) -> exec e s i = Ok (s', out) -> acts_for i k -> carries_on i = true ->
  backed s s' /\
  (own_run k [] (exec_logs e s i) (s_w s) 0 0 (s_w s') 0 0 \/
   exists oracle, oracle_input (w_mkt (s_w s)) e = Ok oracle /\ own_run k (wanted oracle i) (exec_logs e s i) (s_w s) 0 0 (s_w s') 0 0).
Proof.
  intros Hs Hf H Hk Hc. pose proof (exec_steps _ _ _ _ _ Hs H) as HST. unfold exec in H. destruct (s_closed s && needs_market i); [discriminate H|].
  unfold exec_open in H. unfold exec_logs. cbv zeta in *.
  assert (Hpl : forall x, place_constraints s x = Ok tt -> px_signer x <> c_authority (m_cfg (w_mkt (s_w s)))).
  { intros x Hx. unfold place_constraints in Hx. cbv zeta in Hx. apply bind_ok in Hx as (a & _ & Hx). apply bind_ok in Hx as (u1 & _ & Hx).
    apply bind_ok in Hx as (u2 & Hx & _). apply require_ok in Hx. lia. }
  assert (Hcan : forall w limit so co q, cancel_all_orders (s_w s) k limit so co = Ok (w, q) ->
    backed s (s_set_w s w) /\ own_run k [] [] (s_w s) 0 0 w 0 0).
  { intros w limit so co q E. split; [apply backed_same; apply cancel_orders_mkt in E as [E _]; exact E|exact (own_cancel_orders _ _ _ _ _ _ _ 0 0 E)]. }
  destruct i as [x g|x g|x cid ex g|x cid ex g|x g|x cancel t bids asks limit|signer k' id|signer k' cid|signer k' sd limit
    |admin limit rem|admin slots rem|signer k' ub uq base quote|signer k' ub uq base quote|signer k' ub uq ref|admin k' ub uq ref
    |signer receiver|k' owner delegate num|signer k'|signer k' delegate|signer|signer k' limit|signer|auth from to amount|to amount|k' mint owner|auth k' owner|auth k' amount|auth k'];
    try discriminate Hc; try (destruct Hk; fail); cbn [acts_for] in Hk; subst k; clear Hc.
  - apply bind_ok in H as (u1 & E1 & H). apply bind_ok in H as ([] & E2 & H). apply bind_ok in H as (now & En & H). rewrite En. cbn [bind].
    apply bind_ok in H as (oo & Eo & H). rewrite Eo. cbn [bind ok_or]. destruct oo as [o|]; [|injection H as <- _; split; [apply backed_refl|left; apply own_nil]].
    unfold lift_id in H. apply bind_ok in H as ([s1 id] & E & H). injection H as <- _. apply check_place_ok in E1 as [E1 E1'].
    apply place_own in E as (oracle & Eor & G & B & _); [|exact Hs|eapply order_of_args_sane; eassumption|exact E1'|exact (Hpl _ E2)|exact Hf].
    split; [exact B|]. right. exists oracle. split; [exact Eor|]. destruct (order_of_args_wants _ _ _ oracle Eo) as (W1 & W2 & _). rewrite W1, W2 in G. exact G.
  - apply bind_ok in H as (u1 & E1 & H). apply bind_ok in H as ([] & E2 & H). apply bind_ok in H as (now & En & H). rewrite En. cbn [bind].
    apply bind_ok in H as (oo & Eo & H). rewrite Eo. cbn [bind ok_or]. destruct oo as [o|]; [|injection H as <- _; split; [apply backed_refl|left; apply own_nil]].
    unfold lift_id in H. apply bind_ok in H as ([s1 id] & E & H). injection H as <- _. apply check_peg_ok in E1.
    apply place_own in E as (oracle & Eor & G & B & Hpg); [|exact Hs|eapply order_of_peg_sane; eassumption|exact E1|exact (Hpl _ E2)|exact Hf].
    split; [exact B|]. right. exists oracle. split; [exact Eor|]. destruct (order_of_peg_wants _ _ _ _ oracle Eo) as (W1 & W2 & b & c & W3). rewrite W1, W2 in G.
    cbn [wanted]. destruct oracle as [op|]; [exact G|]. exfalso. exact (Hpg eq_refl _ _ _ W3).
  - apply bind_ok in H as (u1 & E1 & H). apply bind_ok in H as (u3 & _ & H). apply bind_ok in H as (u4 & _ & H).
    apply bind_ok in H as ([] & E2 & H). apply bind_ok in H as (now & En & H). rewrite En. cbn [bind].
    apply bind_ok in H as (oo & Eo & H). rewrite Eo. cbn [bind ok_or]. destruct oo as [o|]; [|injection H as <- _; split; [apply backed_refl|left; apply own_nil]].
    unfold lift_id in H. apply bind_ok in H as ([s1 id] & E & H). injection H as <- _. apply check_place_ok in E1 as [E1 E1'].
    apply edit_own in E as (B & [G|(oracle & Eor & G & _)]); [| |exact Hs|eapply order_of_args_sane; eassumption|exact E1'|exact (Hpl _ E2)|exact Hf]; (split; [exact B|]).
    + left. exact G.
    + right. exists oracle. split; [exact Eor|]. destruct (order_of_args_wants _ _ _ oracle Eo) as (W1 & W2 & _). rewrite W1, W2 in G. exact G.
  - apply bind_ok in H as (u1 & E1 & H). apply bind_ok in H as (u3 & _ & H). apply bind_ok in H as (u4 & _ & H).
    apply bind_ok in H as ([] & E2 & H). apply bind_ok in H as (now & En & H). rewrite En. cbn [bind].
    apply bind_ok in H as (oo & Eo & H). rewrite Eo. cbn [bind ok_or]. destruct oo as [o|]; [|injection H as <- _; split; [apply backed_refl|left; apply own_nil]].
    unfold lift_id in H. apply bind_ok in H as ([s1 id] & E & H). injection H as <- _. apply check_peg_ok in E1.
    apply edit_own in E as (B & [G|(oracle & Eor & G & Hpg)]); [| |exact Hs|eapply order_of_peg_sane; eassumption|exact E1|exact (Hpl _ E2)|exact Hf]; (split; [exact B|]).
    + left. exact G.
    + right. exists oracle. split; [exact Eor|]. destruct (order_of_peg_wants _ _ _ _ oracle Eo) as (W1 & W2 & b & c & W3). rewrite W1, W2 in G.
      cbn [wanted]. destruct oracle as [op|]; [exact G|]. exfalso. exact (Hpg eq_refl _ _ _ W3).
  - apply bind_ok in H as (u1 & E1 & H). apply require_ok in E1. apply bind_ok in H as (u2 & E2 & H). apply u8_arg_ok in E2.
    apply bind_ok in H as (u3 & _ & H). apply bind_ok in H as (u4 & E3 & H). apply require_ok in E3. apply bind_ok in H as (now & En & H). rewrite En. cbn [bind].
    apply bind_ok in H as (bo & B1 & H). rewrite B1. cbn [bind]. apply bind_ok in H as (ao & B2 & H). rewrite B2. cbn [bind ok_or].
    apply bind_ok in H as ([s1 ids] & E & H). injection H as <- _.
    rewrite forallb_app in E1. apply andb_prop in E1 as [F1 F2].
    apply multi_own in E as (oracle & Eor & G & B); [|exact Hs| |exact E2| |exact Hf].
    + split; [exact B|]. right. exists oracle. split; [exact Eor|]. eapply own_more; [|exact G]. cbn [wanted]. rewrite map_app.
      apply sublist_app; eapply orders_of_multi_wants; eassumption.
    + apply Forall_app. split; [exact (orders_of_multi_sane _ _ _ _ _ _ F1 B1)|exact (orders_of_multi_sane _ _ _ _ _ _ F2 B2)].
    + lia.
  - unfold lift_w in H. apply bind_ok in H as (w & E & H). injection H as <- _. cbn [s_set_w s_w].
    unfold cancel_order_ix in E. apply bind_ok in E as (a & Ea & E). apply acct_load_ok in Ea.
    apply bind_ok in E as (u1 & _ & E). apply bind_ok in E as (u2 & _ & E).
    destruct (find_order_with_order_id a id) as [oo|] eqn:Ef; [|discriminate E].
    apply bind_ok in E as ([w1 l] & Ec & E). injection E as <-.
    split; [apply backed_same; apply book_cancel_mkt in Ec as [Ec _]; exact Ec|]. left.
    apply find_some in Ef as [Ef1 Ef2]. eapply own_cancel; [exact Ea|exact Ef1| |exact Ec]. destruct (oo_free oo); [discriminate Ef2|reflexivity].
  - apply bind_ok in H as (u1 & _ & H). apply bind_ok in H as (u2 & _ & H). apply bind_ok in H as ([w q] & E & H). injection H as <- _.
    destruct (Hcan _ _ _ _ _ E) as [B G]. split; [exact B|left; exact G].
  - apply bind_ok in H as (u1 & _ & H). apply bind_ok in H as (u2 & _ & H). apply bind_ok in H as ([w q] & E & H). injection H as <- _.
    destruct (Hcan _ _ _ _ _ E) as [B G]. split; [exact B|left; exact G].
  - apply bind_ok in H as (u1 & E1 & H). apply bind_ok in H as (u2 & E2 & H). apply bind_ok in H as (u3 & E3 & H).
    unfold lift_s in H. apply bind_ok in H as (s1 & E & H). injection H as <- _.
    unfold u64_arg in E1, E2. apply require_ok in E1. apply require_ok in E2. unfold in_u64, in_range in E1, E2. apply require_ok in E3.
    apply deposit_own in E; [|lia|lia|lia|exact HST|exact Hf]. destruct E as [G B]. split; [exact B|]. left.
    eapply own_aside; [apply aside_nil|apply aside_deposit|exact G].
  - apply bind_ok in H as (u1 & E1 & H). apply bind_ok in H as (u2 & E2 & H). apply bind_ok in H as (u3 & E3 & H).
    unfold lift_s in H. apply bind_ok in H as (s1 & E & H). injection H as <- _. unfold refill_ix in E.
    apply bind_ok in E as (a & _ & E). apply bind_ok in E as (q & X1 & E). apply chk_u64_ok in X1 as [-> X1].
    apply bind_ok in E as (b & X2 & E). apply chk_u64_ok in X2 as [-> X2]. apply require_ok in E3.
    apply deposit_own in E; [|lia|lia|lia|exact HST|exact Hf]. destruct E as [G B]. split; [exact B|]. left.
    eapply own_aside; [apply aside_nil|apply aside_refill|exact G].
  - unfold lift_w in H. apply bind_ok in H as (w & E & H). injection H as <- _. unfold set_delegate_ix in E.
    apply bind_ok in E as (a & Ea & E). apply acct_load_ok in Ea. apply bind_ok in E as (u1 & _ & E). injection E as <-.
    split; [apply backed_same; reflexivity|]. left. eapply own_aside; [apply aside_nil|repeat split|]. apply own_calm; [exact HST| |].
    + cbn [s_set_w s_w]. eapply calm_acct; [exact Ea|reflexivity|reflexivity].
    + intros cl ct P HI. cbn [s_set_w s_w]. pose proof (valued_moved _ _ _ _ _ _ _ _ (w_mkt (s_w s)) (a_set_delegate a delegate) HI Ea eq_refl eq_refl) as G.
      replace (w_set_mkt (s_w s) (w_mkt (s_w s))) with (s_w s) in G by (destruct (s_w s); reflexivity). cbv zeta in G.
      eapply valued_eq; [exact G| | |reflexivity]; cbn [w_set_acct w_set_accts w_mkt a_set_delegate a_pos]; lia.
  - apply bind_ok in H as (u1 & _ & H). unfold lift_w in H. apply bind_ok in H as (w & E & H). injection H as <- _. unfold prune_orders_ix in E.
    apply bind_ok in E as (u2 & _ & E). apply bind_ok in E as (u3 & _ & E). apply bind_ok in E as (u4 & _ & E).
    apply bind_ok in E as ([w1 q] & E1 & E). injection E as <-. destruct (Hcan _ _ _ _ _ E1) as [B G]. split; [exact B|left; exact G].
Qed.

(** ** The whole *)
Lemma own_carried e s i s' out k a : reachable s -> exec e s i = Ok (s', out) -> acts_for i k -> carries_on i = true ->
  acct_get k (w_accts (s_w s)) = Some a -> exists a' deals, acct_get k (w_accts (s_w s')) = Some a' /\ carried k e s i a s' a' deals.
Proof.
  intros Hr H Hk Hc Ha. assert (Hr' : reachable s') by (eapply reach_step; [exact Hr|exact H]).
  destruct (reachable_inv _ Hr) as (cl & ct & P & HI). destruct (reachable_inv _ Hr') as (cl' & ct' & P' & HI').
  destruct (exec_own _ _ _ _ _ _ (reachable_sound _ Hr) (reachable_funded _ Hr) H Hk Hc) as [B G].
  assert (T : exists deals D, (concat deals = [] \/ exists oracle, oracle_input (w_mkt (s_w s)) e = Ok oracle /\
      Forall2 (fun x M => Forall (taken_by k (fst x) (snd x)) M) (wanted oracle i) deals) /\
    tallied (s_w s) D (concat deals) (exec_logs e s i) (s_w s') /\
    valued k (s_w s) (orders (s_w s)) (s_w s') (orders (s_w s')) (sumZ (map (deal_base (w_mkt (s_w s)) k) deals) + base_in s s')
      (sumZ (map (net_quote (w_mkt (s_w s)) k) deals) + quote_in s s') (sumZ (map (self_rounding (w_mkt (s_w s)) k) deals))).
  { destruct B as [B1 B2]. unfold base_in, quote_in. cbv zeta in *. rewrite B1, B2.
    destruct G as [G|(oracle & Eor & G)]; destruct (G _ _ _ HI) as (_ & [(deals & D & F & T & V)]); exists deals, D; (split; [|split; [exact T|exact V]]).
    - left. inversion F. reflexivity.
    - right. exists oracle. split; [exact Eor|exact F]. }
  destruct T as (deals & D & F & [T1 T2 T3 _ _ _ _ _ _ _] & [Tc Tw]).
  destruct (due_fate _ _ _ _ _ _ _ _ HI Ha) as (x & Hx & Db & Dq). destruct (Tw x Hx) as (x' & Hx' & EB & r & R & EQ).
  destruct (fate_acct _ _ _ Hx') as (a' & Ha'). exists a', deals. split; [exact Ha'|].
  destruct (due_fate _ _ _ _ _ _ _ _ HI' Ha') as (y & Hy & Db' & Dq'). rewrite Hx' in Hy. injection Hy as <-.
  destruct (rest_cfg k (w_mkt (s_w s)) (w_mkt (s_w s')) (orders (s_w s')) Tc) as [E1 E2]. rewrite E1 in Db'. rewrite E2 in Dq'.
  constructor; [exact F| |lia|].
  - destruct (inv_heap _ _ _ _ _ _ HI) as (q & Hq). destruct (T2 _ Hq) as (q' & Hq' & EP).
    rewrite (waiting_queue s q Hr Hq), (waiting_queue s' q' Hr' Hq'), T3, <- map_app. apply Permutation_map, Permutation_sym. exact EP.
  - exists r. split; [exact R|]. unfold net_quote in EQ. lia.
Qed.

Lemma settle_due e s i s' out k ub uq ref a : reachable s -> exec e s i = Ok (s', out) -> settles i k ub uq ref ->
  acct_get k (w_accts (s_w s)) = Some a -> exists a', acct_get k (w_accts (s_w s')) = Some a' /\
    base_due k a' (s_w s') = base_due k a (s_w s) - p_base_free (a_pos a) /\
    quote_due k a' (s_w s') = quote_due k a (s_w s) - p_quote_free (a_pos a).
Proof.
  intros Hr H Hi Ha. destruct (exec_settle _ _ _ _ _ _ _ _ _ H Hi) as (a0 & Ha0 & Hc & _). rewrite Ha in Ha0. injection Ha0 as <-.
  assert (Hr' : reachable s') by (eapply reach_step; [exact Hr|exact H]).
  destruct (reachable_inv _ Hr) as (cl & ct & P & HI). destruct (reachable_inv _ Hr') as (cl' & ct' & P' & HI').
  destruct (settle_tokens _ _ _ _ _ _ _ (led_free _ _ (iv_led _ _ _ _ _ _ HI)) Ha Hc) as (Ew & _ & _).
  pose proof (valued_moved _ _ _ _ _ _ _ _ (settled_mkt (w_mkt (s_w s)) (a_pos a) (match ref with Some _ => true | None => false end)) (a_set_pos a (settled_pos (w_mkt (s_w s)) (a_pos a))) HI Ha eq_refl eq_refl) as V.
  cbv zeta in V. rewrite <- Ew in V. destruct V as [Tc Tw].
  destruct (due_fate _ _ _ _ _ _ _ _ HI Ha) as (x & Hx & Db & Dq). destruct (Tw x Hx) as (x' & Hx' & EB & r & R & EQ).
  destruct (fate_acct _ _ _ Hx') as (a' & Ha'). exists a'. split; [exact Ha'|].
  destruct (due_fate _ _ _ _ _ _ _ _ HI' Ha') as (y & Hy & Db' & Dq'). rewrite Hx' in Hy. injection Hy as <-.
  destruct (rest_cfg k (w_mkt (s_w s)) (w_mkt (s_w s')) (orders (s_w s')) Tc) as [E1 E2]. rewrite E1 in Db'. rewrite E2 in Dq'.
  cbn [a_set_pos a_pos settled_pos p_base_free p_quote_free] in EB, EQ. lia.
Qed.
