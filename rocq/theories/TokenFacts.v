(** Token movements, and what each instruction does to the market's terms. *)
From Coq Require Import ZArith List Bool Lia ZifyBool Permutation.
From Verif Require Import Base Nodes OrderTree BookSide Heap Market OpenOrders Order Book Instructions
  BaseFacts SpecBook SpecFees SpecOrder MatchFacts OrderFacts PlaceFacts OrderSpecProofs Steps StepFacts.
Import ListNotations.
Open Scope Z_scope.

(** ** Transfers *)
Definition moved (d from to v : Z) : Z :=
  (if v =? to then Z.max 0 d else 0) - (if v =? from then Z.max 0 d else 0).

Lemma upd_same {A} (f : Z -> A) k x : upd f k x k = x.
Proof. unfold upd. rewrite Z.eqb_refl. reflexivity. Qed.
Lemma upd_other {A} (f : Z -> A) k x j : j <> k -> upd f k x j = f j.
Proof. unfold upd. intros H. destruct (Z.eqb_spec j k); [contradiction|reflexivity]. Qed.
Lemma tok_load_ok t k a : tok_load t k = Ok a -> t k = Some a.
Proof. unfold tok_load. destruct (t k); [congruence|discriminate]. Qed.

Lemma transfer_effect t d from to auth t' : token_transfer t d from to auth = Ok t' -> forall v,
  match t v with
  | None => t' v = None
  | Some x => t' v = Some (mkTacc (t_mint x) (t_owner x) (t_amount x + moved d from to v)) /\
              (0 < d -> v = from -> t_owner x = auth /\ d <= t_amount x)
  end.
Proof.
  unfold token_transfer. destruct (Z.ltb_spec 0 d) as [Hd|Hd].
  2:{ intros H v. injection H as <-. destruct (t v) as [[m o am]|]; [|reflexivity]. split; [|lia].
      unfold moved. cbn [t_mint t_owner t_amount]. do 2 f_equal. rewrite Z.max_l by lia. destruct (v =? to), (v =? from); lia. }
  intros H v. apply bind_ok in H as (a & Ea & H). apply tok_load_ok in Ea. apply bind_ok in H as (b & Eb & H). apply tok_load_ok in Eb.
  apply bind_ok in H as (u1 & E1 & H). apply require_ok in E1. apply bind_ok in H as (u2 & E2 & H). apply require_ok in E2.
  apply bind_ok in H as (u3 & E3 & H). apply require_ok in E3. cbv zeta in H. apply bind_ok in H as (b1 & Eb1 & H). apply tok_load_ok in Eb1.
  apply bind_ok in H as (u4 & E4 & H). injection H as <-. unfold moved. rewrite Z.max_r by lia.
  destruct (Z.eqb_spec v to) as [->|Hvt].
  - rewrite upd_same. rewrite Eb. destruct (Z.eqb_spec to from) as [->|Hne].
    + rewrite upd_same in Eb1. injection Eb1 as <-. rewrite Ea in Eb. injection Eb as <-. cbn [t_mint t_owner t_amount]. split; [|intros; lia].
      f_equal; f_equal; try reflexivity; try lia.
    + rewrite upd_other in Eb1 by exact Hne. rewrite Eb in Eb1. injection Eb1 as <-. split; [|intros; contradiction]. f_equal; f_equal; try reflexivity; try lia.
  - rewrite upd_other by exact Hvt. destruct (Z.eqb_spec v from) as [->|Hvf].
    + rewrite upd_same, Ea. split; [|intros; lia]. f_equal; f_equal; try reflexivity; try lia.
    + rewrite upd_other by exact Hvf. destruct (t v) as [[m o am]|]; [|reflexivity]. cbn [t_mint t_owner t_amount]. split; [|intros; contradiction]. f_equal; f_equal; try reflexivity; try lia.
Qed.

(** A transfer by someone who does not own [v] takes nothing out of it. *)
Lemma transfer_in t d from to auth t' v x : token_transfer t d from to auth = Ok t' -> t v = Some x -> t_owner x <> auth -> 0 <= d ->
  exists y, t' v = Some y /\ t_owner y = t_owner x /\ t_mint y = t_mint x /\ t_amount y = t_amount x + (if v =? to then d else 0).
Proof.
  intros H Hx Ho Hd. pose proof (transfer_effect _ _ _ _ _ _ H v) as G. rewrite Hx in G. destruct G as [G1 G2].
  eexists. split; [exact G1|]. cbn [t_owner t_mint t_amount]. split; [reflexivity|]. split; [reflexivity|]. unfold moved.
  destruct (Z.eqb_spec v from) as [->|]; [|destruct (v =? to); lia].
  destruct (Z.ltb_spec 0 d) as [Hp|Hp]; [destruct (G2 Hp eq_refl); contradiction|]. destruct (from =? to); lia.
Qed.
(** A transfer of [d] out of [from]. *)
Lemma transfer_out t d from to auth t' v x : token_transfer t d from to auth = Ok t' -> t v = Some x -> 0 <= d ->
  exists y, t' v = Some y /\ t_owner y = t_owner x /\ t_mint y = t_mint x /\ t_amount x - (if v =? from then d else 0) <= t_amount y.
Proof.
  intros H Hx Hd. pose proof (transfer_effect _ _ _ _ _ _ H v) as G. rewrite Hx in G. destruct G as [G1 G2].
  eexists. split; [exact G1|]. cbn [t_owner t_mint t_amount]. split; [reflexivity|]. split; [reflexivity|]. unfold moved.
  destruct (v =? to), (v =? from); lia.
Qed.
(** When a transfer goes through. *)
Lemma transfer_succeeds t d from to auth a b : t from = Some a -> t to = Some b -> t_mint a = t_mint b -> t_owner a = auth ->
  d <= t_amount a -> t_amount b + d <= 18446744073709551615 -> exists t', token_transfer t d from to auth = Ok t'.
Proof.
  intros Ha Hb Hm Ho Hd Hc. unfold token_transfer. destruct (Z.ltb_spec 0 d) as [Hp|Hp]; [|eauto].
  unfold tok_load at 1 2. rewrite Ha, Hb. cbn [bind].
  rewrite Hm, Ho, !Z.eqb_refl. cbn [require bind]. replace (d <=? t_amount a) with true by lia. cbn [require bind]. cbv zeta.
  unfold tok_load. destruct (Z.eqb_spec to from) as [->|Hne].
  - rewrite upd_same. cbn [bind t_amount]. rewrite Ha in Hb. injection Hb as <-. unfold u64_max.
    replace (t_amount a - d + d <=? 18446744073709551615) with true by lia. cbn [require bind]. eauto.
  - rewrite upd_other by exact Hne. rewrite Hb. cbn [bind]. unfold u64_max. replace (t_amount b + d <=? 18446744073709551615) with true by lia.
    cbn [require bind]. eauto.
Qed.

(** ** Terms *)
Lemma drops_terms tk rem now s w l w' : drops tk rem now s w l w' -> same_terms (w_mkt w) (w_mkt w').
Proof. intros H. apply drops_rest in H as [_ E]. rewrite E. apply same_terms_refl. Qed.

Lemma explained_terms w o oracle taker owner now rem w' r items acts gone put :
  explained w o oracle taker owner now rem w' r items acts gone put -> same_terms (w_mkt w) (w_mkt w').
Proof.
  intros Hex. destruct (ex_world _ _ _ _ _ _ _ _ _ _ _ _ _ Hex) as (w1 & w2 & w3 & w4 & -> & He & Hq1 & Hd & Hq2).
  apply effects_rest in He as (_ & _ & _ & _ & He). destruct Hq1 as (_ & Hq1 & _). apply drops_terms in Hd. destruct Hq2 as (_ & Hq2 & _).
  eapply same_terms_trans; [|eapply same_terms_trans; [exact He|eapply same_terms_trans; [exact Hq1|eapply same_terms_trans; [exact Hd|exact Hq2]]]].
  repeat split.
Qed.
Lemma new_order_terms w o oracle taker owner now limit rem w' r :
  sound_call w o taker owner -> new_order w o oracle taker owner now limit rem = Ok (w', r) ->
  same_terms (w_mkt w) (w_mkt w').
Proof.
  intros Hsc H. destruct (new_order_full _ _ _ _ _ _ _ _ _ _ Hsc H)
    as (T & T0 & price & pd & maxq & acts & ms & lf & w2 & bt & qt & tf & ra & rq & mf & b2 & T2 & T3 & gone & put
        & _ & _ & _ & Hex & _). eapply explained_terms. exact Hex.
Qed.

Lemma book_cancel_mkt w k id s t ex w' l : book_cancel_order w k id s t ex = Ok (w', l) -> w_mkt w' = w_mkt w /\ w_heap w' = w_heap w.
Proof. intros H. apply book_cancel_inv in H as (b & a & a' & _ & _ & _ & _ & ->). destruct s; split; reflexivity. Qed.
Lemma cancel_all_mkt n : forall i w k limit total so co w' q,
  cancel_all_loop n i w k limit total so co = Ok (w', q) -> w_mkt w' = w_mkt w /\ w_heap w' = w_heap w.
Proof.
  induction n as [|n IH]; intros i w k limit total so co w' q H; cbn [cancel_all_loop] in H.
  - injection H as <- _. auto.
  - apply bind_ok in H as (a & Ea & H). apply bind_ok in H as (oo & Eo & H). cbv zeta in H.
    destruct (oo_free oo) eqn:Efr; [eapply IH; exact H|].
    destruct (match so with Some s => negb (side_eqb s (oo_side oo)) | None => false end); [eapply IH; exact H|].
    destruct (match co with Some c => negb (c =? oo_client_id oo) | None => false end); [eapply IH; exact H|].
    destruct (limit =? 0); [injection H as <- _; auto|].
    destruct (book_cancel_order w k (oo_id oo) (oo_side oo) (oo_tree oo) None) as [[w1 l]|e] eqn:Ec.
    + apply bind_ok in H as (tot & _ & H). apply book_cancel_mkt in Ec as [E1 E2]. apply IH in H as [H1 H2]. split; congruence.
    + destruct e; try discriminate H. eapply IH; exact H.
Qed.
Lemma cancel_orders_mkt w k limit so co w' q : cancel_all_orders w k limit so co = Ok (w', q) -> w_mkt w' = w_mkt w /\ w_heap w' = w_heap w.
Proof. unfold cancel_all_orders. apply cancel_all_mkt. Qed.

Lemma consume_one_terms w rem slot w' : consume_one w rem slot = Ok w' -> same_terms (w_mkt w) (w_mkt w').
Proof.
  intros H. apply consume_one_inv in H as (ev & _ & H). destruct ev as [f|e].
  - destruct (mem_key (fe_maker f) rem); [|subst; apply same_terms_refl].
    destruct H as (a & a' & m' & h' & x & _ & E & _ & ->). apply execute_maker_mkt in E as (_ & _ & E). exact E.
  - destruct (mem_key (oe_owner e) rem); [|subst; apply same_terms_refl].
    destruct H as (a & a' & h' & x & _ & _ & _ & ->). apply same_terms_refl.
Qed.
Lemma consume_terms ss : forall w rem w', consume_loop w rem ss = Ok w' -> same_terms (w_mkt w) (w_mkt w').
Proof.
  induction ss as [|s r IH]; intros w rem w' H; cbn [consume_loop] in H.
  - injection H as <-. apply same_terms_refl.
  - apply bind_ok in H as (w1 & E & H). eapply same_terms_trans; [eapply consume_one_terms; exact E|eapply IH; exact H].
Qed.

(** ** Instructions taken apart *)
Lemma place_ix_inv e s x o limit s' id : place_order_ix e s x o limit = Ok (s', id) ->
  0 <= o_max_base o /\ 0 <= o_max_quote o /\ vault_by_side (w_mkt (s_w s)) (o_side o) = px_vault x /\
  market_is_expired (w_mkt (s_w s)) (e_now e) = false /\
  exists oracle w1 r w2 d t, 0 <= e_now e /\ oracle_input (w_mkt (s_w s)) e = Ok oracle /\
    new_order (s_w s) o oracle (Some (px_acct x)) (px_acct x) (e_now e) limit (px_rem x) = Ok (w1, r) /\
    lock_funds w1 (px_acct x) (o_side o) r (h_count (w_heap (s_w s)) <? h_count (w_heap w1)) = Ok (w2, d) /\
    token_transfer (s_tok s) d (px_user_token x) (px_vault x) (px_signer x) = Ok t /\
    s' = mkSys w2 t (s_closed s) /\ id = oa_order_id r.
Proof.
  intros H. unfold place_order_ix in H.
  apply bind_ok in H as (u1 & E1 & H). apply require_ok in E1. apply bind_ok in H as (u2 & E2 & H). apply require_ok in E2.
  cbv zeta in H. apply bind_ok in H as (u3 & E3 & H). apply require_ok in E3. apply bind_ok in H as (u4 & E4 & H). apply require_ok in E4.
  apply bind_ok in H as (now & En & H). pose proof (now_u64_ok _ _ En) as Hn.
  assert (now = e_now e) as -> by (unfold now_u64 in En; apply bind_ok in En as (? & _ & En); congruence).
  apply bind_ok in H as (oracle & Eo & H).
  apply bind_ok in H as ([w1 r] & En1 & H). apply bind_ok in H as ([w2 d] & Ek & H).
  apply bind_ok in H as (t & Et & H). injection H as <- <-.
  split; [lia|]. split; [lia|]. split; [lia|]. split; [destruct (market_is_expired _ _); [discriminate E4|reflexivity]|].
  exists oracle, w1, r, w2, d, t. auto 10.
Qed.

(** Paying for an order from the free balance, and the rest in tokens. *)
Definition paid (m m' : market) (p p' : position) (s : side) (cost d : Z) : Prop :=
  0 <= d /\ d = cost - Z.min cost (match s with Bid => p_quote_free p | Ask => p_base_free p end) /\
  exists pen, (u64_ok pen \/ pen = p_penalty p) /\
  match s with
  | Bid => m' = m_set_quote_total m (m_quote_total m + d) /\ p' = p_set_penalty (p_set_quote_free p (p_quote_free p - (cost - d))) pen
  | Ask => m' = m_set_base_total m (m_base_total m + d) /\ p' = p_set_penalty (p_set_base_free p (p_base_free p - (cost - d))) pen
  end.
Definition cost_of (s : side) (r : order_amounts) : Z :=
  match s with Bid => oa_quote_taken r + oa_posted_quote r + oa_taker_fees r + oa_maker_fees r | Ask => oa_base_taken r + oa_posted_base r end.

Lemma lock_funds_inv w k s r grew w' d : lock_funds w k s r grew = Ok (w', d) ->
  exists a m' p', acct_get k (w_accts w) = Some a /\ paid (w_mkt w) m' (a_pos a) p' s (cost_of s r) d /\
    w' = w_set_acct (w_set_mkt w m') k (a_set_pos a p').
Proof.
  intros H. unfold lock_funds in H. apply bind_ok in H as (a & Ea & H). apply acct_load_ok in Ea. cbv zeta in H.
  apply bind_ok in H as ([[m' p'] dd] & E & H). apply bind_ok in H as (p'' & E2 & H). injection H as <- <-.
  assert (Hp : exists pen, (u64_ok pen \/ pen = p_penalty (a_pos a)) /\ p'' = p_set_penalty p' pen).
  { destruct grew.
    - apply bind_ok in E2 as (n & E2 & E3). apply chk_u64_ok in E2 as [-> R]. injection E3 as <-. eexists. split; [left; exact R|reflexivity].
    - injection E2 as <-. exists (p_penalty p'). split; [|destruct p'; reflexivity].
      destruct s; repeat (apply bind_ok in E as (? & _ & E)); injection E as _ <- _; right; reflexivity. }
  destruct Hp as (pen & Rpen & ->). exists a, m', (p_set_penalty p' pen). split; [exact Ea|]. split; [|reflexivity].
  unfold paid, cost_of. destruct s.
  - do 3 (let X := fresh in apply bind_ok in E as (? & X & E); apply chk_u64_ok in X as [-> _]).
    apply bind_ok in E as (d1 & X1 & E). apply chk_u64_ok in X1 as [-> X1].
    apply bind_ok in E as (f1 & X2 & E). apply chk_u64_ok in X2 as [-> X2].
    apply bind_ok in E as (t1 & X3 & E). apply chk_u64_ok in X3 as [-> X3]. injection E as <- <- <-.
    split; [lia|]. split; [reflexivity|]. exists pen. split; [exact Rpen|]. split; [reflexivity|].
    do 2 f_equal. lia.
  - do 1 (let X := fresh in apply bind_ok in E as (? & X & E); apply chk_u64_ok in X as [-> _]).
    apply bind_ok in E as (d1 & X1 & E). apply chk_u64_ok in X1 as [-> X1].
    apply bind_ok in E as (f1 & X2 & E). apply chk_u64_ok in X2 as [-> X2].
    apply bind_ok in E as (t1 & X3 & E). apply chk_u64_ok in X3 as [-> X3]. injection E as <- <- <-.
    split; [lia|]. split; [reflexivity|]. exists pen. split; [exact Rpen|]. split; [reflexivity|].
    do 2 f_equal. lia.
Qed.

(** The vaults hold at least the recorded deposits. *)
Definition holds_at_least (t : tokens) (v auth mint n : Z) : Prop :=
  exists x, t v = Some x /\ t_owner x = auth /\ t_mint x = mint /\ n <= t_amount x.
Definition funded (c : mcfg) (bt qt : Z) (t : tokens) : Prop :=
  (c_base_vault c <> c_quote_vault c /\ c_base_mint c <> c_quote_mint c) /\
  holds_at_least t (c_base_vault c) (c_authority c) (c_base_mint c) bt /\
  holds_at_least t (c_quote_vault c) (c_authority c) (c_quote_mint c) qt.
Definition funded_m (m : market) (t : tokens) : Prop := funded (m_cfg m) (m_base_total m) (m_quote_total m) t.

Lemma holds_in t d from to auth t' v a mint n : token_transfer t d from to auth = Ok t' -> 0 <= d -> a <> auth ->
  holds_at_least t v a mint n -> holds_at_least t' v a mint (n + (if v =? to then d else 0)).
Proof.
  intros H Hd Ha (x & Hx & Ho & Hm & Hn). destruct (transfer_in _ _ _ _ _ _ _ _ H Hx ltac:(congruence) Hd) as (y & Hy & Oy & My & Ay).
  exists y. split; [exact Hy|]. split; [congruence|]. split; [congruence|]. lia.
Qed.
Lemma holds_out t d from to auth t' v a mint n : token_transfer t d from to auth = Ok t' -> 0 <= d ->
  holds_at_least t v a mint n -> holds_at_least t' v a mint (n - (if v =? from then d else 0)).
Proof.
  intros H Hd (x & Hx & Ho & Hm & Hn). destruct (transfer_out _ _ _ _ _ _ _ _ H Hx Hd) as (y & Hy & Oy & My & Ay).
  exists y. split; [exact Hy|]. split; [congruence|]. split; [congruence|]. lia.
Qed.
Lemma funded_in c bt qt t d from to auth t' : funded c bt qt t -> token_transfer t d from to auth = Ok t' -> 0 <= d -> auth <> c_authority c ->
  funded c (bt + if c_base_vault c =? to then d else 0) (qt + if c_quote_vault c =? to then d else 0) t'.
Proof.
  intros (H1 & H2 & H3) Ht Hd Ha. split; [exact H1|].
  split; [eapply holds_in; [exact Ht|exact Hd|congruence|exact H2]|eapply holds_in; [exact Ht|exact Hd|congruence|exact H3]].
Qed.
Lemma funded_out c bt qt t d from to auth t' : funded c bt qt t -> token_transfer t d from to auth = Ok t' -> 0 <= d ->
  funded c (bt - if c_base_vault c =? from then d else 0) (qt - if c_quote_vault c =? from then d else 0) t'.
Proof.
  intros (H1 & H2 & H3) Ht Hd. split; [exact H1|].
  split; [eapply holds_out; [exact Ht|exact Hd|exact H2]|eapply holds_out; [exact Ht|exact Hd|exact H3]].
Qed.
Lemma funded_terms m m' t : same_terms m m' -> funded_m m t -> funded_m m' t.
Proof. intros (E1 & _ & E2 & E3 & _) H. unfold funded_m. rewrite E1, E2, E3. exact H. Qed.
Lemma funded_base c bt qt t d from auth t' : funded c bt qt t -> token_transfer t d from (c_base_vault c) auth = Ok t' -> 0 <= d -> auth <> c_authority c ->
  funded c (bt + d) qt t'.
Proof.
  intros H Ht Hd Ha. pose proof (funded_in _ _ _ _ _ _ _ _ _ H Ht Hd Ha) as G. rewrite Z.eqb_refl in G.
  destruct H as (H & _). replace (c_quote_vault c =? c_base_vault c) with false in G by lia. rewrite Z.add_0_r in G. exact G.
Qed.
Lemma funded_quote c bt qt t d from auth t' : funded c bt qt t -> token_transfer t d from (c_quote_vault c) auth = Ok t' -> 0 <= d -> auth <> c_authority c ->
  funded c bt (qt + d) t'.
Proof.
  intros H Ht Hd Ha. pose proof (funded_in _ _ _ _ _ _ _ _ _ H Ht Hd Ha) as G. rewrite Z.eqb_refl in G.
  destruct H as (H & _). replace (c_base_vault c =? c_quote_vault c) with false in G by lia. rewrite Z.add_0_r in G. exact G.
Qed.
Lemma funded_base_out c bt qt t d to auth t' : funded c bt qt t -> token_transfer t d (c_base_vault c) to auth = Ok t' -> 0 <= d ->
  funded c (bt - d) qt t'.
Proof.
  intros H Ht Hd. pose proof (funded_out _ _ _ _ _ _ _ _ _ H Ht Hd) as G. rewrite Z.eqb_refl in G.
  destruct H as (H & _). replace (c_quote_vault c =? c_base_vault c) with false in G by lia. rewrite Z.sub_0_r in G. exact G.
Qed.
Lemma funded_quote_out c bt qt t d to auth t' : funded c bt qt t -> token_transfer t d (c_quote_vault c) to auth = Ok t' -> 0 <= d ->
  funded c bt (qt - d) t'.
Proof.
  intros H Ht Hd. pose proof (funded_out _ _ _ _ _ _ _ _ _ H Ht Hd) as G. rewrite Z.eqb_refl in G.
  destruct H as (H & _). replace (c_base_vault c =? c_quote_vault c) with false in G by lia. rewrite Z.sub_0_r in G. exact G.
Qed.

Lemma place_funded e s x o limit s' id : world_sound (s_w s) -> params_sane (o_params o) ->
  place_order_ix e s x o limit = Ok (s', id) -> px_signer x <> c_authority (m_cfg (w_mkt (s_w s))) ->
  funded_m (w_mkt (s_w s)) (s_tok s) -> funded_m (w_mkt (s_w s')) (s_tok s').
Proof.
  intros Hs Hp H Ha Hf. apply place_ix_inv in H as (B & Q & V & _ & oracle & w1 & r & w2 & d & t & _ & _ & Eo & Ek & Et & -> & _).
  assert (Hsc : sound_call (s_w s) o (Some (px_acct x)) (px_acct x)) by (apply sound_call_of; [exact Hs|constructor; assumption|left; reflexivity]).
  pose proof (new_order_terms _ _ _ _ _ _ _ _ _ _ Hsc Eo) as Ht.
  apply lock_funds_inv in Ek as (a & m' & p' & _ & (Hd & _ & pen & _ & Hm) & ->).
  cbn [s_w s_tok w_set_acct w_set_accts w_mkt w_set_mkt].
  apply (funded_terms _ _ _ Ht) in Hf. destruct Ht as (Ec & _). rewrite <- Ec in Ha.
  unfold vault_by_side in V. rewrite <- Ec in V.
  destruct (o_side o); destruct Hm as [-> _]; unfold funded_m; cbn [m_set_quote_total m_set_base_total m_cfg m_base_total m_quote_total];
    rewrite <- V in Et; [eapply funded_quote|eapply funded_base]; try exact Hf; try exact Hd; try exact Et; exact Ha.
Qed.

Lemma multi_loop_terms os : forall w x ub uq oracle now limit ba qa w' ba' qa' ids,
  world_sound w -> Forall (fun o => params_sane (o_params o)) os ->
  multi_loop w x ub uq oracle now limit os ba qa = Ok (w', ba', qa', ids) -> same_terms (w_mkt w) (w_mkt w').
Proof.
  induction os as [|o r IH]; intros w x ub uq oracle now limit ba qa w' ba' qa' ids Hs Ho H; cbn [multi_loop] in H.
  - injection H as <- <- <- _. apply same_terms_refl.
  - apply bind_ok in H as ([[[w1 b1] q1] i1] & E & H). inversion Ho as [|o0 r0 Ho1 Ho2]; subst.
    apply bind_ok in H as ([[[w2 b2] q2] i2] & E2 & H). injection H as <- <- <- _.
    destruct (multi_one_place _ _ _ _ _ _ _ _ _ _ _ _ _ _ Hs Ho1 E) as (o' & r' & Go & _ & En & _ & _ & _).
    assert (Hsc : sound_call w o' (Some (mx_acct x)) (mx_acct x)) by (apply sound_call_of; [exact Hs|exact Go|left; reflexivity]).
    eapply same_terms_trans; [eapply new_order_terms; [exact Hsc|exact En]|].
    eapply IH; [eapply new_order_sound; [exact Hsc|exact En]|exact Ho2|exact E2].
Qed.

Lemma multi_funded e s x cancel os limit s' ids : world_sound (s_w s) -> Forall (fun o => params_sane (o_params o)) os ->
  mx_signer x <> c_authority (m_cfg (w_mkt (s_w s))) ->
  multi_ix e s x cancel os limit = Ok (s', ids) -> funded_m (w_mkt (s_w s)) (s_tok s) -> funded_m (w_mkt (s_w s')) (s_tok s').
Proof.
  intros Hs Ho Ha H Hf. unfold multi_ix in H. cbv zeta in H. apply bind_ok in H as (u1 & _ & H).
  apply bind_ok in H as (now & En & H). apply bind_ok in H as (oracle & _ & H).
  apply bind_ok in H as (w0 & E0 & H).
  assert (S0 : world_sound w0 /\ w_mkt w0 = w_mkt (s_w s)).
  { destruct cancel; [|injection E0 as <-; auto]. apply bind_ok in E0 as ([w' q] & E1 & E0). injection E0 as <-.
    split; [|apply cancel_orders_mkt in E1 as [E1 _]; exact E1]. apply cancel_orders_steps in E1. exact (wsteps_sound _ _ _ _ _ _ _ E1 Hs). }
  destruct S0 as [S0 M0].
  apply bind_ok in H as (ub & _ & H). apply bind_ok in H as (uq & _ & H).
  apply bind_ok in H as ([[[w1 ba] qa] is] & E1 & H).
  apply multi_loop_terms in E1; [|exact S0|exact Ho]. rewrite M0 in E1.
  apply bind_ok in H as (a & Ea & H).
  apply bind_ok in H as (db & X1 & H). apply chk_u64_ok in X1 as [-> X1].
  apply bind_ok in H as (dq & X2 & H). apply chk_u64_ok in X2 as [-> X2].
  apply bind_ok in H as (fb & X3 & H). apply bind_ok in H as (fq & X4 & H).
  apply bind_ok in H as (bt & X5 & H). apply chk_u64_ok in X5 as [-> X5].
  apply bind_ok in H as (qt & X6 & H). apply chk_u64_ok in X6 as [-> X6].
  apply bind_ok in H as (p2 & E2 & H). apply bind_ok in H as (t1 & T1 & H). apply bind_ok in H as (t2 & T2 & H). injection H as <- _.
  cbn [s_w s_tok w_set_acct w_set_accts w_mkt w_set_mkt].
  apply (funded_terms _ _ _ E1) in Hf. destruct E1 as (Ec & _). rewrite <- Ec in Ha, T1, T2.
  unfold funded_m. cbn [m_set_quote_total m_set_base_total m_cfg m_base_total m_quote_total].
  eapply funded_base; [eapply funded_quote; [exact Hf|exact T1|lia|exact Ha]|exact T2|lia|exact Ha].
Qed.

Lemma take_funded e s x o limit s' : world_sound (s_w s) -> params_sane (o_params o) ->
  tx_signer x <> c_authority (m_cfg (w_mkt (s_w s))) ->
  place_take_ix e s x o limit = Ok s' -> funded_m (w_mkt (s_w s)) (s_tok s) -> funded_m (w_mkt (s_w s')) (s_tok s').
Proof.
  intros Hs Hp Ha H Hf. unfold place_take_ix in H.
  apply bind_ok in H as (u1 & E1 & H). apply require_ok in E1. apply bind_ok in H as (u2 & E2 & H). apply require_ok in E2.
  cbv zeta in H. apply bind_ok in H as (u3 & _ & H).
  apply bind_ok in H as (now & En & H). apply bind_ok in H as (oracle & _ & H).
  apply bind_ok in H as (u5 & E5 & H). apply bind_ok in H as ([w1 r] & Eo & H).
  assert (Hsc : sound_call (s_w s) o None (tx_signer x)) by (apply sound_call_of; [exact Hs|constructor; [lia|lia|exact Hp]|right; reflexivity]).
  pose proof (new_order_terms _ _ _ _ _ _ _ _ _ _ Hsc Eo) as Ht.
  destruct (new_order_full _ _ _ _ _ _ _ _ _ _ Hsc Eo)
    as (T & T0 & price & pd & maxq & acts & ms & lf & w2 & bt & qt & tf & ra & rq & mf & b2 & T2 & T3 & gone & put
        & Hf0 & _ & Hpl & _ & Ebt & _).
  destruct (placed_numbers _ _ _ _ _ _ _ _ _ _ _ _ _ _ _ _ _ _ _ _ _ _ _ _ Hsc Hf0 Hpl)
    as (_ & _ & _ & _ & _ & Hbl & _ & Ebt2 & _).
  assert (Hbt : 0 <= oa_base_taken r).
  { rewrite Ebt, Ebt2. destruct Hs as [Hc _]. pose proof (cs_bls _ Hc). unfold bls. nia. }
  apply (funded_terms _ _ _ Ht) in Hf. destruct Ht as (Ec & _). rewrite <- Ec in H, Ha.
  apply bind_ok in H as (reb & Er & H). apply chk_u64_ok in Er as [-> Er].
  destruct (o_side o) eqn:Es.
  - apply bind_ok in H as (q & X1 & H). apply chk_u64_ok in X1 as [-> X1].
    apply bind_ok in H as (bt' & X2 & H). apply chk_u64_ok in X2 as [-> X2].
    apply bind_ok in H as (qt' & X3 & H). apply chk_u64_ok in X3 as [-> X3].
    apply bind_ok in H as (t1 & Y1 & H). apply bind_ok in H as (t2 & Y2 & H). injection H as <-. cbn [s_w s_tok w_mkt w_set_mkt].
    unfold funded_m. cbn [m_set_quote_total m_set_base_total m_cfg m_base_total m_quote_total].
    eapply funded_base_out; [eapply funded_quote; [exact Hf|exact Y1|lia|exact Ha]|exact Y2|exact Hbt].
  - apply bind_ok in H as (q & X1 & H). apply chk_u64_ok in X1 as [-> X1].
    apply bind_ok in H as (bt' & X2 & H). apply chk_u64_ok in X2 as [-> X2].
    apply bind_ok in H as (qt' & X3 & H). apply chk_u64_ok in X3 as [-> X3].
    apply bind_ok in H as (t1 & Y1 & H). apply bind_ok in H as (t2 & Y2 & H). injection H as <-. cbn [s_w s_tok w_mkt w_set_mkt].
    unfold funded_m. cbn [m_set_quote_total m_set_base_total m_cfg m_base_total m_quote_total].
    eapply funded_quote_out; [eapply funded_base; [exact Hf|exact Y1|exact Hbt|exact Ha]|exact Y2|lia].
Qed.

Lemma deposit_funded e s signer k ub uq base quote s' : 0 <= base -> 0 <= quote -> signer <> c_authority (m_cfg (w_mkt (s_w s))) ->
  deposit_ix e s signer k ub uq base quote = Ok s' -> funded_m (w_mkt (s_w s)) (s_tok s) -> funded_m (w_mkt (s_w s')) (s_tok s').
Proof.
  intros Hb Hq Ha H Hf. unfold deposit_ix in H. cbv zeta in H. apply bind_ok in H as (u1 & _ & H). apply bind_ok in H as (u2 & _ & H).
  apply bind_ok in H as (a & Ea & H). apply bind_ok in H as (u3 & _ & H). apply bind_ok in H as (t1 & T1 & H).
  apply bind_ok in H as (bf & X1 & H). apply bind_ok in H as (bt & X2 & H). apply chk_u64_ok in X2 as [-> X2].
  apply bind_ok in H as (t2 & T2 & H). apply bind_ok in H as (qf & X3 & H).
  apply bind_ok in H as (qt & X4 & H). apply chk_u64_ok in X4 as [-> X4]. injection H as <-.
  cbn [s_w s_tok w_set_acct w_set_accts w_mkt w_set_mkt].
  unfold funded_m. cbn [m_set_quote_total m_set_base_total m_cfg m_base_total m_quote_total].
  eapply funded_quote; [eapply funded_base; [exact Hf|exact T1|exact Hb|exact Ha]|exact T2|exact Hq|exact Ha].
Qed.

(** Settling taken apart. *)
Lemma settle_inv s k ub uq ref s' : settle_core s k ub uq ref = Ok s' ->
  exists a t0 t1 t2, acct_get k (w_accts (s_w s)) = Some a /\
    let p := a_pos a in let m := w_mkt (s_w s) in let c := m_cfg m in
    let rebate := p_rebates p + round_off m p in
    let referred := match ref with Some _ => true | None => false end in
    0 <= rebate /\
    match ref with Some r => token_transfer (s_tok s) rebate (c_quote_vault c) r (c_authority c) = Ok t0 | None => t0 = s_tok s end /\
    token_transfer t0 (p_base_free p) (c_base_vault c) ub (c_authority c) = Ok t1 /\
    token_transfer t1 (p_quote_free p) (c_quote_vault c) uq (c_authority c) = Ok t2 /\
    s' = mkSys (w_set_acct (w_set_mkt (s_w s) (settled_mkt m p referred)) k (a_set_pos a (settled_pos m p))) t2 (s_closed s).
Proof.
  intros H. unfold settle_core in H. cbv zeta in H. apply bind_ok in H as (a & Ea & H). apply acct_load_ok in Ea.
  fold (round_now (w_mkt (s_w s)) (a_pos a)) in H. fold (round_off (w_mkt (s_w s)) (a_pos a)) in H.
  apply bind_ok in H as (reb & X1 & H). apply chk_u64_ok in X1 as [Er X1].
  assert (E1 : p_rebates (if round_now (w_mkt (s_w s)) (a_pos a) then p_set_locked_fees (a_pos a) 0 else a_pos a) = p_rebates (a_pos a))
    by (destruct (round_now _ _); reflexivity).
  assert (E2 : p_base_free (if round_now (w_mkt (s_w s)) (a_pos a) then p_set_locked_fees (a_pos a) 0 else a_pos a) = p_base_free (a_pos a))
    by (destruct (round_now _ _); reflexivity).
  assert (E3 : p_quote_free (if round_now (w_mkt (s_w s)) (a_pos a) then p_set_locked_fees (a_pos a) 0 else a_pos a) = p_quote_free (a_pos a))
    by (destruct (round_now _ _); reflexivity).
  rewrite E1 in *. rewrite E2, E3 in H.
  apply bind_ok in H as (m1 & X2 & H).
  apply bind_ok in H as (bt & X3 & H). apply chk_u64_ok in X3 as [-> X3].
  apply bind_ok in H as (qt & X4 & H). apply chk_u64_ok in X4 as [-> X4].
  apply bind_ok in H as (ra & X5 & H). apply chk_u64_ok in X5 as [-> X5].
  apply bind_ok in H as (u & _ & H). apply bind_ok in H as (t0 & T0 & H). apply bind_ok in H as (t1 & T1 & H).
  apply bind_ok in H as (t2 & T2 & H). injection H as <-. exists a, t0, t1, t2. split; [exact Ea|]. cbv zeta.
  set (p := a_pos a) in *. set (m := w_mkt (s_w s)) in *.
  assert (Ep : p_set_rebates (p_set_quote_free (p_set_base_free (p_set_penalty
      (if round_now m p then p_set_locked_fees p 0 else p) 0) 0) 0) 0 = settled_pos m p)
    by (unfold settled_pos; destruct (round_now m p); reflexivity).
  rewrite Ep. rewrite Er in *. split; [lia|]. split; [destruct ref; [exact T0|congruence]|]. split; [exact T1|]. split; [exact T2|].
  do 4 f_equal.
  destruct ref as [rf|].
  - apply bind_ok in X2 as (f & Y1 & X2). apply chk_u128_ok in Y1 as [-> Y1].
    apply bind_ok in X2 as (q & Y2 & X2). apply chk_u64_ok in Y2 as [-> Y2]. injection X2 as <-.
    unfold settled_mkt. cbv zeta.
    set (rb := p_rebates p + round_off m p). replace (m_quote_total m - p_quote_free p - rb) with (m_quote_total m - rb - p_quote_free p) by lia.
    reflexivity.
  - apply bind_ok in X2 as (f & Y1 & X2). apply chk_u64_ok in Y1 as [-> Y1]. injection X2 as <-.
    unfold settled_mkt. cbv zeta. rewrite Z.sub_0_r. reflexivity.
Qed.
