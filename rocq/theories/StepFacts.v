(** Every elementary step keeps the books sound, and every instruction is a sequence of
    elementary steps. *)
From Coq Require Import ZArith List Bool Lia ZifyBool Permutation.
From Verif Require Import Base Nodes OrderTree BookSide Heap Market OpenOrders Order Book Instructions
  BaseFacts NodesFacts TreeRep TreeFacts TreeOps TreeIter BookSideFacts BookSideOrder SpecBook
  BookSpecProofs SpecOrder SpecFees FeeFacts MatchFacts MatchBook OrderFacts PlaceFacts OrderSpecProofs Steps.
Import ListNotations.
Open Scope Z_scope.

Definition world_sound (w : world) : Prop :=
  cfg_sound (m_cfg (w_mkt w)) /\ forall s, sound_side w s.

Lemma sound_call_of w o taker owner : world_sound w -> sane_order o -> taker = Some owner \/ taker = None ->
  sound_call w o taker owner.
Proof. intros [H1 H2] H3 H4. constructor; assumption. Qed.

Lemma world_sound_same w w' : world_sound w -> m_cfg (w_mkt w') = m_cfg (w_mkt w) ->
  m_seq (w_mkt w) <= m_seq (w_mkt w') -> (forall s, w_book w' s = w_book w s) -> world_sound w'.
Proof.
  intros [Hc Hs] Ec Es Eb. split; [rewrite Ec; exact Hc|]. intros s. destruct (Hs s) as [Hr Hl].
  unfold sound_side. rewrite Eb. split; [exact Hr|]. intros t L l H1 H2. specialize (Hl t L l H1 H2). lia.
Qed.

Lemma residue_key acts t l l' : residue acts t l = Some l' -> lf_key l' = lf_key l.
Proof. intros H. destruct (residue_cases _ _ _ _ H) as [->|(i & q & _ & _ & _ & ->)]; reflexivity. Qed.
Lemma seq_of_key s l l' : lf_key l' = lf_key l -> seq_of s l' = seq_of s l.
Proof. intros E. unfold seq_of. rewrite E. reflexivity. Qed.

Lemma new_order_sound w o oracle taker owner now limit rem w' r :
  sound_call w o taker owner -> new_order w o oracle taker owner now limit rem = Ok (w', r) -> world_sound w'.
Proof.
  intros Hsc H. pose proof Hsc as [Hc Hsd Hso Htk].
  destruct (new_order_full _ _ _ _ _ _ _ _ _ _ Hsc H)
    as (T & T0 & price & pd & maxq & acts & ms & lf & w2 & bt & qt & tf & ra & rq & mf & b2 & T2 & T3 & gone & put
        & Hf & Hf0 & Hpl & _ & _ & _ & _ & _ & _ & Eb2 & Hf3 & HP & Ec & Es & Hput).
  pose proof Hpl as [_ Hseq _ _ _ _ _ Hf2 Hlv _ _ _].
  assert (HT : forall s T, fits s (w_book w s) T -> forall t l, In l (oleaves (T t)) -> seq_of s l <= m_seq (w_mkt w)).
  { intros s T' Hft t l Hl. destruct (Hsd s) as [_ G]. eapply G; [apply bs_lists; exact (ft_ok _ _ _ Hft)|].
    apply in_dir. exact Hl. }
  split; [rewrite Ec; exact Hc|]. intros s.
  assert (Hcase : s = o_side o \/ s = invert_side (o_side o)) by (destruct s, (o_side o); auto).
  destruct Hcase as [-> | ->].
  - eapply fits_sound; [exact Hf3|]. intros t l Hl. rewrite Es. apply in_all_leaves in Hl.
    assert (Hin : In (t, l) ((match put with Some x => [x] | None => [] end) ++ all_leaves T0)).
    { apply (Permutation_in _ (Permutation_sym HP)). apply in_or_app. left. exact Hl. }
    apply in_app_or in Hin as [Hin|Hin].
    + destruct put as [[t' l']|]; [|destruct Hin]. destruct Hin as [E|[]]. injection E as -> ->.
      rewrite (seq_of_new _ pd (m_seq (w_mkt w) + 1)); [lia|lia|exact (pf_key _ _ _ _ _ _ _ _ _ _ _ Hput)].
    + apply in_all_leaves in Hin. pose proof (HT _ _ Hf0 _ _ Hin). lia.
  - rewrite <- Eb2 in Hf2. eapply fits_sound; [exact Hf2|]. intros t l Hl. rewrite Hlv in Hl. apply residues_in in Hl as (l0 & Hl0 & R).
    rewrite (seq_of_key _ l0 l (residue_key _ _ _ _ R)). pose proof (HT _ _ Hf _ _ Hl0). lia.
Qed.

Lemma fits_cancel s bs T t key bs' l : fits s bs T -> bs_remove_by_key bs t key = Ok (bs', Some l) ->
  exists T', fits s bs' T' /\ lf_key l = key /\ Permutation (all_leaves T) ((t, l) :: all_leaves T').
Proof.
  intros Hf H. destruct (bs_remove_spec bs T t key (ft_ok _ _ _ Hf)) as (b & old & o' & E & Hok & Hs & Hr).
  rewrite E in H. injection H as -> ->. cbn [removed] in Hr. destruct Hr as (Hk & A & B & HA & HB).
  assert (Ht : taken_out t l T (tupd T t o')).
  { split; [rewrite tupd_other; [reflexivity|destruct t; discriminate]|]. exists A, B. rewrite tupd_same. auto. }
  exists (tupd T t o'). split; [|split; [exact Hk|apply taken_perm; exact Ht]].
  eapply fits_sub; [exact Hf|exact Hok|exact Hs|eapply br_remove; [exact (ft_reach _ _ _ Hf)|exact E]|].
  eapply taken_out_sub. exact Ht.
Qed.

Lemma book_cancel_inv w k id s t ex w' l : book_cancel_order w k id s t ex = Ok (w', l) ->
  exists b a a', bs_remove_by_key (w_book w s) t id = Ok (b, Some l) /\
    (match ex with Some e => lf_owner l = e | None => True end) /\
    acct_get k (w_accts w) = Some a /\ ooa_cancel_order a (lf_slot l) (lf_qty l) (w_mkt w) = Ok a' /\
    w' = w_set_acct (w_set_book w s b) k a'.
Proof.
  intros H. unfold book_cancel_order in H. apply bind_ok in H as ([b [x|]] & E & H); [|discriminate H].
  apply bind_ok in H as (u & E1 & H). apply bind_ok in H as (a & E2 & H). apply acct_load_ok in E2.
  apply bind_ok in H as (a' & E3 & H). injection H as <- <-. exists b, a, a'.
  split; [exact E|]. split; [|auto]. destruct ex; [|exact I]. apply require_ok in E1. lia.
Qed.

Lemma cancel_sound w k id s t ex w' l : world_sound w -> book_cancel_order w k id s t ex = Ok (w', l) -> world_sound w'.
Proof.
  intros [Hc Hs] H. apply book_cancel_inv in H as (b & a & a' & E & _ & _ & _ & ->).
  destruct (sound_fits _ _ (Hs s)) as (T & Hf & Hage).
  destruct (fits_cancel _ _ _ _ _ _ _ Hf E) as (T' & Hf' & _ & HP).
  split; [cbn; rewrite w_set_book_mkt; exact Hc|]. intros u.
  destruct (side_eqb u s) eqn:Eu.
  - assert (u = s) as -> by (destruct u, s; (reflexivity || discriminate)). eapply fits_sound.
    + rewrite w_book_acct, w_book_set. exact Hf'.
    + intros t' l' Hl'. cbn. rewrite w_set_book_mkt. eapply (Hage t'). apply in_all_leaves.
      apply (Permutation_in _ (Permutation_sym HP)). right. apply in_all_leaves. exact Hl'.
  - destruct (Hs u) as [Hr Hl]. unfold sound_side. rewrite w_book_acct.
    replace (w_book (w_set_book w s b) u) with (w_book w u) by (destruct u, s; (reflexivity || discriminate)).
    cbn. rewrite w_set_book_mkt. split; assumption.
Qed.

Lemma consume_one_inv w rem slot w' : consume_one w rem slot = Ok w' ->
  exists ev, at_slot (w_heap w) slot = Some ev /\
  match ev with
  | EFill f => if mem_key (fe_maker f) rem then exists a a' m' h' x,
      acct_get (fe_maker f) (w_accts w) = Some a /\ execute_maker a (w_mkt w) f = Ok (a', m') /\
      delete_slot (w_heap w) slot = Ok (h', x) /\ w' = w_set_heap (w_set_acct (w_set_mkt w m') (fe_maker f) a') h'
      else w' = w
  | EOut o => if mem_key (oe_owner o) rem then exists a a' h' x,
      acct_get (oe_owner o) (w_accts w) = Some a /\ ooa_cancel_order a (oe_slot o) (oe_qty o) (w_mkt w) = Ok a' /\
      delete_slot (w_heap w) slot = Ok (h', x) /\ w' = w_set_heap (w_set_acct w (oe_owner o) a') h'
      else w' = w
  end.
Proof.
  intros H. unfold consume_one in H. apply bind_ok in H as (ev & E & H). apply unwrap_ok in E. exists ev. split; [exact E|].
  destruct ev as [f|o].
  - destruct (mem_key (fe_maker f) rem); [|congruence].
    apply bind_ok in H as (a & E1 & H). apply acct_load_ok in E1. apply bind_ok in H as ([a' m'] & E2 & H).
    apply bind_ok in H as ([h' x] & E3 & H). injection H as <-. exists a, a', m', h', x. auto.
  - destruct (mem_key (oe_owner o) rem); [|congruence].
    apply bind_ok in H as (a & E1 & H). apply acct_load_ok in E1. apply bind_ok in H as (a' & E2 & H).
    apply bind_ok in H as ([h' x] & E3 & H). injection H as <-. exists a, a', h', x. auto.
Qed.

Lemma wstep_sound who w db dq w' db' dq' : wstep who w db dq w' db' dq' -> world_sound w -> world_sound w'.
Proof.
  intros H Hs.
  destruct H as [w db dq o oracle taker owner now limit rem w' r Ho Ht Hl Hn H
    |w db dq k a oo ex w' l Ha Hoo Hfr H|w db dq rem slot w' H|w db dq k a bf qf pen bt qt Ha R1 R2 R3 R4 R5
    |w db dq bt qt R1 R2|w db dq k a referred Ha m' R1 R2 R3 R4 R5|w db dq R|w db dq k owner delegate num Hk Hk0
    |w db dq k a d Ha|w db dq].
  - eapply new_order_sound; [|exact H]. apply sound_call_of; [exact Hs|exact Ho|]. destruct Ht as [Ht|[Ht _]]; auto.
  - eapply cancel_sound; [exact Hs|exact H].
  - apply consume_one_inv in H as (ev & _ & H). destruct ev as [f|e].
    + destruct (mem_key (fe_maker f) rem); [|subst; exact Hs].
      destruct H as (a & a' & m' & h' & x & _ & E & _ & ->). apply execute_maker_mkt in E as (E1 & E2 & _).
      eapply world_sound_same; [exact Hs|exact E1|cbn; lia|]. intros []; reflexivity.
    + destruct (mem_key (oe_owner e) rem); [|subst; exact Hs].
      destruct H as (a & a' & h' & x & _ & _ & _ & ->).
      eapply world_sound_same; [exact Hs|reflexivity|cbn; lia|]. intros []; reflexivity.
  - eapply world_sound_same; [exact Hs|reflexivity|cbn; lia|]. intros []; reflexivity.
  - eapply world_sound_same; [exact Hs|reflexivity|cbn; lia|]. intros []; reflexivity.
  - eapply world_sound_same; [exact Hs|reflexivity|cbn; lia|]. intros []; reflexivity.
  - eapply world_sound_same; [exact Hs|reflexivity|cbn; lia|]. intros []; reflexivity.
  - eapply world_sound_same; [exact Hs|reflexivity|cbn; lia|]. intros []; reflexivity.
  - eapply world_sound_same; [exact Hs|reflexivity|cbn; lia|]. intros []; reflexivity.
  - eapply world_sound_same; [exact Hs|reflexivity|cbn; lia|]. intros []; reflexivity.
Qed.

Lemma wsteps_sound who w db dq w' db' dq' : wsteps who w db dq w' db' dq' -> world_sound w -> world_sound w'.
Proof. induction 1; intros Hs; [exact Hs|]. apply IHwsteps. eapply wstep_sound; eauto. Qed.

(** ** Instructions as steps *)
Lemma wsteps_done who w w' db dq : w' = w -> wsteps who w db dq w' db dq.
Proof. intros ->. constructor. Qed.

Lemma order_at_in a i oo : order_at a i = Ok oo -> In oo (a_orders a).
Proof.
  unfold order_at. intros H. apply bind_ok in H as (u & _ & H). apply unwrap_ok in H. eapply nth_error_In. exact H.
Qed.

Lemma cancel_all_steps n : forall i w k limit total so co w' q,
  cancel_all_loop n i w k limit total so co = Ok (w', q) -> wsteps (Some k) w 0 0 w' 0 0.
Proof.
  induction n as [|n IH]; intros i w k limit total so co w' q H; cbn [cancel_all_loop] in H.
  - injection H as <- _. constructor.
  - apply bind_ok in H as (a & Ea & H). apply acct_load_ok in Ea. apply bind_ok in H as (oo & Eo & H). cbv zeta in H.
    destruct (oo_free oo) eqn:Efr; [eapply IH; exact H|].
    destruct (match so with Some s => negb (side_eqb s (oo_side oo)) | None => false end); [eapply IH; exact H|].
    destruct (match co with Some c => negb (c =? oo_client_id oo) | None => false end); [eapply IH; exact H|].
    destruct (limit =? 0); [injection H as <- _; constructor|].
    destruct (book_cancel_order w k (oo_id oo) (oo_side oo) (oo_tree oo) None) as [[w1 l]|e] eqn:Ec.
    + apply bind_ok in H as (tot & _ & H). econstructor; [|eapply IH; exact H].
      eapply ws_cancel; [exact Ea|eapply order_at_in; exact Eo|exact Efr|exact Ec|reflexivity].
    + destruct e; try discriminate H. eapply IH; exact H.
Qed.

Lemma cancel_orders_steps w k limit so co w' q :
  cancel_all_orders w k limit so co = Ok (w', q) -> wsteps (Some k) w 0 0 w' 0 0.
Proof. unfold cancel_all_orders. apply cancel_all_steps. Qed.

Lemma wsteps_shift_one who w db dq w1 db1 dq1 x y : wstep who w db dq w1 db1 dq1 -> wstep who w (db + x) (dq + y) w1 (db1 + x) (dq1 + y).
Proof.
  intros H.
  assert (G : exists b q, wstep who w (db + x) (dq + y) w1 b q /\ b = db1 + x /\ q = dq1 + y).
  { destruct H as [w db dq o oracle taker owner now limit rem w' r Ho Ht Hl Hn H
    |w db dq k a oo ex w' l Ha Hoo Hfr H|w db dq rem slot w' H|w db dq k a bf qf pen bt qt Ha R1 R2 R3 R4 R5
    |w db dq bt qt R1 R2|w db dq k a referred Ha m' R1 R2 R3 R4 R5|w db dq R|w db dq k owner delegate num Hk Hk0
    |w db dq k a d Ha|w db dq]; eexists _, _.
    - split; [eapply (ws_place _ w _ _ o oracle taker owner now limit rem w' r); assumption|clear; split; lia].
    - split; [eapply (ws_cancel _ w _ _ k a oo ex w' l); assumption|clear; split; lia].
    - split; [eapply (ws_consume _ w _ _ rem slot w'); assumption|clear; split; lia].
    - split; [apply (ws_move _ w _ _ k a bf qf pen bt qt); assumption|clear; split; lia].
    - split; [apply (ws_totals _ w _ _ bt qt); assumption|clear; split; lia].
    - split; [apply (ws_settle _ w _ _ k a referred); assumption|clear; split; lia].
    - split; [apply (ws_sweep _ w _ _); assumption|clear; split; lia].
    - split; [apply (ws_create _ w _ _ k owner delegate num); assumption|clear; split; lia].
    - split; [apply (ws_delegate _ w _ _ k a d); assumption|clear; split; lia].
    - split; [apply (ws_expire _ w _ _)|clear; split; lia]. }
  destruct G as (b & q & G & -> & ->). exact G.
Qed.
Lemma wsteps_shift who w db dq w1 db1 dq1 x y : wsteps who w db dq w1 db1 dq1 -> wsteps who w (db + x) (dq + y) w1 (db1 + x) (dq1 + y).
Proof. induction 1; [constructor|]. econstructor; [apply wsteps_shift_one; eassumption|exact IHwsteps]. Qed.
Lemma wsteps_from0 who w w1 db dq : wsteps who w 0 0 w1 0 0 -> wsteps who w db dq w1 db dq.
Proof. intros H. apply (wsteps_shift _ _ _ _ _ _ _ db dq) in H. rewrite !Z.add_0_l in H. exact H. Qed.

Lemma consume_steps who ss : forall w rem w', consume_loop w rem ss = Ok w' -> wsteps who w 0 0 w' 0 0.
Proof.
  induction ss as [|s r IH]; intros w rem w' H; cbn [consume_loop] in H.
  - injection H as <-. constructor.
  - apply bind_ok in H as (w1 & E & H). econstructor; [eapply ws_consume; exact E|eapply IH; exact H].
Qed.

Lemma lock_funds_steps w k s r grew w' d db dq :
  lock_funds w k s r grew = Ok (w', d) ->
  db = (match s with Bid => 0 | Ask => oa_base_taken r + oa_posted_base r end) ->
  dq = (match s with Bid => oa_quote_taken r + oa_posted_quote r + oa_taker_fees r + oa_maker_fees r | Ask => 0 end) ->
  wstep (Some k) w db dq w' 0 0.
Proof.
  intros H Edb Edq. unfold lock_funds in H. apply bind_ok in H as (a & Ea & H). apply acct_load_ok in Ea.
  cbv zeta in H.
  apply bind_ok in H as ([[m' p'] dd] & E & H). apply bind_ok in H as (p'' & E2 & H). injection H as <- <-.
  assert (Hp : exists pen, (u64_ok pen \/ pen = p_penalty (a_pos a)) /\ p'' = p_set_penalty p' pen).
  { destruct grew.
    - apply bind_ok in E2 as (n & E2 & E3). apply chk_u64_ok in E2 as [-> R]. injection E3 as <-. eexists. split; [left; exact R|reflexivity].
    - injection E2 as <-. exists (p_penalty p'). split; [|destruct p'; reflexivity].
      destruct s; repeat (apply bind_ok in E as (? & _ & E)); injection E as _ <- _; right; reflexivity. }
  destruct Hp as (pen & Rpen & ->).
  destruct s.
  - do 3 (let X := fresh in apply bind_ok in E as (? & X & E); apply chk_u64_ok in X as [-> _]).
    apply bind_ok in E as (d1 & X1 & E). apply chk_u64_ok in X1 as [-> X1].
    apply bind_ok in E as (f1 & X2 & E). apply chk_u64_ok in X2 as [-> X2].
    apply bind_ok in E as (t1 & X3 & E). apply chk_u64_ok in X3 as [-> X3]. injection E as <- <- <-.
    set (mx := oa_quote_taken r + oa_posted_quote r + oa_taker_fees r + oa_maker_fees r) in *.
    set (lock := Z.min mx (p_quote_free (a_pos a))) in *.
    pose proof (ws_move _ w db dq k a (p_base_free (a_pos a)) (p_quote_free (a_pos a) - lock) pen
      (m_base_total (w_mkt w)) (m_quote_total (w_mkt w) + (mx - lock)) Ea (or_intror eq_refl) (or_introl X2) Rpen (or_intror eq_refl) (or_introl X3) eq_refl) as G.
    replace (db + (p_base_free (a_pos a) - p_base_free (a_pos a)) - (m_base_total (w_mkt w) - m_base_total (w_mkt w))) with 0 in G by lia.
    replace (dq + (p_quote_free (a_pos a) - lock - p_quote_free (a_pos a)) -
      (m_quote_total (w_mkt w) + (mx - lock) - m_quote_total (w_mkt w))) with 0 in G by lia.
    exact G.
  - do 1 (let X := fresh in apply bind_ok in E as (? & X & E); apply chk_u64_ok in X as [-> _]).
    apply bind_ok in E as (d1 & X1 & E). apply chk_u64_ok in X1 as [-> X1].
    apply bind_ok in E as (f1 & X2 & E). apply chk_u64_ok in X2 as [-> X2].
    apply bind_ok in E as (t1 & X3 & E). apply chk_u64_ok in X3 as [-> X3]. injection E as <- <- <-.
    set (mx := oa_base_taken r + oa_posted_base r) in *.
    set (lock := Z.min mx (p_base_free (a_pos a))) in *.
    pose proof (ws_move _ w db dq k a (p_base_free (a_pos a) - lock) (p_quote_free (a_pos a)) pen
      (m_base_total (w_mkt w) + (mx - lock)) (m_quote_total (w_mkt w)) Ea (or_introl X2) (or_intror eq_refl) Rpen (or_introl X3) (or_intror eq_refl) eq_refl) as G.
    replace (db + (p_base_free (a_pos a) - lock - p_base_free (a_pos a)) -
      (m_base_total (w_mkt w) + (mx - lock) - m_base_total (w_mkt w))) with 0 in G by lia.
    replace (dq + (p_quote_free (a_pos a) - p_quote_free (a_pos a)) - (m_quote_total (w_mkt w) - m_quote_total (w_mkt w))) with 0 in G by lia.
    exact G.
Qed.

Lemma now_u64_ok e now : now_u64 e = Ok now -> 0 <= now.
Proof. unfold now_u64. intros H. apply bind_ok in H as (u & E & H). apply massert_ok in E. injection H as <-. lia. Qed.

Definition params_sane (ps : order_params) : Prop :=
  match ps with
  | OImmediateOrCancel p | OFillOrKill p | OFixed p _ => is_i64 p
  | OOraclePegged _ _ limit => 1 <= limit
  | OMarket => True
  end.

Lemma place_steps e s x o limit s' id : params_sane (o_params o) -> 0 <= limit ->
  place_order_ix e s x o limit = Ok (s', id) -> wsteps (Some (px_acct x)) (s_w s) 0 0 (s_w s') 0 0 /\ s_closed s' = s_closed s.
Proof.
  intros Hp Hl H. unfold place_order_ix in H.
  apply bind_ok in H as (u1 & E1 & H). apply require_ok in E1. apply bind_ok in H as (u2 & E2 & H). apply require_ok in E2.
  cbv zeta in H. apply bind_ok in H as (u3 & _ & H). apply bind_ok in H as (u4 & _ & H).
  apply bind_ok in H as (now & En & H). apply now_u64_ok in En. apply bind_ok in H as (oracle & _ & H).
  apply bind_ok in H as ([w1 r] & Eo & H). apply bind_ok in H as ([w2 d] & Ek & H).
  apply bind_ok in H as (t & _ & H). injection H as <- _. cbn [s_w s_closed]. split; [|reflexivity].
  econstructor.
  - eapply (ws_place _ _ 0 0 o); [constructor; [lia|lia|exact Hp]|left; reflexivity|exact Hl|exact En|exact Eo|reflexivity].
  - eapply wsteps_one; [|reflexivity|reflexivity]. eapply lock_funds_steps; [exact Ek| |]; unfold owed_base, owed_quote; destruct (o_side o); lia.
Qed.

Lemma order_of_args_sane now g o : in_i64 (pa_price g) = true -> order_of_args now g = Ok (Some o) -> params_sane (o_params o).
Proof.
  intros Hi H. unfold order_of_args in H. apply bind_ok in H as (u & E & H). apply require_ok in E.
  destruct (tif_from_expiry now (pa_expiry g)); [|discriminate H]. apply bind_ok in H as (ps & E2 & H). injection H as <-.
  cbn [o_params]. unfold in_i64, in_range, i64_min, i64_max in Hi.
  unfold params_of in E2. destruct (pa_type g); cbn in E2; try (injection E2 as <-); cbn; unfold is_i64; try exact I; change (2 ^ 63) with 9223372036854775808; lia.
Qed.
Lemma order_of_peg_sane m now g o : order_of_peg_args m now g = Ok (Some o) -> params_sane (o_params o).
Proof.
  intros H. unfold order_of_peg_args in H. apply bind_ok in H as (u & E & H). apply bind_ok in H as (u2 & E2 & H). apply require_ok in E2.
  destruct (tif_from_expiry now (ga_expiry g)); [|discriminate H]. apply bind_ok in H as (pt & _ & H). injection H as <-.
  cbn [o_params params_sane]. lia.
Qed.
Lemma order_of_take_sane g o : in_i64 (ta_price g) = true -> order_of_take_args g = Ok o -> params_sane (o_params o).
Proof.
  intros Hi H. unfold order_of_take_args in H. apply bind_ok in H as (u & E & H).
  apply bind_ok in H as (ps & E2 & H). injection H as <-.
  cbn [o_params]. unfold in_i64, in_range, i64_min, i64_max in Hi.
  destruct (ta_type g); cbn in E2; try (injection E2 as <-); try discriminate E2; cbn; unfold is_i64; try exact I; change (2 ^ 63) with 9223372036854775808; lia.
Qed.

Lemma edit_steps e s x cid expected o limit s' id : params_sane (o_params o) -> 0 <= limit ->
  edit_order_ix e s x cid expected o limit = Ok (s', id) -> wsteps (Some (px_acct x)) (s_w s) 0 0 (s_w s') 0 0 /\ s_closed s' = s_closed s.
Proof.
  intros Hp Hl H. unfold edit_order_ix in H. apply bind_ok in H as (u1 & _ & H). apply bind_ok in H as ([w q] & E & H).
  apply cancel_orders_steps in E. cbv zeta in H. apply bind_ok in H as (f & _ & H).
  match type of H with (if ?c then _ else _) = _ => destruct c end.
  - apply bind_ok in H as (mb & _ & H). apply place_steps in H as [H Hc]; [|exact Hp|exact Hl]. split; [|exact Hc].
    eapply wsteps_trans; [exact E|exact H].
  - injection H as <- _. split; [exact E|reflexivity].
Qed.

Lemma take_steps e s x o limit s' : params_sane (o_params o) -> 0 <= limit ->
  place_take_ix e s x o limit = Ok s' -> wsteps (None) (s_w s) 0 0 (s_w s') 0 0 /\ s_closed s' = s_closed s.
Proof.
  intros Hp Hl H. unfold place_take_ix in H.
  apply bind_ok in H as (u1 & E1 & H). apply require_ok in E1. apply bind_ok in H as (u2 & E2 & H). apply require_ok in E2.
  cbv zeta in H. apply bind_ok in H as (u3 & _ & H).
  apply bind_ok in H as (now & En & H). apply now_u64_ok in En. apply bind_ok in H as (oracle & _ & H).
  apply bind_ok in H as (u5 & E5 & H). apply require_ok in E5.
  apply bind_ok in H as ([w1 r] & Eo & H). apply bind_ok in H as (reb & Er & H). apply chk_u64_ok in Er as [-> Er].
  assert (Hn : acct_get (tx_signer x) (w_accts (s_w s)) = None) by (destruct (acct_get (tx_signer x) (w_accts (s_w s))); [discriminate E5|reflexivity]).
  assert (G : wstep (None) (s_w s) 0 0 w1 (0 + owed_base o None r) (0 + owed_quote o None r)).
  { eapply (ws_place _ _ 0 0 o); [constructor; [lia|lia|exact Hp]|right; split; [reflexivity|exact Hn]|exact Hl|exact En|exact Eo|reflexivity]. }
  destruct (o_side o) eqn:Es.
  - apply bind_ok in H as (q & X1 & H). apply chk_u64_ok in X1 as [-> X1].
    apply bind_ok in H as (bt & X2 & H). apply chk_u64_ok in X2 as [-> X2].
    apply bind_ok in H as (qt & X3 & H). apply chk_u64_ok in X3 as [-> X3].
    apply bind_ok in H as (t1 & _ & H). apply bind_ok in H as (t2 & _ & H). injection H as <-. cbn [s_w s_closed]. split; [|reflexivity].
    econstructor; [exact G|]. eapply wsteps_one; [apply ws_totals; [exact X2|exact X3]| |]; unfold owed_base, owed_quote; rewrite Es; lia.
  - apply bind_ok in H as (q & X1 & H). apply chk_u64_ok in X1 as [-> X1].
    apply bind_ok in H as (bt & X2 & H). apply chk_u64_ok in X2 as [-> X2].
    apply bind_ok in H as (qt & X3 & H). apply chk_u64_ok in X3 as [-> X3].
    apply bind_ok in H as (t1 & _ & H). apply bind_ok in H as (t2 & _ & H). injection H as <-. cbn [s_w s_closed]. split; [|reflexivity].
    econstructor; [exact G|]. eapply wsteps_one; [apply ws_totals; [exact X2|exact X3]| |]; unfold owed_base, owed_quote; rewrite Es; lia.
Qed.

Lemma max_lots_nonneg lot lam v : 1 <= lot <= 9223372036854775807 -> 0 <= lam -> max_lots_from_lamports lot lam = Ok v -> 0 <= v.
Proof.
  intros Hl Hm H. unfold max_lots_from_lamports in H. apply bind_ok in H as (cap & E & H). apply div_i64_ok in E as (_ & -> & _).
  apply bind_ok in H as (u & _ & H). apply chk_i64_ok in H as [-> _].
  assert (0 <= Z.quot i64_max lot <= 9223372036854775807).
  { unfold i64_max. rewrite quot_nonneg by lia. split; [apply Z.div_pos; lia|]. apply Z.div_le_upper_bound; nia. }
  rewrite (as_u64_id lot) by lia. rewrite as_u64_id by lia.
  pose proof (Z.div_pos lam lot Hm ltac:(lia)). lia.
Qed.
Lemma max_base_lots_nonneg m v : cfg_sound (m_cfg m) -> max_base_lots m = Ok v -> 0 <= v.
Proof.
  intros Hc H. unfold max_base_lots in H. apply div_i64_ok in H as (_ & -> & _). unfold i64_max.
  pose proof (cs_bls _ Hc) as B. unfold bls, i64_max in *. rewrite quot_nonneg by lia. apply Z.div_pos; lia.
Qed.

Lemma multi_one_place w x ub uq oracle now limit o ba qa w' ba' qa' id :
  world_sound w -> params_sane (o_params o) ->
  multi_one w x ub uq oracle now limit o ba qa = Ok (w', ba', qa', id) ->
  exists o' r, sane_order o' /\ o_side o' = o_side o /\
    new_order w o' oracle (Some (mx_acct x)) (mx_acct x) now limit (mx_rem x) = Ok (w', r) /\ id = oa_order_id r /\
    ba' = ba + owed_base o' (Some (mx_acct x)) r /\ qa' = qa + owed_quote o' (Some (mx_acct x)) r.
Proof.
  intros [Hc Hs] Hp H. unfold multi_one in H.
  apply bind_ok in H as (capb & E1 & H). apply max_base_lots_nonneg in E1; [|exact Hc].
  apply bind_ok in H as (u2 & E2 & H). apply require_ok in E2.
  apply bind_ok in H as (a & Ea & H). apply bind_ok in H as (o' & Eo & H).
  pose proof (cs_bls _ Hc) as B1. pose proof (cs_qls _ Hc) as B2. unfold i64_max in B1, B2.
  assert (G : sane_order o' /\ o_side o' = o_side o).
  { destruct (o_side o) eqn:Es.
    - apply bind_ok in Eo as (y & X & Eo). apply bind_ok in Eo as (av & X1 & Eo). apply chk_u64_ok in X1 as [-> X1].
      apply bind_ok in Eo as (l & X2 & Eo). apply max_lots_nonneg in X2; [|exact B2|lia]. injection Eo as <-.
      split; [constructor; cbn [o_max_base o_max_quote o_params]; [lia|lia|exact Hp]|first [reflexivity|exact Es]].
    - apply bind_ok in Eo as (y & X & Eo). apply bind_ok in Eo as (av & X1 & Eo). apply chk_u64_ok in X1 as [-> X1].
      apply bind_ok in Eo as (l & X2 & Eo). apply max_lots_nonneg in X2; [|exact B1|lia]. injection Eo as <-.
      split; [constructor; cbn [o_set_max_base o_max_base o_max_quote o_params]; [lia|lia|exact Hp]|exact Es]. }
  destruct G as [Go Es']. apply bind_ok in H as ([w1 r] & En & H).
  exists o', r.
  destruct (o_side o) eqn:Es.
  - do 3 (let X := fresh in apply bind_ok in H as (? & X & H); apply chk_u64_ok in X as [-> ?]).
    apply bind_ok in H as (u5 & X & H). apply require_ok in X. injection H as <- <- <- <-.
    unfold owed_base, owed_quote. rewrite Es', Z.add_0_r. auto 10.
  - apply bind_ok in H as (x1 & X & H). apply chk_u64_ok in X as [-> _].
    apply bind_ok in H as (u5 & X & H). injection H as <- <- <- <-.
    unfold owed_base, owed_quote. rewrite Es', Z.add_0_r. auto 10.
Qed.

Lemma multi_one_steps w x ub uq oracle now limit o ba qa w' ba' qa' id :
  world_sound w -> params_sane (o_params o) -> 0 <= limit -> 0 <= now ->
  multi_one w x ub uq oracle now limit o ba qa = Ok (w', ba', qa', id) ->
  wstep (Some (mx_acct x)) w ba qa w' ba' qa'.
Proof.
  intros Hs Hp Hl Hn H. destruct (multi_one_place _ _ _ _ _ _ _ _ _ _ _ _ _ _ Hs Hp H) as (o' & r & Go & _ & En & _ & -> & ->).
  exact (ws_place _ w ba qa o' oracle (Some (mx_acct x)) (mx_acct x) now limit (mx_rem x) w' r Go (or_introl eq_refl) Hl Hn En eq_refl).
Qed.

Lemma multi_loop_steps os : forall w x ub uq oracle now limit ba qa w' ba' qa' ids,
  world_sound w -> Forall (fun o => params_sane (o_params o)) os -> 0 <= limit -> 0 <= now ->
  multi_loop w x ub uq oracle now limit os ba qa = Ok (w', ba', qa', ids) -> wsteps (Some (mx_acct x)) w ba qa w' ba' qa'.
Proof.
  induction os as [|o r IH]; intros w x ub uq oracle now limit ba qa w' ba' qa' ids Hs Ho Hl Hn H; cbn [multi_loop] in H.
  - injection H as <- <- <- _. constructor.
  - apply bind_ok in H as ([[[w1 b1] q1] i1] & E & H). inversion Ho as [|o0 r0 Ho1 Ho2]; subst.
    apply multi_one_steps in E; [|exact Hs|exact Ho1|exact Hl|exact Hn].
    apply bind_ok in H as ([[[w2 b2] q2] i2] & E2 & H). injection H as <- <- <- _.
    econstructor; [exact E|]. eapply IH; [eapply wstep_sound; [exact E|exact Hs]|exact Ho2|exact Hl|exact Hn|exact E2].
Qed.

Lemma multi_steps e s x cancel os limit s' ids : world_sound (s_w s) ->
  Forall (fun o => params_sane (o_params o)) os -> 0 <= limit ->
  multi_ix e s x cancel os limit = Ok (s', ids) -> wsteps (Some (mx_acct x)) (s_w s) 0 0 (s_w s') 0 0 /\ s_closed s' = s_closed s.
Proof.
  intros Hs Ho Hl H. unfold multi_ix in H. cbv zeta in H. apply bind_ok in H as (u1 & _ & H).
  apply bind_ok in H as (now & En & H). apply now_u64_ok in En. apply bind_ok in H as (oracle & _ & H).
  apply bind_ok in H as (w0 & E0 & H).
  assert (S0 : wsteps (Some (mx_acct x)) (s_w s) 0 0 w0 0 0).
  { destruct cancel; [|injection E0 as <-; constructor]. apply bind_ok in E0 as ([w' q] & E1 & E0). injection E0 as <-.
    eapply cancel_orders_steps. exact E1. }
  apply bind_ok in H as (ub & _ & H). apply bind_ok in H as (uq & _ & H).
  apply bind_ok in H as ([[[w1 ba] qa] is] & E1 & H).
  apply multi_loop_steps in E1; [|eapply wsteps_sound; [exact S0|exact Hs]|exact Ho|exact Hl|exact En].
  apply bind_ok in H as (a & Ea & H). apply acct_load_ok in Ea.
  apply bind_ok in H as (db & X1 & H). apply chk_u64_ok in X1 as [-> X1].
  apply bind_ok in H as (dq & X2 & H). apply chk_u64_ok in X2 as [-> X2].
  apply bind_ok in H as (fb & X3 & H). apply chk_u64_ok in X3 as [-> X3].
  apply bind_ok in H as (fq & X4 & H). apply chk_u64_ok in X4 as [-> X4].
  apply bind_ok in H as (bt & X5 & H). apply chk_u64_ok in X5 as [-> X5].
  apply bind_ok in H as (qt & X6 & H). apply chk_u64_ok in X6 as [-> X6].
  apply bind_ok in H as (p2 & E2 & H). apply bind_ok in H as (t1 & _ & H). apply bind_ok in H as (t2 & _ & H). injection H as <- _.
  cbn [s_w s_closed]. split; [|reflexivity].
  eapply wsteps_trans; [exact S0|]. eapply wsteps_trans; [exact E1|].
  set (lb := Z.min ba (p_base_free (a_pos a))) in *. set (lq := Z.min qa (p_quote_free (a_pos a))) in *.
  set (p1 := p_set_quote_free (p_set_base_free (a_pos a) (p_base_free (a_pos a) - lb)) (p_quote_free (a_pos a) - lq)) in *.
  assert (Hp : exists pen, (u64_ok pen \/ pen = p_penalty (a_pos a)) /\ p2 = p_set_penalty p1 pen).
  { match type of E2 with (if ?c then _ else _) = _ => destruct c end.
    - apply bind_ok in E2 as (n & E2 & E3). apply chk_u64_ok in E2 as [-> R]. injection E3 as <-. eexists. split; [left; exact R|reflexivity].
    - injection E2 as <-. exists (p_penalty (a_pos a)). split; [right; reflexivity|reflexivity]. }
  destruct Hp as (pen & Rpen & ->).
  eapply wsteps_one; [apply (ws_move _ w1 ba qa (mx_acct x) a (p_base_free (a_pos a) - lb) (p_quote_free (a_pos a) - lq) pen _ _ Ea
    (or_introl X3) (or_introl X4) Rpen (or_introl X5) (or_introl X6) eq_refl)| |]; lia.
Qed.

Lemma orders_of_multi_sane now t sd l : forall i os,
  forallb (fun g => in_i64 (ua_price g) && in_i64 (ua_max_quote g) && in_u64 (ua_expiry g)) l = true ->
  orders_of_multi now t sd i l = Ok os -> Forall (fun o => params_sane (o_params o)) os.
Proof.
  induction l as [|g r IH]; intros i os Hb H; cbn [orders_of_multi] in H.
  - injection H as <-. constructor.
  - cbn [forallb] in Hb. apply andb_prop in Hb as [Hb Hr]. apply bind_ok in H as (u & _ & H).
    destruct (tif_from_expiry now (ua_expiry g)); [|eapply IH; eassumption].
    apply bind_ok in H as (ps & E & H). apply bind_ok in H as (rest & E2 & H). injection H as <-.
    constructor; [|eapply IH; eassumption]. cbn [o_params].
    unfold in_i64, in_range, i64_min, i64_max in Hb.
    unfold params_of in E. destruct t; cbn in E; try (injection E as <-); cbn; unfold is_i64; try exact I; change (2 ^ 63) with 9223372036854775808; lia.
Qed.

Lemma deposit_steps e s signer k ub uq base quote s' : deposit_ix e s signer k ub uq base quote = Ok s' ->
  wsteps (Some k) (s_w s) 0 0 (s_w s') 0 0 /\ s_closed s' = s_closed s.
Proof.
  intros H. unfold deposit_ix in H. cbv zeta in H. apply bind_ok in H as (u1 & _ & H). apply bind_ok in H as (u2 & _ & H).
  apply bind_ok in H as (a & Ea & H). apply acct_load_ok in Ea. apply bind_ok in H as (u3 & _ & H). apply bind_ok in H as (t1 & _ & H).
  apply bind_ok in H as (bf & X1 & H). apply chk_u64_ok in X1 as [-> X1].
  apply bind_ok in H as (bt & X2 & H). apply chk_u64_ok in X2 as [-> X2].
  apply bind_ok in H as (t2 & _ & H).
  apply bind_ok in H as (qf & X3 & H). apply chk_u64_ok in X3 as [-> X3].
  apply bind_ok in H as (qt & X4 & H). apply chk_u64_ok in X4 as [-> X4]. injection H as <-. cbn [s_w s_closed]. split; [|reflexivity].
  eapply wsteps_one; [apply (ws_move _ (s_w s) 0 0 k a _ _ (p_penalty (a_pos a)) _ _ Ea
    (or_introl X1) (or_introl X3) (or_intror eq_refl) (or_introl X2) (or_introl X4) eq_refl)| |]; lia.
Qed.

Lemma settle_steps s k ub uq ref s' : settle_core s k ub uq ref = Ok s' ->
  wsteps (Some k) (s_w s) 0 0 (s_w s') 0 0 /\ s_closed s' = s_closed s.
Proof.
  intros H. unfold settle_core in H. cbv zeta in H. apply bind_ok in H as (a & Ea & H). apply acct_load_ok in Ea.
  fold (round_now (w_mkt (s_w s)) (a_pos a)) in H. fold (round_off (w_mkt (s_w s)) (a_pos a)) in H.
  apply bind_ok in H as (reb & X1 & H). apply chk_u64_ok in X1 as [Er X1].
  assert (E1 : p_rebates (if round_now (w_mkt (s_w s)) (a_pos a) then p_set_locked_fees (a_pos a) 0 else a_pos a) = p_rebates (a_pos a))
    by (destruct (round_now _ _); reflexivity).
  assert (E2 : p_base_free (if round_now (w_mkt (s_w s)) (a_pos a) then p_set_locked_fees (a_pos a) 0 else a_pos a) = p_base_free (a_pos a))
    by (destruct (round_now _ _); reflexivity).
  assert (E3 : p_quote_free (if round_now (w_mkt (s_w s)) (a_pos a) then p_set_locked_fees (a_pos a) 0 else a_pos a) = p_quote_free (a_pos a))
    by (destruct (round_now _ _); reflexivity).
  rewrite E1 in *. rewrite E2, E3 in H.
  apply bind_ok in H as (m1 & X2 & H).
  apply bind_ok in H as (bt & X3 & H). apply chk_u64_ok in X3 as [-> X3].
  apply bind_ok in H as (qt & X4 & H). apply chk_u64_ok in X4 as [-> X4].
  apply bind_ok in H as (ra & X5 & H). apply chk_u64_ok in X5 as [-> X5].
  apply bind_ok in H as (u & _ & H). apply bind_ok in H as (t0 & _ & H). apply bind_ok in H as (t1 & _ & H).
  apply bind_ok in H as (t2 & _ & H). injection H as <-. cbn [s_w s_closed]. split; [|reflexivity].
  set (p := a_pos a) in *. set (m := w_mkt (s_w s)) in *.
  set (referred := match ref with Some _ => true | None => false end).
  assert (G : m_set_rebates_accrued (m_set_quote_total (m_set_base_total m1 (m_base_total m1 - p_base_free p)) (m_quote_total m1 - p_quote_free p))
      (m_rebates_accrued m1 - p_rebates p) = settled_mkt m p referred /\
    (u128_ok (m_fees_to_referrers (settled_mkt m p referred)) \/ referred = false) /\
    (u64_ok (m_fees_available (settled_mkt m p referred)) \/ referred = true)).
  { destruct ref as [rf|].
    - apply bind_ok in X2 as (f & Y1 & X2). apply chk_u128_ok in Y1 as [-> Y1].
      apply bind_ok in X2 as (q & Y2 & X2). apply chk_u64_ok in Y2 as [-> Y2]. injection X2 as <-.
      subst referred. rewrite Er. unfold settled_mkt. cbv zeta. split; [|split; [left; rewrite Er in Y1; exact Y1|right; reflexivity]].
      set (rb := p_rebates p + round_off m p). replace (m_quote_total m - p_quote_free p - rb) with (m_quote_total m - rb - p_quote_free p) by lia.
      reflexivity.
    - apply bind_ok in X2 as (f & Y1 & X2). apply chk_u64_ok in Y1 as [-> Y1]. injection X2 as <-.
      subst referred. rewrite Er. unfold settled_mkt. cbv zeta. split; [|split; [right; reflexivity|left; rewrite Er in Y1; exact Y1]].
      rewrite Z.sub_0_r. reflexivity. }
  destruct G as (G1 & G2 & G3). rewrite G1.
  pose proof (ws_settle (Some k) (s_w s) 0 0 k a referred Ea) as G. cbv zeta in G. fold m p in G.
  specialize (G G2).
  eapply wsteps_one; [|reflexivity|reflexivity].
  replace (p_set_rebates _ 0) with (settled_pos m p).
  - apply G; [|exact G3| | |reflexivity]; rewrite <- G1; assumption.
  - unfold settled_pos. destruct (round_now m p); reflexivity.
Qed.

Lemma check_place_ok g u : check_place_args g = Ok u -> in_i64 (pa_price g) = true /\ 0 <= pa_limit g.
Proof.
  unfold check_place_args. intros H. apply bind_ok in H as (u1 & E & H). apply require_ok in E.
  do 4 (apply bind_ok in H as (? & _ & H)). apply require_ok in H. unfold in_range in H. split; [exact E|lia].
Qed.
Lemma check_peg_ok g u : check_peg_args g = Ok u -> 0 <= ga_limit g.
Proof.
  unfold check_peg_args. intros H. do 6 (apply bind_ok in H as (? & _ & H)). apply require_ok in H. unfold in_range in H. lia.
Qed.
Lemma check_take_ok g u : check_take_args g = Ok u -> in_i64 (ta_price g) = true /\ 0 <= ta_limit g.
Proof.
  unfold check_take_args. intros H. apply bind_ok in H as (u1 & E & H). apply require_ok in E.
  do 2 (apply bind_ok in H as (? & _ & H)). apply require_ok in H. unfold in_range in H. split; [exact E|lia].
Qed.
Lemma u8_arg_ok z u : u8_arg z = Ok u -> 0 <= z.
Proof. intros H. apply require_ok in H. unfold in_range in H. lia. Qed.

Lemma exec_steps e s i s' out : world_sound (s_w s) -> exec e s i = Ok (s', out) ->
  match i with
  | ICloseAccount _ k => exists a, closes (s_w s) (s_w s') k a
  | _ => wsteps (actor i) (s_w s) 0 0 (s_w s') 0 0
  end.
Proof.
  intros Hs H. unfold exec in H. destruct (s_closed s && needs_market i); [discriminate H|].
  unfold exec_open in H. cbv zeta in H.
  destruct i as [x g|x g|x cid ex g|x cid ex g|x g|x cancel t bids asks limit|signer k id|signer k cid|signer k sd limit
    |admin limit rem|admin slots rem|signer k ub uq base quote|signer k ub uq base quote|signer k ub uq ref|admin k ub uq ref
    |signer receiver|k owner delegate num|signer k|signer k delegate|signer|signer k limit|signer|auth from to amount|to amount|k mint owner|auth k owner|auth k amount|auth k].
  - apply bind_ok in H as (u1 & E1 & H). apply bind_ok in H as (u2 & _ & H). apply bind_ok in H as (now & _ & H).
    apply bind_ok in H as (oo & Eo & H). destruct oo as [o|]; [|injection H as <- _; constructor].
    unfold lift_id in H. apply bind_ok in H as ([s1 id] & E & H). injection H as <- _.
    apply check_place_ok in E1 as [E1 E2]. eapply place_steps; [eapply order_of_args_sane; eassumption|exact E2|exact E].
  - apply bind_ok in H as (u1 & E1 & H). apply bind_ok in H as (u2 & _ & H). apply bind_ok in H as (now & _ & H).
    apply bind_ok in H as (oo & Eo & H). destruct oo as [o|]; [|injection H as <- _; constructor].
    unfold lift_id in H. apply bind_ok in H as ([s1 id] & E & H). injection H as <- _.
    apply check_peg_ok in E1. eapply place_steps; [eapply order_of_peg_sane; eassumption|exact E1|exact E].
  - apply bind_ok in H as (u1 & E1 & H). apply bind_ok in H as (u2 & _ & H). apply bind_ok in H as (u3 & _ & H).
    apply bind_ok in H as (u4 & _ & H). apply bind_ok in H as (now & _ & H).
    apply bind_ok in H as (oo & Eo & H). destruct oo as [o|]; [|injection H as <- _; constructor].
    unfold lift_id in H. apply bind_ok in H as ([s1 id] & E & H). injection H as <- _.
    apply check_place_ok in E1 as [E1 E2]. eapply edit_steps; [eapply order_of_args_sane; eassumption|exact E2|exact E].
  - apply bind_ok in H as (u1 & E1 & H). apply bind_ok in H as (u2 & _ & H). apply bind_ok in H as (u3 & _ & H).
    apply bind_ok in H as (u4 & _ & H). apply bind_ok in H as (now & _ & H).
    apply bind_ok in H as (oo & Eo & H). destruct oo as [o|]; [|injection H as <- _; constructor].
    unfold lift_id in H. apply bind_ok in H as ([s1 id] & E & H). injection H as <- _.
    apply check_peg_ok in E1. eapply edit_steps; [eapply order_of_peg_sane; eassumption|exact E1|exact E].
  - apply bind_ok in H as (u1 & E1 & H). apply bind_ok in H as (u2 & _ & H). apply bind_ok in H as (u3 & _ & H).
    apply bind_ok in H as (o & Eo & H). unfold lift_s in H. apply bind_ok in H as (s1 & E & H). injection H as <- _.
    apply check_take_ok in E1 as [E1 E2]. eapply take_steps; [eapply order_of_take_sane; eassumption|exact E2|exact E].
  - apply bind_ok in H as (u1 & E1 & H). apply require_ok in E1. apply bind_ok in H as (u2 & E2 & H). apply u8_arg_ok in E2.
    apply bind_ok in H as (u3 & _ & H). apply bind_ok in H as (u4 & _ & H). apply bind_ok in H as (now & _ & H).
    apply bind_ok in H as (bo & B1 & H). apply bind_ok in H as (ao & B2 & H). apply bind_ok in H as ([s1 ids] & E & H). injection H as <- _.
    rewrite forallb_app in E1. apply andb_prop in E1 as [F1 F2].
    eapply multi_steps; [exact Hs| |exact E2|exact E]. apply Forall_app. split; [exact (orders_of_multi_sane _ _ _ _ _ _ F1 B1)|exact (orders_of_multi_sane _ _ _ _ _ _ F2 B2)].
  - unfold lift_w in H. apply bind_ok in H as (w & E & H). injection H as <- _. cbn [s_set_w s_w].
    unfold cancel_order_ix in E. apply bind_ok in E as (a & Ea & E). apply acct_load_ok in Ea.
    apply bind_ok in E as (u1 & _ & E). apply bind_ok in E as (u2 & _ & E).
    destruct (find_order_with_order_id a id) as [oo|] eqn:Ef; [|discriminate E].
    apply bind_ok in E as ([w1 l] & Ec & E). injection E as <-. unfold find_order_with_order_id in Ef. apply find_some in Ef as [F1 F2].
    eapply wsteps_one; [|reflexivity|reflexivity]. eapply ws_cancel; [exact Ea|exact F1| |exact Ec|reflexivity].
    apply andb_prop in F2 as [F2 _]. destruct (oo_free oo); [discriminate F2|reflexivity].
  - apply bind_ok in H as (u1 & _ & H). apply bind_ok in H as (u2 & _ & H). apply bind_ok in H as ([w q] & E & H). injection H as <- _.
    eapply cancel_orders_steps. exact E.
  - apply bind_ok in H as (u1 & _ & H). apply bind_ok in H as (u2 & _ & H). apply bind_ok in H as ([w q] & E & H). injection H as <- _.
    eapply cancel_orders_steps. exact E.
  - apply bind_ok in H as (u1 & _ & H). apply bind_ok in H as (u2 & _ & H). unfold lift_w in H.
    apply bind_ok in H as (w & E & H). injection H as <- _. unfold consume_events_ix in E. apply bind_ok in E as (ss & _ & E).
    eapply consume_steps. exact E.
  - apply bind_ok in H as (u1 & _ & H). apply bind_ok in H as (u2 & _ & H). unfold lift_w in H.
    apply bind_ok in H as (w & E & H). injection H as <- _. unfold consume_events_ix in E. apply bind_ok in E as (ss & _ & E).
    eapply consume_steps. exact E.
  - apply bind_ok in H as (u1 & _ & H). apply bind_ok in H as (u2 & _ & H). apply bind_ok in H as (u3 & _ & H).
    unfold lift_s in H. apply bind_ok in H as (s1 & E & H). injection H as <- _. eapply deposit_steps. exact E.
  - apply bind_ok in H as (u1 & _ & H). apply bind_ok in H as (u2 & _ & H). apply bind_ok in H as (u3 & _ & H).
    unfold lift_s in H. apply bind_ok in H as (s1 & E & H). injection H as <- _. unfold refill_ix in E.
    apply bind_ok in E as (a & _ & E). apply bind_ok in E as (q & _ & E). apply bind_ok in E as (b & _ & E). eapply deposit_steps. exact E.
  - unfold lift_s in H. apply bind_ok in H as (s1 & E & H). injection H as <- _. unfold settle_funds_ix in E.
    do 7 (apply bind_ok in E as (? & _ & E)). eapply settle_steps. exact E.
  - unfold lift_s in H. apply bind_ok in H as (s1 & E & H). injection H as <- _. unfold settle_funds_expired_ix in E.
    do 8 (apply bind_ok in E as (? & _ & E)). eapply settle_steps. exact E.
  - unfold lift_s in H. apply bind_ok in H as (s1 & E & H). injection H as <- _. unfold sweep_fees_ix in E. cbv zeta in E.
    apply bind_ok in E as (u1 & _ & E). apply bind_ok in E as (u2 & _ & E). apply bind_ok in E as (q & X & E). apply chk_u64_ok in X as [-> X].
    apply bind_ok in E as (t & _ & E). injection E as <-. eapply wsteps_one; [apply ws_sweep; exact X|reflexivity|reflexivity].
  - unfold lift_w in H. apply bind_ok in H as (w & E & H). injection H as <- _. unfold create_account_ix in E.
    apply bind_ok in E as (u1 & E1 & E). apply require_ok in E1. apply bind_ok in E as (u2 & E2 & E). apply require_ok in E2. injection E as <-.
    eapply wsteps_one; [apply ws_create|reflexivity|reflexivity]; [|lia|reflexivity].
    destruct (acct_get k (w_accts (s_w s))); [discriminate E1|reflexivity].
  - unfold lift_w in H. apply bind_ok in H as (w & E & H). injection H as <- _. unfold close_account_ix in E.
    apply bind_ok in E as (a & Ea & E). apply acct_load_ok in Ea. apply bind_ok in E as (u1 & _ & E).
    apply bind_ok in E as (u2 & E2 & E). apply require_ok in E2. injection E as <-.
    exists a. split; [exact Ea|]. split; [exact E2|reflexivity].
  - unfold lift_w in H. apply bind_ok in H as (w & E & H). injection H as <- _. unfold set_delegate_ix in E.
    apply bind_ok in E as (a & Ea & E). apply acct_load_ok in Ea. apply bind_ok in E as (u1 & _ & E). injection E as <-.
    eapply wsteps_one; [apply ws_delegate; [exact Ea|reflexivity]|reflexivity|reflexivity].
  - unfold lift_w in H. apply bind_ok in H as (w & E & H). injection H as <- _. unfold set_market_expired_ix in E.
    apply bind_ok in E as (u1 & _ & E). apply bind_ok in E as (u2 & _ & E). injection E as <-.
    eapply wsteps_one; [apply ws_expire|reflexivity|reflexivity].
  - apply bind_ok in H as (u1 & _ & H). unfold lift_w in H. apply bind_ok in H as (w & E & H). injection H as <- _. unfold prune_orders_ix in E.
    apply bind_ok in E as (u2 & _ & E). apply bind_ok in E as (u3 & _ & E). apply bind_ok in E as (u4 & _ & E).
    apply bind_ok in E as ([w1 q] & E1 & E). injection E as <-. eapply cancel_orders_steps. exact E1.
  - apply bind_ok in H as (u1 & _ & H). injection H as <- _. constructor.
  - apply bind_ok in H as (u1 & _ & H). apply bind_ok in H as (t & _ & H). injection H as <- _. constructor.
  - apply bind_ok in H as (u1 & _ & H). apply bind_ok in H as (t & _ & H). apply bind_ok in H as (u2 & _ & H). injection H as <- _. constructor.
  - apply bind_ok in H as (u1 & _ & H). injection H as <- _. constructor.
  - do 3 (apply bind_ok in H as (? & _ & H)). injection H as <- _. constructor.
  - do 5 (apply bind_ok in H as (? & _ & H)). injection H as <- _. constructor.
  - do 4 (apply bind_ok in H as (? & _ & H)). injection H as <- _. constructor.
Qed.

(** ** Reachable systems *)
Lemma create_sound now t c te s : create_market_ix now t c te = Ok s -> world_sound (s_w s).
Proof.
  intros H. unfold create_market_ix in H. apply bind_ok in H as (u & E & H). unfold create_market_checks in E.
  apply bind_ok in E as (u1 & E1 & E). apply bind_ok in E as (u2 & E2 & E). apply bind_ok in E as (u3 & E3 & E).
  apply bind_ok in E as (u4 & _ & E). apply bind_ok in E as (u5 & E5 & E). apply bind_ok in E as (u6 & E6 & E). clear E.
  apply require_ok in E1, E2, E3, E5, E6.
  apply bind_ok in H as (v1 & V1 & H). apply bind_ok in H as (v2 & V2 & H). apply bind_ok in H as (v3 & _ & H).
  apply require_ok in V1, V2. unfold in_i64, in_range, i64_max in V1, V2.
  repeat (apply bind_ok in H as (? & _ & H)). injection H as <-. split.
  - cbn [s_w w_mkt m_cfg]. constructor; unfold i64_max; lia.
  - intros sd. split.
    + destruct sd; apply br_init.
    + intros t0 L l HL Hl. exfalso.
      destruct (book_reach_ok sd (w_book (mkWorld (mkMarket c te 0 0 0 0 0 0 0 0 0) (bookside_init Bid) (bookside_init Ask) heap_init []) sd))
        as (T & Hok & _ & _); [destruct sd; apply br_init|].
      cbn [s_w] in HL.
      assert (EL : L = []) by (destruct sd, t0; destruct HL as (items & E & <-); vm_compute in E; injection E as <-; reflexivity).
      subst L. exact Hl.
Qed.

Theorem reachable_sound s : reachable s -> world_sound (s_w s).
Proof.
  induction 1 as [now t c te s H|e s i s' out _ IH H]; [eapply create_sound; exact H|].
  pose proof (exec_steps _ _ _ _ _ IH H) as E.
  destruct i; try (eapply wsteps_sound; [exact E|exact IH]).
  destruct E as (a & _ & _ & ->). eapply world_sound_same; [exact IH|reflexivity|cbn; lia|]. intros []; reflexivity.
Qed.
