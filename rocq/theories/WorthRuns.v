(** Placing an order, as the account of somebody else sees it. *)
From Coq Require Import ZArith List Bool Lia ZifyBool Permutation.
From Verif Require Import Base Nodes OrderTree BookSide Heap Market OpenOrders Order Book Instructions
  BaseFacts NodesFacts HeapFacts TreeRep TreeFacts TreeOps TreeIter BookSideFacts BookSideOrder BookSpecProofs SpecBook SpecFees SpecHeap
  HeapSpecProofs FeeFacts SpecOrder MatchFacts MatchBook OrderFacts PlaceFacts OrderSpecProofs OrderClaims Steps StepFacts
  SpecLedger SpecEvents Ledger LedgerOps LedgerMoves LedgerPlace LedgerOrder LedgerInv SpecSystem SystemFacts ConsumeFacts
  TradeFacts SpecExit ExitFacts DeferFacts DeferOrder SpecWorth WorthFacts WorthSteps.
Import ListNotations.
Open Scope Z_scope.

(** ** Single happenings *)
Lemma drop_step w P s t l now tk rem w1 : Led (w_mkt w) (w_accts w) P -> hrep (w_heap w) P -> In (t, l) (pleaves s P) ->
  drop_effect tk rem now s l w w1 -> event_step None w (EOut (out_of s l now (h_seq (w_heap w)))) w1.
Proof.
  intros HL Hh Hin H. destruct H as [w a a' Hn Ha Hc|w h Hp].
  - exact (out_now w P s t l now HL Hh Hin None a a' Ha Hc).
  - destruct (out_pieces w P s t l now HL Hh Hin) as (Hq & Hk & _). constructor; [exact Hq|exact Hk|].
    right. exists h. split; [exact Hp|]. split; [reflexivity|]. discriminate.
Qed.
Lemma effect_step o tk owner rem now w a w1 P : let s := invert_side (o_side o) in
  Led (w_mkt w) (w_accts w) P -> hrep (w_heap w) P -> In (im_tree (act_item a), im_leaf (act_item a)) (pleaves s P) ->
  act_known s (w_mkt w) a -> effect o tk owner rem now w a w1 ->
  exists e, event_step None w e w1 /\ strip e = event_of o owner now (m_seq (w_mkt w)) a.
Proof.
  intros s HL Hh Hin Hk H.
  destruct H as [w i q a a' m' Hr Ha Hm|w i q h Hp|w i w' Hd|w i a a' Et Ha Hc]; cbn [act_item] in Hin.
  - exists (EFill (fill_of o owner now (m_seq (w_mkt w)) i q)). split; [|reflexivity].
    eapply (fill_step w P o None owner [lf_owner (im_leaf i)] now i q 0); [exact HL|exact Hh|exact Hin|exact Hk|].
    unfold process_fill_event. cbn [fill_of fe_maker mem_key existsb]. rewrite Z.eqb_refl. cbn [orb andb].
    replace (0 <? FILL_EVENT_REMAINING_LIMIT) with true by reflexivity. cbn [andb].
    unfold load_remaining, is_taker. unfold acct_load. rewrite Ha. cbn [bind]. fold (fill_of o owner now (m_seq (w_mkt w)) i q).
    change (execute_maker a (w_mkt w) _) with (execute_maker a (w_mkt w) (fill_of o owner now (m_seq (w_mkt w)) i q)). rewrite Hm. cbn [bind]. reflexivity.
  - exists (EFill (fill_of o owner now (m_seq (w_mkt w)) i q)). split; [|reflexivity].
    eapply (fill_step w P o None owner [] now i q 0); [exact HL|exact Hh|exact Hin|exact Hk|].
    unfold process_fill_event. cbn [mem_key existsb]. rewrite andb_false_r. rewrite Hp. reflexivity.
  - eexists. split; [eapply drop_step; [exact HL|exact Hh|exact Hin|exact Hd]|]. apply strip_out.
  - eexists. split; [eapply (out_now w P s _ _ now HL Hh Hin None); [exact Ha|exact Hc]|]. apply strip_out.
Qed.

Definition fair_act (o : order) (owner now : Z) (a : act) : Prop :=
  match a with
  | AFill i q => (exists oracle, price_is oracle (im_tree i) (im_leaf i) (im_price i)) /\ 
      (im_tree i = OraclePegged -> within_peg (invert_side (o_side o)) (im_price i) (lf_peg_limit (im_leaf i))) /\ live now (im_leaf i)
  | _ => True
  end.
Lemma effect_tracked o tk owner rem now w a w1 P k : effect o tk owner rem now w a w1 ->
  let s := invert_side (o_side o) in let t := im_tree (act_item a) in let l := im_leaf (act_item a) in
  Led (w_mkt w) (w_accts w) P -> hrep (w_heap w) P -> In (t, l) (pleaves s P) -> act_known s (w_mkt w) a -> fair_act o owner now a ->
  owner <> k ->
  exists P' R, Led (w_mkt w1) (w_accts w1) P' /\ hrep (w_heap w1) P' /\
    Permutation (pleaves (o_side o) P') (pleaves (o_side o) P) /\
    Permutation (pleaves s P) ((t, l) :: R) /\ Permutation (pleaves s P') (leaf_after a t l ++ R) /\
    (forall n, ids_le n P -> ids_le n P') /\ exists F, tracked k w (pool_of P) w1 (pool_of P') F.
Proof.
  intros H s t l HL Hh Hin Hk Hfa Hn.
  destruct (effect_step _ _ _ _ _ _ _ _ _ HL Hh Hin Hk H) as (e & He & Es).
  destruct (effect_led o tk owner rem now w a w1 P H HL Hh Hin Hk) as (P1 & R & HL1 & Hh1 & _ & O1 & S1 & S1' & I1). fold s t l in S1, S1'.
  exists P1, R. repeat (split; [assumption|]).
  assert (O1' : Permutation (pleaves (invert_side s) P) (pleaves (invert_side s) P1)).
  { unfold s. replace (invert_side (invert_side (o_side o))) with (o_side o) by (destruct (o_side o); reflexivity). symmetry. exact O1. }
  assert (Hdrop : strip e = EOut (out_of s l now 0) -> leaf_after a t l = [] -> exists F, tracked k w (pool_of P) w1 (pool_of P1) F).
  { intros E0 El. exists []. rewrite El in S1'. cbn [app] in S1'. eapply drop_tracked; [exact HL| |exact O1'|exact He|exact E0].
    rewrite S1. apply perm_skip. symmetry. exact S1'. }
  destruct a as [i q|i|i]; cbn [act_item event_of] in *; [|apply Hdrop; [exact Es|reflexivity]|apply Hdrop; [exact Es|reflexivity]].
  assert (e = EFill (fill_of o owner now (m_seq (w_mkt w)) i q)) as -> by (destruct e; [exact Es|discriminate Es]).
  destruct Hk as [K1 K2]. destruct (K1 eq_refl) as (K3 & _). cbn [act_base act_item] in K3.
  eexists. eapply (fill_tracked w P P1 s t l R (fill_of o owner now (m_seq (w_mkt w)) i q)).
  - exact (mk_cfg _ (ld_mkt _ _ _ HL)).
  - exact HL.
  - exact He.
  - exact S1.
  - rewrite S1'. unfold leaf_after. cbn [after_act fill_of fe_qty]. destruct (lf_qty l =? q); reflexivity.
  - exact O1'.
  - reflexivity.
  - reflexivity.
  - reflexivity.
  - reflexivity.
  - cbn [fill_of fe_qty]. exact K3.
  - exact Hn.
  - destruct Hfa as (F1 & F2 & F3). split; [exact F1|]. split; [exact F2|exact F3].
Qed.

(** ** Runs of them *)
Lemma effects_tracked k o tk owner rem now w acts w' : owner <> k -> effects o tk owner rem now w acts w' -> forall P, ready o w acts P ->
  Forall (fair_act o owner now) acts -> let s := invert_side (o_side o) in
  exists P', Led (w_mkt w') (w_accts w') P' /\ hrep (w_heap w') P' /\
    Permutation (pleaves (o_side o) P') (pleaves (o_side o) P) /\
    Permutation (pleaves s P') (presidues acts (pleaves s P)) /\
    (forall n, ids_le n P -> ids_le n P') /\ exists F, tracked k w (pool_of P) w' (pool_of P') F.
Proof.
  intros Hn. induction 1 as [w|w a w1 r w2 H1 _ IH]; intros P [HL Hh Hnd Hak Hin Hk] Hfa s.
  - exists P. split; [exact HL|]. split; [exact Hh|]. split; [reflexivity|]. split; [|split; [auto|]].
    + replace (presidues [] (pleaves s P)) with (pleaves s P); [reflexivity|].
      unfold presidues. clear. induction (pleaves s P) as [|[t l] L IHL]; [reflexivity|]. cbn [flat_map]. rewrite <- IHL at 1. reflexivity.
    + exists []. apply tracked_same; [exact (pool_positive _ _ _ HL)|reflexivity|reflexivity|reflexivity].
  - inversion Hk as [|a0 r0 Hk1 Hk2]; subst a0 r0. cbn [map] in Hak. inversion Hak as [|x y N1 N2]; subst x y.
    inversion Hfa as [|a0 r0 Hf1 Hf2]; subst a0 r0.
    set (t := im_tree (act_item a)) in *. set (l := im_leaf (act_item a)) in *.
    destruct (effect_tracked o tk owner rem now w a w1 P k H1 HL Hh (Hin a (or_introl eq_refl)) Hk1 Hf1 Hn)
      as (P1 & R & HL1 & Hh1 & O1 & S1 & S1' & I1 & F1 & T1). fold s t l in S1, S1'.
    pose proof (effect_rest _ _ _ _ _ _ _ _ H1) as (_ & _ & Ec & _).
    assert (NR : ~ In (t, lf_key l) (map lkey R) /\ NoDup (map lkey R)).
    { pose proof (Permutation_NoDup (Permutation_map lkey S1) Hnd) as N. cbn [map] in N. inversion N; subst. auto. }
    destruct NR as [NR1 NR2].
    destruct (IH P1) as (P2 & HL2 & Hh2 & O2 & S2 & I2 & F2 & T2).
    + constructor; try assumption.
      * apply (Permutation_NoDup (Permutation_sym (Permutation_map lkey S1'))). rewrite map_app. unfold leaf_after.
        destruct (after_act a l) as [l'|] eqn:E; [|exact NR2]. cbn [map app]. constructor; [|exact NR2].
        unfold lkey at 1. cbn [fst snd]. rewrite (after_key _ _ _ E). exact NR1.
      * intros b Hb. apply (Permutation_in _ (Permutation_sym S1')). apply in_or_app. right.
        pose proof (Hin b (or_intror Hb)) as G. apply (Permutation_in _ S1) in G. destruct G as [G|G]; [|exact G].
        exfalso. apply N1. apply in_map_iff. exists b. split; [|exact Hb]. unfold akey. injection G as G1 G2.
        unfold t in G1. unfold l in G2. rewrite <- G1, <- G2. reflexivity.
      * apply Forall_forall. intros b Hb. rewrite Forall_forall in Hk2. apply (act_cfg (w_mkt w) (w_mkt w1) s owner b Ec). apply Hk2. exact Hb.
    + exact Hf2.
    + exists P2. split; [exact HL2|]. split; [exact Hh2|]. split; [rewrite O2; exact O1|]. split; [|split; [auto|]].
      * fold s in S2. rewrite S2. rewrite (presidues_perm _ _ _ S1'), (presidues_perm _ _ _ S1).
        rewrite presidues_step; [reflexivity|reflexivity|exact N1|exact NR1].
      * exists (F1 ++ F2). eapply tracked_trans; [exact (pool_distinct _ _ _ k HL)|exact T1|exact T2].
Qed.

Lemma drops_tracked k tk rem now s w gone w' : drops tk rem now s w gone w' -> forall P R,
  Led (w_mkt w) (w_accts w) P -> hrep (w_heap w) P -> Permutation (pleaves s P) (R ++ gone) ->
  exists P', Led (w_mkt w') (w_accts w') P' /\ hrep (w_heap w') P' /\
    (forall u, u <> s -> Permutation (pleaves u P') (pleaves u P)) /\
    Permutation (pleaves s P') R /\ tracked k w (pool_of P) w' (pool_of P') [].
Proof.
  induction 1 as [w|w t l w1 r w2 H1 _ IH]; intros P R HL Hh HP.
  - exists P. split; [exact HL|]. split; [exact Hh|]. split; [reflexivity|]. split; [rewrite HP, app_nil_r; reflexivity|].
    apply tracked_same; [exact (pool_positive _ _ _ HL)|reflexivity|reflexivity|reflexivity].
  - assert (Hin : In (t, l) (pleaves s P)).
    { apply (Permutation_in _ (Permutation_sym HP)). apply in_or_app. right. left. reflexivity. }
    pose proof (drop_step _ _ _ _ _ _ _ _ _ HL Hh Hin H1) as He.
    destruct (drop_led _ _ _ _ _ _ _ _ _ H1 HL Hh Hin) as (E1 & P1 & HL1 & Hh1 & B1 & O1 & S1 & I1 & K1).
    destruct (IH P1 R HL1 Hh1) as (P2 & HL2 & Hh2 & O2 & S2 & T2).
    { apply (Permutation_cons_inv (a := (t, l))). rewrite <- S1, HP. symmetry. apply Permutation_middle. }
    exists P2. split; [exact HL2|]. split; [exact Hh2|]. split; [|split; [exact S2|]].
    + intros u Hu. rewrite (O2 u Hu). exact (O1 u Hu).
    + change (@nil fill_event) with (@nil fill_event ++ []). eapply tracked_trans; [exact (pool_distinct _ _ _ k HL)| |exact T2].
      eapply drop_tracked; [exact HL|exact S1| |exact He|apply strip_out]. symmetry. apply O1. destruct s; discriminate.
Qed.

(** ** Placing an order *)
Lemma fits_all w s T : fits s (w_book w s) T -> Permutation (orders w s) (all_leaves T).
Proof.
  intros HT. unfold orders, all_leaves. rewrite (proj1 (fits_orders _ _ _ Fixed HT)), (proj1 (fits_orders _ _ _ OraclePegged HT)).
  apply Permutation_app; apply Permutation_map, dir_perm.
Qed.
Lemma fate_same w w' k : acct_get k (w_accts w') = acct_get k (w_accts w) -> w_heap w' = w_heap w -> m_cfg (w_mkt w') = m_cfg (w_mkt w) -> fate w' k = fate w k.
Proof.
  intros Ea Eh Ec. unfold fate. rewrite Ea. destruct (acct_get k (w_accts w)) as [a|]; [|reflexivity]. cbn [option_map]. f_equal.
  rewrite (fold_acct_cfg (w_mkt w') (w_mkt w)) by (first [exact Ec|symmetry; exact Ec]). unfold due, waiting, queue_of. rewrite Eh. reflexivity.
Qed.
Lemma tracked_side k w L w' L' F L0 : tracked k w L w' L' F -> distinct k L -> positive L' -> (forall s, Permutation (filter (own k) (L0 s)) (filter (own k) (L' s))) ->
  forall w0, fate w0 k = fate w' k -> m_cfg (w_mkt w0) = m_cfg (w_mkt w') -> tracked k w L w0 L0 F.
Proof.
  intros HT Hd Hp HL w0 Ef Ec. rewrite <- (app_nil_r F). eapply tracked_trans; [exact Hd|exact HT|].
  apply tracked_same; assumption.
Qed.

Lemma new_order_tracked w db dq cl ct P o oracle taker owner now limit rem w' r k :
  Inv w db dq cl ct P -> sane_order o -> taker = Some owner \/ (taker = None /\ acct_get owner (w_accts w) = None) ->
  new_order w o oracle taker owner now limit rem = Ok (w', r) -> owner <> k ->
  exists F, tracked k w (orders w) w' (orders w') F.
Proof.
  intros [HR HL _ _ _ _ _ _] Hso Htk0 H Hk.
  assert (Htk : taker = Some owner \/ taker = None) by tauto.
  pose proof (rep_sound _ _ HR HL) as Hws. pose proof (sound_call_of _ _ _ _ Hws Hso Htk) as Hsc.
  pose proof Hws as [Hc _]. pose proof Hso as [Hb0 Hq0 _].
  destruct (rp_side _ _ HR (o_side o)) as (T0 & Hf0 & HP0).
  destruct (rp_side _ _ HR (invert_side (o_side o))) as (T & Hf & HP).
  destruct (new_order_inv _ _ _ _ _ _ _ _ _ _ _ Hf Htk Hc Hb0 Hq0 H)
    as (price & pd & maxq & acts & ms & lf & w2 & bt & qt & tf & ra & rq & mf & b2 & T2 & Hpl & Hfin).
  destruct (placed_numbers _ _ _ _ _ _ _ _ _ _ _ _ _ _ _ _ _ _ _ _ _ _ _ _ Hsc Hf Hpl)
    as (Haf & Eb & Eq & Hb & Hq & Hbl & Hql & Ebt & Eqt & Bbt & Bqt & Etf & Erq & Ecfg & Eseq & Ebk & Hef & Hqu).
  pose proof Hpl as [Hp Hseq Hmq Hcap Hit Htr Hst Hf2 Hlv Hmf Hlp Hfok].
  destruct (order_price_facts _ _ _ _ _ _ Hso Hp) as (Rp & Rpd & Hlim & Hkey & _).
  pose proof (lt_sub _ _ _ _ _ _ _ _ _ _ _ Htr) as Hsub.
  pose proof (lt_amounts _ _ _ _ _ _ Htk _ _ _ _ _ Htr) as (A1 & A2 & A3 & A4 & _).
  pose proof (own_quote_bounds _ _ _ _ _ Haf) as [Hown _].
  cbn [start_ms ms_base ms_quote ms_dec ms_rebates ms_w] in A1, A2, A3, A4. rewrite Z.add_0_l in A3, A4.
  set (s := o_side o) in *. set (os := invert_side s) in *. set (m := w_mkt w) in *.
  set (m0 := m_set_seq m (m_seq m + 1)) in *. cbn [w_set_mkt w_mkt] in A4. fold m0 in A4.
  assert (Hc0 : cfg_sound (m_cfg m0)) by exact Hc.
  assert (Eq0 : qls m0 = qls m) by reflexivity.
  assert (Hin : forall a, In a acts -> In (im_tree (act_item a), im_leaf (act_item a)) (pleaves os P)).
  { intros a Ha. apply (Permutation_in _ HP). apply in_all_leaves.
    pose proof (merged_on_book _ _ _ _ _ (ft_ok _ _ _ Hf) Hsub) as Hon. rewrite Forall_forall in Hon. specialize (Hon a Ha).
    unfold on_book in Hon. apply oitems_leaf in Hon. exact Hon. }
  assert (Hne : taker = None -> forall a, In a acts -> lf_owner (im_leaf (act_item a)) <> owner).
  { intros Et a Ha Eo. apply Hin in Ha. apply leaf_piece in Ha as (lp & Ha). destruct (ld_back _ _ _ HL _ Ha) as (x & Hx & _).
    cbn [pc_owner] in Hx. rewrite Eo in Hx. destruct Htk0 as [E|[_ E]]; congruence. }
  assert (Hpg : forall a, In a acts -> os = Bid -> im_tree (act_item a) = OraclePegged -> lf_peg_limit (im_leaf (act_item a)) <> -1).
  { intros a Ha Es Et. apply Hin in Ha. apply leaf_piece in Ha as (lp & Ha). pose proof (ld_piece _ _ _ HL _ Ha) as [_ K2 _ _ _ K6].
    rewrite Es, Et in K6. cbn [pc_lp] in K2. lia. }
  assert (Hfair : Forall (fair_act o owner now) acts).
  { apply Forall_forall. intros a Ha. rewrite Forall_forall in Haf. specialize (Haf a Ha).
    destruct a as [i q|i|i]; [|exact I|exact I]. destruct Haf as (Hv & _).
    assert (Hi : In i (merged (w_book w os) T now oracle)) by (apply (sublist_in _ _ _ Hsub); apply (in_map act_item acts _ Ha)).
    pose proof (listed_facts _ _ _ _ _ _ Hf Hi) as (Hr & Hvv & _ & _). apply Hvv in Hv as [V1 V2].
    split; [exists oracle; unfold right_price in Hr; unfold price_is; exact Hr|]. split; [exact V2|exact V1]. }
  assert (Hq1 : quote_lots acts * qls m0 <= 9223372036854775807) by (rewrite Eq0; lia).
  pose proof (rebates_counted _ _ _ _ m0 Hc0 _ Haf Hq1 Hne) as Hreb.
  pose proof (rebates_le _ _ _ _ m0 Hc0 _ Haf Hne) as Hreb1.
  pose proof (led_seq _ _ _ Hseq HL) as HL0. fold m0 in HL0.
  assert (Hids : ids_le (m_seq m) P).
  { intros p Hp'. apply (ld_piece _ _ _ HL) in Hp'. apply pk_seq in Hp'. exact (proj2 Hp'). }
  (* matching *)
  destruct (effects_tracked k _ _ _ _ _ _ _ _ Hk Hef P) as (P1 & HL1 & Hh1 & O1 & S1 & I1 & F & TR1).
  { constructor; fold s os.
    - exact HL0.
    - exact (rp_heap _ _ HR).
    - apply (Permutation_NoDup (Permutation_map lkey HP)). eapply all_leaves_keys. exact (ft_ok _ _ _ Hf).
    - eapply acts_akey_nodup; [exact (ft_ok _ _ _ Hf)|exact Hsub].
    - exact Hin.
    - eapply acts_known; [exact Hf|exact Hc0|exact Haf|exact Hq1|exact Hsub|exact Hpg]. }
  { exact Hfair. }
  fold s os in O1, S1.
  assert (Ecm : m_cfg (w_mkt (ms_w ms)) = m_cfg m).
  { pose proof (effects_rest _ _ _ _ _ _ _ _ Hef) as (_ & _ & R3 & _). exact R3. }
  (* settling *)
  assert (Eqm : qls (w_mkt (ms_w ms)) = qls m) by (apply qls_eq; exact Ecm).
  assert (Hms : ms_rebates ms = sumZ (map (act_rebate m0 owner) acts)) by (rewrite A4; exact Hreb).
  destruct (settle_led o taker owner maxq ms w2 bt qt tf ra rq P1 Htk Hq ltac:(lia) ltac:(lia) ltac:(rewrite Eqm, A3, Hms, <- Eq0; replace (maxq - ms_quote ms) with (quote_lots acts) by lia; lia) Hst HL1)
    as (_ & _ & _ & HL2 & Hh2 & _).
  assert (HT2 : Permutation (all_leaves T2) (pleaves os P1)).
  { rewrite (presidues_all _ _ _ Hlv), S1. apply presidues_perm. exact HP. }
  assert (Hwk : acct_get k (w_accts w2) = acct_get k (w_accts (ms_w ms))).
  { apply (proj2 (proj2 Hqu)). destruct Htk as [E|E]; congruence. }
  exists F.
  assert (TR0 : tracked k w (pool_of P) w2 (pool_of P1) F).
  { change F with ([] ++ F). eapply tracked_trans; [exact (pool_distinct _ _ _ k HL)| |].
    - apply (tracked_same k w (pool_of P) (w_set_mkt w m0) (pool_of P)); [exact (pool_positive _ _ _ HL)|reflexivity|reflexivity|reflexivity].
    - eapply tracked_side; [exact TR1|exact (pool_distinct _ _ _ k HL0)|exact (pool_positive _ _ _ HL1)|reflexivity| |].
      + apply fate_same; [exact Hwk|exact Hh2|]. congruence.
      + congruence. }
  assert (Hstart : forall s1 s2 w9 L9, Permutation (orders w s1) (pleaves s1 P) -> Permutation (orders w s2) (pleaves s2 P) -> s2 = invert_side s1 ->
            tracked k w (pool_of P) w9 L9 F -> tracked k w (orders w) w9 L9 F).
  { intros s1 s2 w9 L9 X1 X2 Es X. eapply tracked_perm; [| |exact X]; [|reflexivity]. intros u. symmetry. unfold pool_of.
    destruct u, s1; subst s2; cbn [invert_side] in X2; assumption. }
  apply (Hstart s os); [rewrite (fits_all _ _ _ Hf0); exact HP0|rewrite (fits_all _ _ _ Hf); exact HP|reflexivity|]. clear Hstart.
  destruct Hfin as [Hno|t w4 pb pq mfees Hpos Htg Hpeg Hpost].
  - (* nothing posted *)
    change (invert_side (o_side o)) with os.
    assert (Em : w_mkt (w_set_book w2 os b2) = w_mkt w2) by apply w_set_book_mkt.
    assert (Ea : w_accts (w_set_book w2 os b2) = w_accts w2) by (destruct os; reflexivity).
    assert (Eh : w_heap (w_set_book w2 os b2) = w_heap w2) by (destruct os; reflexivity).
    eapply tracked_side; [exact TR0|exact (pool_distinct _ _ _ k HL)|exact (pool_positive _ _ _ HL2)| |apply fate_same; [rewrite Ea; reflexivity|exact Eh|rewrite Em; reflexivity]|rewrite Em; reflexivity].
    intros u. apply perm_filter. assert (Hcase : u = s \/ u = os) by (unfold os; destruct u, s; auto). destruct Hcase as [-> | ->].
    + rewrite (fits_all _ s T0) by (unfold os; rewrite w_book_set_inv', Ebk; exact Hf0). rewrite HP0. symmetry. exact O1.
    + rewrite (fits_all _ os T2) by (rewrite w_book_set; exact Hf2). exact HT2.
  - (* posted *)
    assert (Hf0' : fits (o_side o) (w_book (w_set_book w2 os b2) (o_side o)) T0).
    { fold s. unfold os. rewrite w_book_set_inv', Ebk. exact Hf0. }
    assert (Hpt : post_target o = Some t).
    { destruct (lt_target _ _ _ _ _ _ _ _ _ _ _ Htr) as [E|E]; [cbn [start_ms ms_target] in E; congruence|congruence]. }
    set (id := new_node_key s pd (m_seq m + 1)) in *.
    change (new_node_key (o_side o) pd (m_seq (w_mkt w) + 1)) with id in Hpost |- *.
    change (invert_side (o_side o)) with os in Hpost.
    set (qty := post_qty o price ms rq mf) in *.
    assert (Hoko : forall slot, order_ok t (posted_leaf o owner now id slot qty) /\ price_is oracle t (posted_leaf o owner now id slot qty) price).
    { intros slot. apply (Hkey t _ _ Hpt Hseq). reflexivity. }
    assert (Hidq : id_seq s id = m_seq m + 1).
    { pose proof (seq_of_new s pd (m_seq m + 1) (posted_leaf o owner now id 0 qty) Hseq eq_refl) as E. exact E. }
    apply post_order_inv with (T := T0) in Hpost.
    2: exact Hf0'. 2: exact Htk. 2: rewrite w_set_book_mkt, Ecfg; exact Hc. 2: apply (Hoko 0).
    2:{ intros t' l Hl E. apply in_all_leaves in Hl. apply (Permutation_in _ HP0) in Hl. apply leaf_piece in Hl as (lp & Hl).
        apply Hids in Hl. cbn [pc_side pc_id] in Hl. rewrite E in Hl. change (id_seq s id <= m_seq m) in Hl. lia. }
    2: exact Hpos. 2: apply lock_price_pos; [exact Hso|lia].
    rewrite w_set_book_mkt in Hpost. fold s in Hpost.
    destruct Hpost as (Etk & Epb & Epq & Bpb & Bpq & Emf & gone & w1 & wB & a & slot & a' & b3 & T3 & Hlk & Hdr & Ha & Hslot & Hadd & -> & Hf3 & Hperm & Hlen & Hroom & Hincl).
    set (nl := posted_leaf o owner now id slot qty) in *. set (wA := w_set_book w2 os b2) in *.
    assert (Em : w_mkt wA = w_mkt w2) by apply w_set_book_mkt.
    assert (Ea : w_accts wA = w_accts w2) by (unfold wA; destruct os; reflexivity).
    assert (Eh : w_heap wA = w_heap w2) by (unfold wA; destruct os; reflexivity).
    pose proof (cs_qls _ Hc) as C1. change (c_qls (m_cfg m)) with (qls m) in C1.
    assert (Eq2 : qls (w_mkt w2) = qls m) by (apply qls_eq; exact Ecfg).
    pose proof (lock_price_pos o price Hso ltac:(lia)) as Hlp1.
    assert (Hpq : 0 <= pq) by (rewrite Epq, Eq2; nia).
    assert (Hmf0 : 0 <= mfees).
    { rewrite Emf. destruct s; [|lia]. apply maker_locks_bounds; [rewrite Ecfg; exact Hc|exact Hpq]. }
    assert (Hnew : ~ In (t, nl) gone).
    { intros Hg. apply Hincl in Hg. apply (Permutation_in _ HP0) in Hg. apply leaf_piece in Hg as (lp' & Hg).
      apply Hids in Hg. cbn [pc_side pc_id] in Hg. change (id_seq s id <= m_seq m) in Hg. lia. }
    assert (HR3 : exists R, Permutation (all_leaves T3) ((t, nl) :: R) /\ Permutation (all_leaves T0) (R ++ gone)).
    { assert (Hi3 : In (t, nl) (all_leaves T3)).
      { assert (Hin3 : In (t, nl) (all_leaves T3 ++ gone)) by (apply (Permutation_in _ Hperm); left; reflexivity).
        apply in_app_or in Hin3 as [Hin3|Hin3]; [exact Hin3|contradiction]. }
      apply in_split in Hi3 as (X & Y & E3). exists (X ++ Y). split; [rewrite E3; symmetry; apply Permutation_middle|].
      apply (Permutation_cons_inv (a := (t, nl))). rewrite Hperm, E3.
      rewrite <- !app_assoc. cbn [app]. symmetry. apply Permutation_middle. }
    destruct HR3 as (R & HR3 & HR0).
    rewrite <- Em, <- Ea in HL2. 
    assert (Hown' : exists x, acct_get owner (w_accts wA) = Some x).
    { destruct (acct_get owner (w_accts wA)) as [x|] eqn:E; [exists x; reflexivity|]. exfalso.
      destruct (drops_keep _ _ _ _ _ _ _ Hdr _ _ Ha) as (y & Hy).
      unfold locks in Hlk. destruct s; [destruct Hlk as (z & Hz & _); congruence|subst w1; congruence]. }
    destruct (led_locks _ _ _ _ _ P1 Hlk Hmf0 ltac:(intros E; rewrite Emf, E; reflexivity) HL2 Hown')
      as (Em1 & Eh1 & HL3 & _ & _).
    destruct (drops_tracked k _ _ _ _ _ _ _ Hdr P1 R HL3) as (P2 & HL4 & Hh4 & O4 & S4 & TR4).
    { rewrite Eh1, Eh, Hh2. exact Hh1. }
    { rewrite O1, <- HP0. exact HR0. }
    assert (Hw1k : acct_get k (w_accts w1) = acct_get k (w_accts w2)).
    { rewrite <- Ea. unfold locks in Hlk. destruct s; [|subst w1; reflexivity]. destruct Hlk as (z & _ & _ & ->).
      cbn [w_set_acct w_set_accts w_accts]. apply acct_get_set_other. congruence. }
    assert (TR1' : tracked k w (pool_of P) w1 (pool_of P1) F).
    { eapply tracked_side; [exact TR0|exact (pool_distinct _ _ _ k HL)|exact (pool_positive _ _ _ HL3)|reflexivity| |].
      - apply fate_same; [exact Hw1k|congruence|]. rewrite Em1, Em. reflexivity.
      - rewrite Em1, Em. reflexivity. }
    assert (TR2 : tracked k w (pool_of P) wB (pool_of P2) F).
    { rewrite <- (app_nil_r F). eapply tracked_trans; [exact (pool_distinct _ _ _ k HL)|exact TR1'|exact TR4]. }
    set (wZ := w_set_acct (w_set_book wB s b3) owner a').
    assert (EmZ : w_mkt wZ = w_mkt wB) by (unfold wZ; destruct s; reflexivity).
    assert (EaZ : w_accts wZ = acct_set owner a' (w_accts wB)) by (unfold wZ; destruct s; reflexivity).
    assert (EhZ : w_heap wZ = w_heap wB) by (unfold wZ; destruct s; reflexivity).
    pose proof (drops_rest _ _ _ _ _ _ _ Hdr) as [Sd Md].
    assert (Hb1 : forall u, w_book w1 u = w_book wA u).
    { intros u. unfold locks in Hlk. destruct s; [destruct Hlk as (z & _ & _ & ->); apply w_book_acct|subst w1; reflexivity]. }
    assert (Eother : w_book wZ os = b2).
    { unfold wZ. rewrite w_book_acct. unfold os. rewrite w_book_set_inv, (same_rest_book _ _ _ Sd), Hb1. apply w_book_set. }
    assert (Eown : w_book wZ s = b3).
    { unfold wZ. rewrite w_book_acct. apply w_book_set. }
    eapply tracked_side; [exact TR2|exact (pool_distinct _ _ _ k HL)|exact (pool_positive _ _ _ HL4)| |apply fate_same; [rewrite EaZ; apply acct_get_set_other; congruence|exact EhZ|rewrite EmZ; reflexivity]|rewrite EmZ; reflexivity].
    intros u. assert (Hcase : u = s \/ u = os) by (unfold os; destruct u, s; auto). destruct Hcase as [-> | ->].
    + rewrite (perm_filter _ _ _ (fits_all wZ s T3 ltac:(rewrite Eown; exact Hf3))), (perm_filter _ _ _ HR3). cbn [filter].
      replace (own k (t, nl)) with false by (symmetry; apply Z.eqb_neq; exact Hk). symmetry. apply perm_filter. exact S4.
    + apply perm_filter. rewrite (fits_all wZ os T2) by (rewrite Eother; exact Hf2). unfold pool_of.
      rewrite (O4 os) by (unfold os; apply invert_neq). exact HT2.
Qed.
