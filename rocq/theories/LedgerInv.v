(** Every elementary step keeps the ledger balanced, hence every reachable state is. *)
From Coq Require Import ZArith List Bool Lia ZifyBool Permutation.
From Verif Require Import Base Nodes OrderTree BookSide Heap Market OpenOrders Order Book Instructions
  BaseFacts NodesFacts HeapFacts TreeRep TreeFacts TreeOps TreeIter BookSideFacts BookSideOrder BookSpecProofs SpecBook SpecFees
  FeeFacts SpecOrder MatchFacts MatchBook OrderFacts PlaceFacts OrderSpecProofs OrderClaims Steps StepFacts SpecLedger SpecEvents Ledger LedgerOps LedgerMoves
  LedgerPlace LedgerOrder.
Import ListNotations.
Open Scope Z_scope.

Lemma inv_next w db dq cl ct P w' P' db' dq' : Inv w db dq cl ct P -> Rep w' P' ->
  Led (w_mkt w') (w_accts w') P' -> m_seq (w_mkt w) <= m_seq (w_mkt w') ->
  same_bal (w_mkt w) (w_accts w) P (w_mkt w') (w_accts w') P' db' dq' 0 0 0 0 ->
  Inv w' (db + db') (dq + dq') cl ct P'.
Proof.
  intros [HR HL Gb Gq Gv Gf Gl Gt] HR' HL' Hs [B1 B2 B3 B4 B5 B6]. constructor; try assumption; lia.
Qed.
Lemma inv_same w db dq cl ct P w' P' : Inv w db dq cl ct P -> Rep w' P' ->
  Led (w_mkt w') (w_accts w') P' -> m_seq (w_mkt w) <= m_seq (w_mkt w') ->
  same_bal (w_mkt w) (w_accts w) P (w_mkt w') (w_accts w') P' 0 0 0 0 0 0 -> Inv w' db dq cl ct P'.
Proof. intros H1 H2 H3 H4 H5. pose proof (inv_next _ _ _ _ _ _ _ _ _ _ H1 H2 H3 H4 H5) as G. rewrite !Z.add_0_r in G. exact G. Qed.

Lemma rep_same w w' P : Rep w P -> (forall s, w_book w' s = w_book w s) -> w_heap w' = w_heap w -> Rep w' P.
Proof. intros [R1 R2] Hb Hh. constructor; [intros s; rewrite Hb; apply R1|rewrite Hh; exact R2]. Qed.

(** ** Cancelling *)
(** The order in slot [i] of account [k] is the only one on its side with its id. *)
Lemma slot_piece m ac P k a i oo : Led m ac P -> acct_get k ac = Some a -> order_at a i = Ok oo -> oo_free oo = false ->
  exists p, In p P /\ pc_last p = true /\ pc_owner p = k /\ pc_slot p = i /\ slot_of oo p.
Proof.
  intros HL Ha Ho Hf. pose proof (ac_slots _ _ _ _ (ld_acct _ _ _ HL _ _ Ha) i) as E. unfold used in E. rewrite Ho, Hf in E.
  destruct (psum_exists (in_slot k i) P) as (p & Hp & Hn); [lia|]. exists p. unfold in_slot in Hn.
  destruct (pc_last p) eqn:El; [|cbn in Hn; lia]. cbn [andb] in Hn.
  destruct (Z.eqb_spec (pc_owner p) k) as [Ek|]; [|cbn in Hn; lia]. cbn [andb] in Hn.
  destruct (Z.eqb_spec (pc_slot p) i) as [Ei|]; [|lia].
  split; [exact Hp|]. split; [reflexivity|]. split; [exact Ek|]. split; [exact Ei|].
  destruct (ld_back _ _ _ HL p Hp) as (b & Hb & Hs). rewrite Ek, Ha in Hb. injection Hb as <-.
  destruct (Hs El) as (oo' & Ho' & Hsl). rewrite Ei, Ho in Ho'. injection Ho' as <-. exact Hsl.
Qed.

Lemma same_id m ac P p q : Led m ac P -> In p P -> In q P -> pc_last p = true -> pc_last q = true ->
  pc_side p = pc_side q -> pc_id p = pc_id q -> p = q.
Proof.
  intros HL Hp Hq Lp Lq Es Ei. apply in_split in Hp as (A & B & ->).
  assert (G : ~ In q (A ++ B) -> p = q).
  { intros N. apply in_app_or in Hq as [Hq|[Hq|Hq]]; [exfalso; apply N; apply in_or_app; left; exact Hq|exact Hq|exfalso; apply N; apply in_or_app; right; exact Hq]. }
  apply G. clear G. intros Hq'.
  pose proof (ld_ids _ _ _ HL (pc_side q) (id_seq (pc_side q) (pc_id q))) as E.
  rewrite psum_app, psum_cons in E. 
  assert (E1 : forall r, pc_last r = true -> pc_side r = pc_side q -> pc_id r = pc_id q ->
    with_seq (pc_side q) (id_seq (pc_side q) (pc_id q)) r = 1).
  { intros r R1 R2 R3. unfold with_seq. rewrite R1, R2, R3, side_eqb_refl, Z.eqb_refl. reflexivity. }
  assert (E0 : forall r, 0 <= with_seq (pc_side q) (id_seq (pc_side q) (pc_id q)) r).
  { intros r. unfold with_seq. destruct (_ && _); lia. }
  rewrite (E1 p Lp Es Ei) in E.
  pose proof (psum_in (with_seq (pc_side q) (id_seq (pc_side q) (pc_id q))) (A ++ B) q (fun r _ => E0 r) Hq') as G.
  rewrite psum_app, (E1 q Lq eq_refl eq_refl) in G. lia.
Qed.

Lemma in_order_at a oo : In oo (a_orders a) -> exists i, order_at a i = Ok oo.
Proof.
  intros H. apply In_nth_error in H as (n & Hn). exists (Z.of_nat n). unfold order_at, massert, require.
  replace (0 <=? Z.of_nat n) with true by lia. cbn [bind]. rewrite Nat2Z.id, Hn. reflexivity.
Qed.

Lemma cancel_led w db dq cl ct P k a oo ex w' l : Inv w db dq cl ct P ->
  acct_get k (w_accts w) = Some a -> In oo (a_orders a) -> oo_free oo = false ->
  book_cancel_order w k (oo_id oo) (oo_side oo) (oo_tree oo) ex = Ok (w', l) ->
  exists P', Inv w' db dq cl ct P' /\ lf_owner l = k /\ lf_key l = oo_id oo /\ order_at a (lf_slot l) = Ok oo /\
    Permutation P (PLeaf (oo_side oo) (oo_tree oo) l (oo_locked_price oo) :: P').
Proof.
  intros HI Ha Hoo Hfr H. pose proof HI as [HR HL _ _ _ _ _ _].
  apply book_cancel_inv in H as (b & a0 & a' & Erm & _ & Ha0 & Hc & ->). rewrite Ha in Ha0. injection Ha0 as <-.
  set (s := oo_side oo) in *. set (t := oo_tree oo) in *.
  destruct (rp_side _ _ HR s) as (T & Hf & HP).
  destruct (fits_cancel _ _ _ _ _ _ _ Hf Erm) as (T' & Hf' & Hk & HT).
  assert (Hin : In (t, l) (pleaves s P)).
  { apply (Permutation_in _ HP). apply (Permutation_in _ (Permutation_sym HT)). left. reflexivity. }
  apply in_order_at in Hoo as (i & Ho).
  pose proof Hin as Hin'. apply in_pleaves in Hin' as (lp & P0 & HP0).
  assert (Hq : In (PLeaf s t l lp) P) by (apply (Permutation_in _ (Permutation_sym HP0)); left; reflexivity).
  destruct (slot_piece _ _ _ _ _ _ _ HL Ha Ho Hfr) as (p & Hp & Lp & Op & Sp & Hsl).
  assert (p = PLeaf s t l lp).
  { eapply same_id; [exact HL|exact Hp|exact Hq|exact Lp|reflexivity| |]; cbn [pc_side pc_id].
    - symmetry. apply Hsl.
    - destruct Hsl as (_ & _ & E & _). congruence. }
  subst p. cbn [pc_owner pc_slot] in Op, Sp.
  pose proof (led_perm _ _ _ _ HP0 HL) as HL0.
  destruct (led_drop _ _ _ _ _ _ _ 0 0 HL0) as [HL1 B1].
  rewrite <- Op in Ha.
  destruct (led_out (w_mkt w) (w_accts w) P0 (out_of s l 0 0) lp (lf_key l) a HL1 Ha a' Hc) as (HL2 & B2 & Ea').
  exists P0.
  assert (EP : forall u, u <> s -> Permutation (pleaves u P) (pleaves u P0)).
  { intros u Hu. rewrite (pleaves_perm u _ _ HP0), pleaves_cons.
    destruct (side_eqb s u) eqn:E; [apply side_eqb_ok in E; congruence|]. reflexivity. }
  assert (ES : Permutation (pleaves s P) ((t, l) :: pleaves s P0)).
  { rewrite (pleaves_perm s _ _ HP0), pleaves_cons, side_eqb_refl. reflexivity. }
  assert (Em : w_mkt (w_set_acct (w_set_book w s b) k a') = w_mkt w) by (destruct s; reflexivity).
  assert (Eac : w_accts (w_set_acct (w_set_book w s b) k a') = acct_set k a' (w_accts w)) by (destruct s; reflexivity).
  assert (Eh : w_heap (w_set_acct (w_set_book w s b) k a') = w_heap w) by (destruct s; reflexivity).
  cbn [oe_owner out_of] in HL2, B2. rewrite Op in HL2, B2.
  split.
  - eapply inv_same; [exact HI| | | |].
    + constructor.
      * intros u. rewrite w_book_acct. destruct (side_eqb u s) eqn:E.
        -- apply side_eqb_ok in E as ->. exists T'. rewrite w_book_set. split; [exact Hf'|].
           apply (Permutation_cons_inv (a := (t, l))). rewrite <- HT, HP. exact ES.
        -- assert (Hu : u <> s) by (intros ->; rewrite side_eqb_refl in E; discriminate).
           destruct (rp_side _ _ HR u) as (U & HU & HPU). exists U.
           replace (w_book (w_set_book w s b) u) with (w_book w u) by (destruct u, s; (reflexivity || congruence)).
           split; [exact HU|]. rewrite HPU. apply EP. exact Hu.
      * rewrite Eh. eapply hrep_perm; [|exact (rp_heap _ _ HR)]. rewrite (pevents_perm _ _ HP0). reflexivity.
    + rewrite Em, Eac. exact HL2.
    + rewrite Em. lia.
    + rewrite Em, Eac. eapply same_bal_eq;
        [eapply same_bal_perm; [symmetry; exact HP0|reflexivity|exact (same_bal_trans _ _ _ _ _ _ _ _ _ _ _ _ _ _ _ _ _ _ _ _ _ B1 B2)]|reflexivity..].
  - split; [exact Op|]. split; [exact Hk|]. split; [rewrite Sp; exact Ho|].
    replace (oo_locked_price oo) with lp; [exact HP0|]. destruct Hsl as (_ & _ & _ & E & _). symmetry. exact E.
Qed.

(** ** Processing an event *)
Lemma event_piece h P s e : hrep h P -> at_slot h s = Some e ->
  exists L L1 L2, heap_ok h L /\ L = L1 ++ (e, s) :: L2 /\ Permutation (map fst L) (pevents P) /\
  exists P0, match e with
  | EFill f => exists id, Permutation P (PFill f id :: P0)
  | EOut o => exists lp id, Permutation P (POut o lp id :: P0)
  end /\ Permutation (map fst (L1 ++ L2)) (pevents P0).
Proof.
  intros (L & Hh & HP) He. pose proof (at_slot_nonneg _ _ _ He) as Hs.
  pose proof Hh as (F & Hr). rewrite (at_slot_rep _ _ _ _ Hr Hs) in He.
  destruct (find _ L) as [[e' s']|] eqn:Ef; [|discriminate He]. cbn [fst] in He. injection He as ->.
  apply find_some in Ef as [Hin Heq]. cbn in Heq. assert (s' = s) by lia. subst s'.
  apply in_split in Hin as (L1 & L2 & EL). exists L, L1, L2. split; [exact Hh|]. split; [exact EL|]. split; [exact HP|].
  assert (Hin : In e (pevents P)).
  { apply (Permutation_in _ HP). rewrite EL. apply in_map_iff. exists (e, s). split; [reflexivity|]. apply in_or_app. right. left. reflexivity. }
  assert (Hrest : forall p P0, Permutation P (p :: P0) -> pevents [p] = [e] -> Permutation (map fst (L1 ++ L2)) (pevents P0)).
  { intros p P0 HP0 Ep. apply (Permutation_cons_inv (a := e)).
    assert (X : pevents (p :: P0) = e :: pevents P0).
    { change (p :: P0) with ([p] ++ P0). rewrite pevents_app, Ep. reflexivity. }
    rewrite <- X, <- (pevents_perm _ _ HP0), <- HP, EL, !map_app. cbn [map fst]. apply Permutation_middle. }
  unfold pevents in Hin. apply in_flat_map in Hin as (p & Hp & Hin). apply in_split in Hp as (A & B & EP).
  assert (HP0 : Permutation P (p :: A ++ B)) by (rewrite EP; symmetry; apply Permutation_middle).
  exists (A ++ B). destruct p as [s' t' l' lp|o lp id|f id]; [destruct Hin| |]; destruct Hin as [<-|[]].
  - split; [exists lp, id; exact HP0|]. eapply Hrest; [exact HP0|reflexivity].
  - split; [exists id; exact HP0|]. eapply Hrest; [exact HP0|reflexivity].
Qed.

Lemma pleaves_event s p P P0 : Permutation P (p :: P0) -> match p with PLeaf _ _ _ _ => False | _ => True end ->
  Permutation (pleaves s P) (pleaves s P0).
Proof. intros HP Hp. rewrite (pleaves_perm s _ _ HP), pleaves_cons. destruct p; [contradiction|reflexivity|reflexivity]. Qed.

Lemma hrep_delete h L L1 L2 e s h' x P0 : heap_ok h L -> L = L1 ++ (e, s) :: L2 -> delete_slot h s = Ok (h', x) -> 0 <= s ->
  Permutation (map fst (L1 ++ L2)) (pevents P0) -> hrep h' P0.
Proof.
  intros Hh EL Hd Hs HP. destruct (delete_slot_ok _ _ _ _ _ Hh Hs Hd) as (M1 & M2 & EM & Hok).
  exists (M1 ++ M2). split; [exact Hok|].
  assert (Hnd : NoDup (map snd L)).
  { destruct Hh as (F & Hr). eapply nodup_app_l. exact (hr_nodup _ _ _ Hr). }
  assert (G : M1 = L1 /\ M2 = L2 /\ x = e).
  { rewrite EL in Hnd. rewrite EM in EL. clear -EL Hnd. revert M1 EL Hnd. induction L1 as [|[e1 s1] L1 IH]; intros M1 EL Hnd.
    - destruct M1 as [|[e2 s2] M1]; cbn [app] in EL.
      + injection EL as -> ->. auto.
      + exfalso. injection EL as E1 E2 E3. subst. cbn [app map snd] in Hnd. inversion Hnd as [|? ? N1 N2]; subst.
        apply N1. rewrite map_app. apply in_or_app. right. left. reflexivity.
    - destruct M1 as [|[e2 s2] M1]; cbn [app] in EL.
      + exfalso. injection EL as E1 E2 E3. subst. cbn [app map snd] in Hnd. inversion Hnd as [|? ? N1 N2]; subst.
        apply N1. rewrite map_app. apply in_or_app. right. left. reflexivity.
      + injection EL as E1 E2 E3. subst. cbn [app map] in Hnd. inversion Hnd as [|? ? N1 N2]; subst.
        destruct (IH M1 E3 N2) as (-> & -> & ->). auto. }
  destruct G as (-> & -> & _). exact HP.
Qed.

Lemma consume_led w db dq cl ct P rem slot w' : Inv w db dq cl ct P -> consume_one w rem slot = Ok w' ->
  exists P', Inv w' db dq cl ct P'.
Proof.
  intros HI H. pose proof HI as [HR HL _ _ _ _ _ _]. apply consume_one_inv in H as (ev & He & H).
  pose proof (at_slot_nonneg _ _ _ He) as Hs.
  destruct (event_piece _ _ _ _ (rp_heap _ _ HR) He) as (L & L1 & L2 & Hh & EL & HPL & P0 & Hev & HP0).
  destruct ev as [f|e].
  - destruct (mem_key (fe_maker f) rem); [|subst w'; exists P; exact HI].
    destruct Hev as (id & HP). destruct H as (a & a' & m' & h' & x & Ha & Hx & Hd & ->).
    pose proof (led_perm _ _ _ _ HP HL) as HL0.
    destruct (led_exec (w_mkt w) (w_accts w) P0 f id a HL0 Ha a' m' Hx) as (HL1 & B1 & Ea' & Em').
    exists P0. eapply inv_same; [exact HI| | | |]; cbn [w_set_heap w_set_acct w_set_accts w_set_mkt w_mkt w_accts w_heap].
    + constructor; cbn [w_set_heap w_heap].
      * intros u. destruct (rp_side _ _ HR u) as (T & HT & HPT). exists T. split; [destruct u; exact HT|].
        rewrite HPT. eapply pleaves_event; [exact HP|exact I].
      * eapply hrep_delete; eassumption.
    + exact HL1.
    + rewrite Em'. apply Z.le_refl.
    + eapply same_bal_perm; [symmetry; exact HP|reflexivity|exact B1].
  - destruct (mem_key (oe_owner e) rem); [|subst w'; exists P; exact HI].
    destruct Hev as (lp & id & HP). destruct H as (a & a' & h' & x & Ha & Hx & Hd & ->).
    pose proof (led_perm _ _ _ _ HP HL) as HL0.
    destruct (led_out (w_mkt w) (w_accts w) P0 e lp id a HL0 Ha a' Hx) as (HL1 & B1 & Ea').
    exists P0. eapply inv_same; [exact HI| | | |]; cbn [w_set_heap w_set_acct w_set_accts w_set_mkt w_mkt w_accts w_heap].
    + constructor; cbn [w_set_heap w_heap].
      * intros u. destruct (rp_side _ _ HR u) as (T & HT & HPT). exists T. split; [destruct u; exact HT|].
        rewrite HPT. eapply pleaves_event; [exact HP|exact I].
      * eapply hrep_delete; eassumption.
    + exact HL1.
    + apply Z.le_refl.
    + eapply same_bal_perm; [symmetry; exact HP|reflexivity|exact B1].
Qed.

(** ** Moving balances *)
Ltac open_bal := constructor; unfold base_gap, quote_gap, vol_all, fee_all, vol_lost, vol_taken.

Lemma no_bids_no_need m ac P k a : Led m ac P -> acct_get k ac = Some a -> p_bids_base (a_pos a) = 0 ->
  psum (of_acct k (fee_need m)) P = 0.
Proof.
  intros HL Ha E. apply psum_zero. intros p Hp. unfold of_acct. destruct (Z.eqb_spec (pc_owner p) k) as [Ek|]; [|reflexivity].
  unfold fee_need. destruct (pc_side p) eqn:Es; [exfalso|reflexivity].
  rewrite (ac_bids _ _ _ _ (ld_acct _ _ _ HL _ _ Ha)) in E.
  assert (G : of_side k Bid pc_qty p <= psum (of_side k Bid pc_qty) P).
  { apply psum_in; [|exact Hp]. intros q Hq. unfold of_side. destruct (_ && _); [|lia]. pose proof (pk_qty _ _ (ld_piece _ _ _ HL q Hq)). lia. }
  unfold of_side in G at 1. rewrite Es, side_eqb_refl in G. replace (pc_owner p =? k) with true in G by lia. cbn [andb] in G.
  pose proof (pk_qty _ _ (ld_piece _ _ _ HL p Hp)). lia.
Qed.

Lemma move_led w db dq cl ct P k a bf qf pen bt qt : Inv w db dq cl ct P ->
  acct_get k (w_accts w) = Some a ->
  u64_ok bf \/ bf = p_base_free (a_pos a) -> u64_ok qf \/ qf = p_quote_free (a_pos a) ->
  u64_ok pen \/ pen = p_penalty (a_pos a) ->
  u64_ok bt \/ bt = m_base_total (w_mkt w) -> u64_ok qt \/ qt = m_quote_total (w_mkt w) ->
  Inv (w_set_acct (w_set_mkt w (m_set_totals (w_mkt w) bt qt)) k
         (a_set_pos a (p_set_penalty (p_set_quote_free (p_set_base_free (a_pos a) bf) qf) pen)))
      (db + (bf - p_base_free (a_pos a)) - (bt - m_base_total (w_mkt w)))
      (dq + (qf - p_quote_free (a_pos a)) - (qt - m_quote_total (w_mkt w))) cl ct P.
Proof.
  intros HI Ha R1 R2 R3 R4 R5. pose proof HI as [HR HL _ _ _ _ _ _].
  pose proof (ld_mkt _ _ _ HL) as [M1 M2 M3 M4 M5 M6 M7 M8 M9 M10].
  pose proof (ld_acct _ _ _ HL _ _ Ha) as [[Q1 Q2 Q3 Q4 Q5 Q6 Q7 Q8] _ _ _ _ G6 _].
  assert (U1 : u64_ok bf) by (destruct R1 as [R| ->]; assumption). assert (U2 : u64_ok qf) by (destruct R2 as [R| ->]; assumption).
  assert (U3 : u64_ok pen) by (destruct R3 as [R| ->]; assumption). assert (U4 : u64_ok bt) by (destruct R4 as [R| ->]; assumption).
  assert (U5 : u64_ok qt) by (destruct R5 as [R| ->]; assumption).
  set (m' := m_set_totals (w_mkt w) bt qt). set (a' := a_set_pos a _).
  rewrite <- !Z.add_sub_assoc.
  eapply inv_next; [exact HI| | | |].
  - eapply rep_same; [exact HR|intros []; reflexivity|reflexivity].
  - cbn [w_set_acct w_set_accts w_set_mkt w_mkt w_accts].
    apply (led_pos (w_mkt w) (w_accts w) P m' k a a' HL Ha); try reflexivity; try assumption; try (cbn; apply Z.le_refl).
    + constructor; assumption.
    + constructor; cbn [a' a_set_pos a_pos p_set_penalty p_set_quote_free p_set_base_free p_base_free p_quote_free p_locked_fees p_rebates p_penalty p_maker_volume p_taker_volume p_bids_base p_asks_base p_bids_quote]; assumption.
  - apply Z.le_refl.
  - cbn [w_set_acct w_set_accts w_set_mkt w_mkt w_accts]. open_bal;
      rewrite ?(asum_set _ _ _ _ _ Ha), ?(base_claims_cfg (w_mkt w) m' eq_refl), ?(quote_claims_cfg (w_mkt w) m' eq_refl),
        ?(vol_waits_cfg (w_mkt w) m' eq_refl), ?(fee_waits_cfg (w_mkt w) m' eq_refl);
      cbn [m' m_set_totals m_set_quote_total m_set_base_total m_base_total m_quote_total m_fees_available m_maker_volume m_fees_accrued m_taker_volume_wo_oo
        a' a_set_pos a_pos p_set_penalty p_set_quote_free p_set_base_free p_base_free p_quote_free p_locked_fees p_rebates p_maker_volume p_taker_volume]; lia.
Qed.

Lemma totals_led w db dq cl ct P bt qt : Inv w db dq cl ct P -> u64_ok bt -> u64_ok qt ->
  Inv (w_set_mkt w (m_set_totals (w_mkt w) bt qt)) (db - (bt - m_base_total (w_mkt w))) (dq - (qt - m_quote_total (w_mkt w))) cl ct P.
Proof.
  intros HI U4 U5. pose proof HI as [HR HL _ _ _ _ _ _].
  pose proof (ld_mkt _ _ _ HL) as [M1 M2 M3 M4 M5 M6 M7 M8 M9 M10].
  set (m' := m_set_totals (w_mkt w) bt qt). unfold Z.sub at 1 3.
  eapply inv_next; [exact HI| | | |].
  - eapply rep_same; [exact HR|intros []; reflexivity|reflexivity].
  - cbn [w_set_mkt w_mkt w_accts]. apply (led_mkt (w_mkt w)); try reflexivity; try assumption; try (cbn; apply Z.le_refl).
    constructor; assumption.
  - apply Z.le_refl.
  - cbn [w_set_mkt w_mkt w_accts]. open_bal;
      rewrite ?(base_claims_cfg (w_mkt w) m' eq_refl), ?(quote_claims_cfg (w_mkt w) m' eq_refl),
        ?(vol_waits_cfg (w_mkt w) m' eq_refl), ?(fee_waits_cfg (w_mkt w) m' eq_refl);
      cbn [m' m_set_totals m_set_quote_total m_set_base_total m_base_total m_quote_total m_fees_available m_maker_volume m_fees_accrued m_taker_volume_wo_oo]; lia.
Qed.

Lemma settle_step_led w db dq cl ct P k a (referred : bool) : Inv w db dq cl ct P ->
  acct_get k (w_accts w) = Some a ->
  let m' := settled_mkt (w_mkt w) (a_pos a) referred in
  u128_ok (m_fees_to_referrers m') \/ referred = false -> u64_ok (m_rebates_accrued m') ->
  u64_ok (m_fees_available m') \/ referred = true -> u64_ok (m_base_total m') -> u64_ok (m_quote_total m') ->
  Inv (w_set_acct (w_set_mkt w m') k (a_set_pos a (settled_pos (w_mkt w) (a_pos a)))) db dq cl ct P.
Proof.
  intros HI Ha m' R1 R2 R3 R4 R5. pose proof HI as [HR HL _ _ _ _ _ _].
  pose proof (ld_mkt _ _ _ HL) as [M1 M2 M3 M4 M5 M6 M7 M8 M9 M10].
  pose proof (ld_acct _ _ _ HL _ _ Ha) as [[Q1 Q2 Q3 Q4 Q5 Q6 Q7 Q8] _ _ _ _ G6 _].
  assert (Z0 : u64_ok 0) by (unfold u64_ok; lia).
  assert (Z1 : 0 <= round_off (w_mkt w) (a_pos a)) by (unfold round_off, u64_ok in *; destruct (round_now (w_mkt w) (a_pos a)); lia).
  set (a' := a_set_pos a (settled_pos (w_mkt w) (a_pos a))).
  eapply inv_same; [exact HI| | | |].
  - eapply rep_same; [exact HR|intros []; reflexivity|reflexivity].
  - cbn [w_set_acct w_set_accts w_set_mkt w_mkt w_accts].
    apply (led_pos (w_mkt w) (w_accts w) P m' k a a' HL Ha); try reflexivity; try (cbn; apply Z.le_refl).
    + constructor; try assumption.
      * destruct R3 as [R| ->]; [exact R|]. exact M4.
      * unfold m', settled_mkt. cbn [m_fees_to_referrers]. unfold u64_ok in Q4. destruct referred; lia.
    + constructor; cbn [a' a_set_pos a_pos settled_pos p_base_free p_quote_free p_locked_fees p_rebates p_penalty p_maker_volume p_taker_volume p_bids_base p_asks_base p_bids_quote]; try assumption.
      destruct (round_now (w_mkt w) (a_pos a)); assumption.
    + cbn [a' a_set_pos a_pos settled_pos p_locked_fees]. destruct (round_now (w_mkt w) (a_pos a)) eqn:E; [|exact G6].
      unfold round_now in E. rewrite (no_bids_no_need _ _ _ _ _ HL Ha) by lia. lia.
    + cbn [m' settled_mkt m_rebates_accrued a' a_set_pos a_pos settled_pos p_rebates]. lia.
  - apply Z.le_refl.
  - cbn [w_set_acct w_set_accts w_set_mkt w_mkt w_accts]. open_bal;
      rewrite ?(asum_set _ _ _ _ _ Ha), ?(base_claims_cfg (w_mkt w) m' eq_refl), ?(quote_claims_cfg (w_mkt w) m' eq_refl),
        ?(vol_waits_cfg (w_mkt w) m' eq_refl), ?(fee_waits_cfg (w_mkt w) m' eq_refl);
      cbn [m' settled_mkt m_base_total m_quote_total m_fees_available m_maker_volume m_fees_accrued m_taker_volume_wo_oo
        a' a_set_pos a_pos settled_pos p_base_free p_quote_free p_locked_fees p_rebates p_maker_volume p_taker_volume];
      unfold round_off; destruct (round_now (w_mkt w) (a_pos a)), referred; lia.
Qed.

Lemma sweep_led w db dq cl ct P : Inv w db dq cl ct P ->
  u64_ok (m_quote_total (w_mkt w) - m_fees_available (w_mkt w)) ->
  Inv (w_set_mkt w (m_set_quote_total (m_set_fees_available (w_mkt w) 0) (m_quote_total (w_mkt w) - m_fees_available (w_mkt w)))) db dq cl ct P.
Proof.
  intros HI R. pose proof HI as [HR HL _ _ _ _ _ _].
  pose proof (ld_mkt _ _ _ HL) as [M1 M2 M3 M4 M5 M6 M7 M8 M9 M10].
  set (m' := m_set_quote_total _ _).
  eapply inv_same; [exact HI| | | |].
  - eapply rep_same; [exact HR|intros []; reflexivity|reflexivity].
  - cbn [w_set_mkt w_mkt w_accts]. apply (led_mkt (w_mkt w)); try reflexivity; try assumption; try (cbn; apply Z.le_refl).
    constructor; try assumption. unfold m', u64_ok. cbn [m_fees_available m_set_quote_total m_set_fees_available]. lia.
  - apply Z.le_refl.
  - cbn [w_set_mkt w_mkt w_accts]. open_bal;
      rewrite ?(base_claims_cfg (w_mkt w) m' eq_refl), ?(quote_claims_cfg (w_mkt w) m' eq_refl),
        ?(vol_waits_cfg (w_mkt w) m' eq_refl), ?(fee_waits_cfg (w_mkt w) m' eq_refl);
      cbn [m' m_set_quote_total m_set_fees_available m_base_total m_quote_total m_fees_available m_maker_volume m_fees_accrued m_taker_volume_wo_oo]; lia.
Qed.

Lemma expire_led w db dq cl ct P t : Inv w db dq cl ct P -> Inv (w_set_mkt w (m_set_time_expiry (w_mkt w) t)) db dq cl ct P.
Proof.
  intros HI. pose proof HI as [HR HL _ _ _ _ _ _].
  pose proof (ld_mkt _ _ _ HL) as [M1 M2 M3 M4 M5 M6 M7 M8 M9 M10].
  set (m' := m_set_time_expiry _ _).
  eapply inv_same; [exact HI| | | |].
  - eapply rep_same; [exact HR|intros []; reflexivity|reflexivity].
  - cbn [w_set_mkt w_mkt w_accts]. apply (led_mkt (w_mkt w)); try reflexivity; try assumption; try (cbn; apply Z.le_refl).
    constructor; assumption.
  - apply Z.le_refl.
  - cbn [w_set_mkt w_mkt w_accts]. open_bal;
      rewrite ?(base_claims_cfg (w_mkt w) m' eq_refl), ?(quote_claims_cfg (w_mkt w) m' eq_refl),
        ?(vol_waits_cfg (w_mkt w) m' eq_refl), ?(fee_waits_cfg (w_mkt w) m' eq_refl);
      cbn [m' m_set_time_expiry m_base_total m_quote_total m_fees_available m_maker_volume m_fees_accrued m_taker_volume_wo_oo]; lia.
Qed.

Lemma delegate_led w db dq cl ct P k a d : Inv w db dq cl ct P -> acct_get k (w_accts w) = Some a ->
  Inv (w_set_acct w k (a_set_delegate a d)) db dq cl ct P.
Proof.
  intros HI Ha. pose proof HI as [HR HL _ _ _ _ _ _].
  pose proof (ld_acct _ _ _ HL _ _ Ha) as [Q1 _ _ _ _ G6 _].
  eapply inv_same; [exact HI| | | |].
  - eapply rep_same; [exact HR|intros []; reflexivity|reflexivity].
  - cbn [w_set_acct w_set_accts w_mkt w_accts].
    apply (led_pos (w_mkt w) (w_accts w) P (w_mkt w) k a _ HL Ha); try reflexivity; try assumption; try apply Z.le_refl.
    exact (ld_mkt _ _ _ HL).
  - apply Z.le_refl.
  - cbn [w_set_acct w_set_accts w_mkt w_accts]. open_bal; rewrite ?(asum_set _ _ _ _ _ Ha); cbn [a_set_delegate a_pos]; lia.
Qed.

(** ** Accounts come and go *)
Lemma pieces_owned m ac P k : Led m ac P -> acct_get k ac = None -> forall p, In p P -> pc_owner p <> k.
Proof. intros HL Hk p Hp E. destruct (ld_back _ _ _ HL p Hp) as (a & Ha & _). congruence. Qed.

Lemma get_none_nin k ac : acct_get k ac = None -> ~ In k (map fst ac).
Proof.
  induction ac as [|[j x] r IH]; cbn [acct_get map fst]; intros H; [intros []|].
  destruct (k =? j) eqn:E; [discriminate|]. intros [->|Hin]; [lia|]. exact (IH H Hin).
Qed.

Lemma used_new owner delegate num i : used (new_account owner delegate num) i = 0.
Proof.
  unfold used, order_at, massert, require, new_account. cbn [a_orders]. destruct (0 <=? i); cbn [bind]; [|reflexivity].
  destruct (nth_error (repeat open_order0 MAX_OPEN_ORDERS) (Z.to_nat i)) as [oo|] eqn:E; [|reflexivity].
  apply nth_error_In, repeat_spec in E. subst oo. reflexivity.
Qed.

Lemma create_led w db dq cl ct P k owner delegate num : Inv w db dq cl ct P -> acct_get k (w_accts w) = None ->
  Inv (w_set_accts w ((k, new_account owner delegate num) :: w_accts w)) db dq cl ct P.
Proof.
  intros HI Hk. pose proof HI as [HR HL _ _ _ _ _ _]. pose proof (pieces_owned _ _ _ _ HL Hk) as Hno.
  eapply inv_same; [exact HI| | | |].
  - eapply rep_same; [exact HR|intros []; reflexivity|reflexivity].
  - cbn [w_set_accts w_mkt w_accts]. destruct HL as [L1 L2 L3 L4 L5 L6 L7]. constructor; auto.
    + intros k' a. cbn [acct_get]. destruct (Z.eqb_spec k' k) as [->|Hne]; [|apply L2]. intros E. injection E as <-.
      constructor.
      * pose proof (mk_mv _ L1). constructor; cbn [new_account a_pos position0 p_base_free p_quote_free p_locked_fees p_rebates p_penalty p_maker_volume p_taker_volume p_bids_base p_asks_base p_bids_quote]; unfold u64_ok; lia.
      * cbn [new_account a_orders]. apply repeat_length.
      * rewrite of_side_other by exact Hno. reflexivity.
      * rewrite of_side_other by exact Hno. reflexivity.
      * rewrite of_side_other by exact Hno. reflexivity.
      * rewrite of_acct_perm_other by exact Hno. cbn. lia.
      * intros i. rewrite in_slot_other by exact Hno. symmetry. apply used_new.
    + intros p Hp. destruct (L4 p Hp) as (a & Ha & Hs). exists a. split; [|exact Hs]. cbn [acct_get].
      replace (pc_owner p =? k) with false; [exact Ha|]. symmetry. apply Z.eqb_neq. apply Hno. exact Hp.
    + cbn [map fst]. constructor; [apply get_none_nin; exact Hk|exact L7].
  - apply Z.le_refl.
  - cbn [w_set_accts w_mkt w_accts]. open_bal; rewrite ?asum_cons; cbn [new_account a_pos position0 p_base_free p_quote_free p_locked_fees p_rebates p_maker_volume p_taker_volume]; lia.
Qed.

(** An account with nothing locked on either side has no piece. *)
Lemma empty_no_pieces m ac P k a : Led m ac P -> acct_get k ac = Some a ->
  p_bids_base (a_pos a) = 0 -> p_asks_base (a_pos a) = 0 -> forall p, In p P -> pc_owner p <> k.
Proof.
  intros HL Ha E1 E2 p Hp Ek. pose proof (ld_acct _ _ _ HL _ _ Ha) as [_ _ G1 G2 _ _ _].
  assert (G : forall s, of_side k s pc_qty p <= psum (of_side k s pc_qty) P).
  { intros s. apply psum_in; [|exact Hp]. intros q Hq. unfold of_side. destruct (_ && _); [|lia]. pose proof (pk_qty _ _ (ld_piece _ _ _ HL q Hq)). lia. }
  pose proof (pk_qty _ _ (ld_piece _ _ _ HL p Hp)) as Hq. specialize (G (pc_side p)). unfold of_side in G at 1.
  rewrite side_eqb_refl in G. replace (pc_owner p =? k) with true in G by lia. cbn [andb] in G.
  destruct (pc_side p); lia.
Qed.

Lemma get_del_other k k' ac : k' <> k -> acct_get k' (acct_del k ac) = acct_get k' ac.
Proof.
  intros H. induction ac as [|[j x] r IH]; cbn [acct_del acct_get]; [reflexivity|].
  destruct (Z.eqb_spec k j) as [->|]; [replace (k' =? j) with false by lia; reflexivity|].
  cbn [acct_get]. rewrite IH. reflexivity.
Qed.
Lemma get_del_same k ac : NoDup (map fst ac) -> acct_get k (acct_del k ac) = None.
Proof.
  induction ac as [|[j x] r IH]; cbn [acct_del acct_get map fst]; intros H; [reflexivity|]. inversion H as [|? ? H1 H2]; subst.
  destruct (Z.eqb_spec k j) as [->|Hne].
  - destruct (acct_get j r) as [b|] eqn:E; [|reflexivity]. exfalso. apply H1. apply acct_get_in in E. apply in_map_iff. exists (j, b). auto.
  - cbn [acct_get]. replace (k =? j) with false by lia. apply IH. exact H2.
Qed.
Lemma nodup_del k ac : NoDup (map fst ac) -> NoDup (map fst (acct_del k ac)).
Proof.
  induction ac as [|[j x] r IH]; cbn [acct_del map fst]; intros H; [constructor|]. inversion H as [|? ? H1 H2]; subst.
  destruct (Z.eqb_spec k j) as [->|Hne]; [exact H2|]. cbn [map fst]. constructor; [|apply IH; exact H2].
  intros Hin. apply H1. apply in_map_iff in Hin as ([j' b] & E & Hin). cbn in E. subst j'. apply in_map_iff. exists (j, b).
  split; [reflexivity|]. clear -Hin. induction r as [|[q y] r IH]; cbn [acct_del] in Hin; [destruct Hin|].
  destruct (k =? q); [right; exact Hin|]. destruct Hin as [E|Hin]; [left; exact E|right; auto].
Qed.

Lemma closes_led w db dq cl ct P k a w' : Inv w db dq cl ct P -> closes w w' k a ->
  Inv w' db dq (cl + p_maker_volume (a_pos a)) (ct + p_taker_volume (a_pos a)) P.
Proof.
  intros [HR HL Gb Gq Gv Gf Gl Gt] (Ha & Hem & ->). unfold position_is_empty in Hem.
  repeat (apply andb_prop in Hem; destruct Hem as [Hem ?]).
  assert (Hno : forall p, In p P -> pc_owner p <> k) by (eapply empty_no_pieces; [exact HL|exact Ha|lia|lia]).
  constructor; cbn [w_set_accts w_mkt w_accts].
  - eapply rep_same; [exact HR|intros []; reflexivity|reflexivity].
  - destruct HL as [L1 L2 L3 L4 L5 L6 L7]. constructor; auto.
    + intros k' b Hb. apply L2. destruct (Z.eq_dec k' k) as [->|Hne]; [rewrite get_del_same in Hb by exact L7; discriminate|].
      rewrite get_del_other in Hb by exact Hne. exact Hb.
    + intros p Hp. destruct (L4 p Hp) as (b & Hb & Hs). exists b. split; [|exact Hs]. rewrite get_del_other by (apply Hno; exact Hp). exact Hb.
    + rewrite (asum_del _ _ _ _ Ha). lia.
    + apply nodup_del. exact L7.
  - unfold base_gap in *. rewrite (asum_del _ _ _ _ Ha). lia.
  - unfold quote_gap in *. rewrite !(asum_del _ _ _ _ Ha). lia.
  - exact Gv.
  - exact Gf.
  - unfold vol_lost in *. rewrite (asum_del _ _ _ _ Ha). lia.
  - unfold vol_taken in *. rewrite (asum_del _ _ _ _ Ha). lia.
Qed.

(** ** All steps, all executions *)
Lemma wstep_inv who w db dq w' db' dq' cl ct P : wstep who w db dq w' db' dq' -> Inv w db dq cl ct P ->
  exists P', Inv w' db' dq' cl ct P'.
Proof.
  intros H HI. destruct H as [w db dq o oracle taker owner now limit rem w' r Ho Ht Hl Hn H |w db dq k a oo ex w' l Ha Hoo Hfr H|w db dq rem slot w' H|w db dq k a bf qf pen bt qt Ha R1 R2 R3 R4 R5 |w db dq bt qt R1 R2|w db dq k a referred Ha m' R1 R2 R3 R4 R5|w db dq R|w db dq k owner delegate num Hk Hk0 |w db dq k a d Ha|w db dq].
  - exact (new_order_led _ _ _ _ _ _ _ _ _ _ _ _ _ _ _ HI Ho Ht H).
  - destruct (cancel_led _ _ _ _ _ _ _ _ _ _ _ _ HI Ha Hoo Hfr H) as (P' & G & _). exists P'. exact G.
  - exact (consume_led _ _ _ _ _ _ _ _ _ HI H).
  - exists P. exact (move_led _ _ _ _ _ _ _ _ _ _ _ _ _ HI Ha R1 R2 R3 R4 R5).
  - exists P. exact (totals_led _ _ _ _ _ _ _ _ HI R1 R2).
  - exists P. exact (settle_step_led _ _ _ _ _ _ _ _ _ HI Ha R1 R2 R3 R4 R5).
  - exists P. exact (sweep_led _ _ _ _ _ _ HI R).
  - exists P. exact (create_led _ _ _ _ _ _ _ _ _ _ HI Hk).
  - exists P. exact (delegate_led _ _ _ _ _ _ _ _ _ HI Ha).
  - exists P. exact (expire_led _ _ _ _ _ _ _ HI).
Qed.

Lemma wsteps_inv who w db dq w' db' dq' cl ct : wsteps who w db dq w' db' dq' -> forall P, Inv w db dq cl ct P ->
  exists P', Inv w' db' dq' cl ct P'.
Proof.
  induction 1 as [w db dq|w db dq w1 db1 dq1 w2 db2 dq2 H1 _ IH]; intros P HI; [exists P; exact HI|].
  destruct (wstep_inv _ _ _ _ _ _ _ _ _ _ H1 HI) as (P1 & G). exact (IH P1 G).
Qed.

Lemma create_market_inv now t c te s : create_market_ix now t c te = Ok s -> Inv (s_w s) 0 0 0 0 [].
Proof.
  intros H. pose proof (create_sound _ _ _ _ _ H) as [Hc _].
  unfold create_market_ix in H. do 8 (apply bind_ok in H as (? & _ & H)). injection H as <-. cbn [s_w] in *.
  constructor; cbn [w_mkt w_accts w_heap]; try reflexivity.
  - constructor.
    + intros sd.
      assert (Hb : w_book (mkWorld (mkMarket c te 0 0 0 0 0 0 0 0 0) (bookside_init Bid) (bookside_init Ask) heap_init []) sd = bookside_init sd) by (destruct sd; reflexivity).
      rewrite Hb. exists (fun _ => None). split; [|reflexivity].
      constructor; try (intros ? ? []); [apply bs_init_ok|reflexivity|apply br_init].
    + exists []. split; [exact heap_init_ok|reflexivity].
  - constructor; cbn; try (intros; contradiction); try discriminate; try lia.
    + constructor; try exact Hc; cbn; unfold u64_ok; lia.
    + constructor.
Qed.
