(** Settling, expiry, closing, order ids and token movements over whole executions. *)
From Coq Require Import ZArith List Bool Lia ZifyBool Permutation.
From Verif Require Import Base Nodes OrderTree BookSide Heap Market OpenOrders Order Book Instructions
  BaseFacts NodesFacts HeapFacts TreeRep TreeFacts TreeOps TreeIter BookSideFacts BookSideOrder BookSpecProofs SpecBook SpecFees FeeFacts SpecOrder MatchFacts MatchBook OrderFacts PlaceFacts OrderSpecProofs
  Steps StepFacts TokenFacts SpecLedger SpecEvents Ledger LedgerOps LedgerMoves LedgerPlace LedgerOrder LedgerInv SpecSystem SystemFacts Solvency ConsumeFacts CancelFacts SpecControl ControlFacts.
Import ListNotations.
Open Scope Z_scope.

(** ** Orders and events across steps *)
Lemma in_orders s bs T t l w : fits s bs T -> w_book w s = bs -> In (t, l) (orders w s) <-> In l (oleaves (T t)).
Proof.
  intros Hf Eb. unfold orders. rewrite Eb, (proj1 (fits_orders _ _ _ Fixed Hf)), (proj1 (fits_orders _ _ _ OraclePegged Hf)).
  rewrite in_app_iff, !in_map_iff. split.
  - intros [(x & E & H)|(x & E & H)]; injection E as <- <-; apply (Permutation_in _ (dir_perm s _)) in H; exact H.
  - intros H. destruct t; [left|right]; exists l; (split; [reflexivity|]); apply (Permutation_in _ (Permutation_sym (dir_perm s _))); exact H.
Qed.

(** An order on the book was there before, or is new. *)
Definition older (w w' : world) : Prop := forall sd t l, In (t, l) (orders w' sd) ->
  (exists l0, In (t, l0) (orders w sd) /\ lf_key l0 = lf_key l) \/ m_seq (w_mkt w) < seq_of sd l <= m_seq (w_mkt w').
Definition shrinks (w w' : world) : Prop :=
  (forall sd x, In x (orders w' sd) -> In x (orders w sd)) /\ (forall e, In e (waiting w') -> In e (waiting w)).
Lemma shrinks_refl w : shrinks w w.
Proof. split; intros; assumption. Qed.
Lemma shrinks_trans w w1 w2 : shrinks w w1 -> shrinks w1 w2 -> shrinks w w2.
Proof. intros [A B] [C D]. split; [intros sd x Hx; apply A, C, Hx|intros e He; apply B, D, He]. Qed.
Lemma shrinks_same w w' : (forall sd, w_book w' sd = w_book w sd) -> w_heap w' = w_heap w -> shrinks w w'.
Proof.
  intros Hb Hh. split.
  - intros sd x. unfold orders. rewrite Hb. exact (fun H => H).
  - intros e. unfold waiting, queue_of. rewrite Hh. exact (fun H => H).
Qed.
Lemma shrinks_older w w' : shrinks w w' -> older w w'.
Proof. intros [H _] sd t l Hl. left. exists l. split; [apply H; exact Hl|reflexivity]. Qed.

Lemma new_order_older w o oracle taker owner now limit rem w' r : world_sound w ->
  sound_call w o taker owner -> new_order w o oracle taker owner now limit rem = Ok (w', r) ->
  older w w' /\ m_seq (w_mkt w') = m_seq (w_mkt w) + 1 /\
  match oa_order_id r with Some id => exists l, lf_key l = id /\ seq_of (o_side o) l = m_seq (w_mkt w') | None => True end.
Proof.
  intros Hw Hsc H. destruct (new_order_full _ _ _ _ _ _ _ _ _ _ Hsc H)
    as (T & T0 & price & pd & maxq & acts & ms & lf & w2 & bt & qt & tf & ra & rq & mf & b2 & T2 & T3 & gone & put
        & Hf & Hf0 & Hpl & Hex & _ & _ & _ & _ & _ & Eb2 & Hf3 & HP & Ec & Es & Hput).
  pose proof Hpl as [_ Hseq _ _ _ _ _ Hf2 Hlv _ _ _]. pose proof (ex_put _ _ _ _ _ _ _ _ _ _ _ _ _ Hex) as Hpo.
  assert (Hnew : match put with Some (t, l) => seq_of (o_side o) l = m_seq (w_mkt w) + 1 | None => True end).
  { destruct put as [[t l]|]; [|exact I]. apply (seq_of_new _ pd); [lia|exact (pf_key _ _ _ _ _ _ _ _ _ _ _ Hput)]. }
  split; [|split; [exact Es|]].
  - intros sd t l Hl. assert (Hcase : sd = o_side o \/ sd = invert_side (o_side o)) by (destruct sd, (o_side o); auto).
    destruct Hcase as [-> | ->].
    + apply (in_orders _ _ _ _ _ _ Hf3 eq_refl) in Hl. apply in_all_leaves in Hl.
      assert (Hin : In (t, l) ((match put with Some x => [x] | None => [] end) ++ all_leaves T0)).
      { apply (Permutation_in _ (Permutation_sym HP)). apply in_or_app. left. exact Hl. }
      apply in_app_or in Hin as [Hin|Hin].
      * destruct put as [[t' l']|]; [|destruct Hin]. destruct Hin as [E|[]]. injection E as -> ->. right. lia.
      * left. exists l. split; [|reflexivity]. apply (in_orders _ _ _ _ _ _ Hf0 eq_refl). apply in_all_leaves. exact Hin.
    + rewrite <- Eb2 in Hf2. apply (in_orders _ _ _ _ _ _ Hf2 eq_refl) in Hl. rewrite Hlv in Hl. apply residues_in in Hl as (l0 & Hl0 & R).
      left. exists l0. split; [apply (in_orders _ _ _ _ _ _ Hf eq_refl); exact Hl0|]. symmetry. exact (residue_key _ _ _ _ R).
  - destruct put as [[t l]|]; cbn [put_ok] in Hpo.
    + destruct Hpo as (_ & -> & _). exists l. split; [reflexivity|lia].
    + destruct Hpo as (-> & _). exact I.
Qed.

Lemma consume_shrinks w db dq cl ct P rem slot w' : Inv w db dq cl ct P -> consume_one w rem slot = Ok w' -> shrinks w w'.
Proof.
  intros HI H. destruct (rp_heap _ _ (iv_rep _ _ _ _ _ _ HI)) as (L & Hh & _).
  apply consume_one_inv in H as (ev & He & H). pose proof (at_slot_nonneg _ _ _ He) as Hs.
  assert (G : forall h' x, delete_slot (w_heap w) slot = Ok (h', x) -> forall w1, w_heap w1 = h' -> (forall sd, w_book w1 sd = w_book w sd) -> shrinks w w1).
  { intros h' x Hd w1 Eh Eb. destruct (delete_slot_ok _ _ _ _ _ Hh Hs Hd) as (L1 & L2 & -> & Hh'). split.
    - intros sd y. unfold orders. rewrite Eb. exact (fun H => H).
    - intros e0. unfold waiting, queue_of. rewrite Eh, (heap_iter_rep _ _ Hh), (heap_iter_rep _ _ Hh').
      rewrite !map_app. cbn [map]. rewrite !in_app_iff. cbn [In]. tauto. }
  destruct ev as [f|e].
  - destruct (mem_key (fe_maker f) rem); [|subst; apply shrinks_refl].
    destruct H as (a & a' & m' & h' & x & _ & _ & Hd & ->). eapply G; [exact Hd|reflexivity|intros []; reflexivity].
  - destruct (mem_key (oe_owner e) rem); [|subst; apply shrinks_refl].
    destruct H as (a & a' & h' & x & _ & _ & Hd & ->). eapply G; [exact Hd|reflexivity|intros []; reflexivity].
Qed.

Lemma wstep_older who w db dq w' db' dq' cl ct P : wstep who w db dq w' db' dq' -> Inv w db dq cl ct P ->
  older w w' /\ m_seq (w_mkt w) <= m_seq (w_mkt w') /\ (m_seq (w_mkt w') = m_seq (w_mkt w) -> shrinks w w').
Proof.
  intros H HI. pose proof (rep_sound _ _ (iv_rep _ _ _ _ _ _ HI) (iv_led _ _ _ _ _ _ HI)) as Hs.
  assert (G : shrinks w w' -> m_seq (w_mkt w') = m_seq (w_mkt w) ->
    older w w' /\ m_seq (w_mkt w) <= m_seq (w_mkt w') /\ (m_seq (w_mkt w') = m_seq (w_mkt w) -> shrinks w w')).
  { intros G E. split; [apply shrinks_older; exact G|]. split; [lia|intros _; exact G]. }
  destruct H as [w db dq o oracle taker owner now limit rem w' r Ho Ht Hl Hn H Hw
    |w db dq k1 a oo ex w' l Ha Hoo Hfr H Hw|w db dq rem slot w' H|w db dq k1 a bf qf pen bt qt Ha R1 R2 R3 R4 R5 Hw
    |w db dq bt qt R1 R2|w db dq k1 a referred Ha m' R1 R2 R3 R4 R5 Hw|w db dq R|w db dq k1 owner delegate num Hk1 Hk0 Hw
    |w db dq k1 a d Ha Hw|w db dq].
  - assert (Hsc : sound_call w o taker owner) by (apply sound_call_of; [exact Hs|exact Ho|destruct Ht as [Ht|[Ht _]]; auto]).
    destruct (new_order_older _ _ _ _ _ _ _ _ _ _ Hs Hsc H) as (G1 & G2 & _). split; [exact G1|]. split; [lia|intros; lia].
  - destruct (cancel_led _ _ _ _ _ _ _ _ _ _ _ _ HI Ha Hoo Hfr H) as (P' & HI' & _ & _ & _ & HP).
    destruct (book_cancel_mkt _ _ _ _ _ _ _ _ H) as [E1 E2]. apply G; [|rewrite E1; reflexivity]. split.
    + intros sd x Hx. apply (Permutation_in _ (rep_orders _ _ sd (iv_rep _ _ _ _ _ _ HI'))) in Hx.
      apply (Permutation_in _ (Permutation_sym (rep_orders _ _ sd (iv_rep _ _ _ _ _ _ HI)))).
      apply (Permutation_in _ (Permutation_sym (pleaves_perm sd _ _ HP))). rewrite pleaves_cons. destruct (side_eqb (oo_side oo) sd); [right|]; exact Hx.
    + intros e. unfold waiting, queue_of. rewrite E2. exact (fun H => H).
  - apply G; [eapply consume_shrinks; eassumption|]. apply consume_one_inv in H as (ev & _ & H). destruct ev as [f|e].
    + destruct (mem_key (fe_maker f) rem); [|subst; reflexivity].
      destruct H as (a & a' & m' & h' & x & _ & E & _ & ->). apply execute_maker_mkt in E as (_ & E & _). exact E.
    + destruct (mem_key (oe_owner e) rem); [|subst; reflexivity]. destruct H as (a & a' & h' & x & _ & _ & _ & ->). reflexivity.
  - apply G; [apply shrinks_same; [intros []|]; reflexivity|reflexivity].
  - apply G; [apply shrinks_same; [intros []|]; reflexivity|reflexivity].
  - apply G; [apply shrinks_same; [intros []|]; reflexivity|reflexivity].
  - apply G; [apply shrinks_same; [intros []|]; reflexivity|reflexivity].
  - apply G; [apply shrinks_same; [intros []|]; reflexivity|reflexivity].
  - apply G; [apply shrinks_same; [intros []|]; reflexivity|reflexivity].
  - apply G; [apply shrinks_same; [intros []|]; reflexivity|reflexivity].
Qed.

Lemma older_trans w w1 w2 : older w w1 -> older w1 w2 -> m_seq (w_mkt w) <= m_seq (w_mkt w1) -> m_seq (w_mkt w1) <= m_seq (w_mkt w2) -> older w w2.
Proof.
  intros H1 H2 L1 L2 sd t l Hl. destruct (H2 _ _ _ Hl) as [(l0 & Hl0 & E)|G]; [|right; lia].
  destruct (H1 _ _ _ Hl0) as [(l1 & Hl1 & E1)|G]; [left; exists l1; split; [exact Hl1|congruence]|].
  right. rewrite <- (seq_of_key sd l l0 E). lia.
Qed.
Lemma wsteps_older who w db dq w' db' dq' : wsteps who w db dq w' db' dq' -> forall cl ct P, Inv w db dq cl ct P ->
  older w w' /\ m_seq (w_mkt w) <= m_seq (w_mkt w') /\ (m_seq (w_mkt w') = m_seq (w_mkt w) -> shrinks w w').
Proof.
  induction 1 as [w db dq|w db dq w1 db1 dq1 w2 db2 dq2 H1 H2 IH]; intros cl ct P HI.
  - split; [apply shrinks_older, shrinks_refl|]. split; [lia|intros; apply shrinks_refl].
  - destruct (wstep_older _ _ _ _ _ _ _ _ _ _ H1 HI) as (A1 & A2 & A3).
    destruct (wstep_inv _ _ _ _ _ _ _ _ _ _ H1 HI) as (P1 & HI1). destruct (IH _ _ _ HI1) as (B1 & B2 & B3).
    split; [exact (older_trans _ _ _ A1 B1 A2 B2)|]. split; [lia|]. intros E. eapply shrinks_trans; [apply A3; lia|apply B3; lia].
Qed.
Lemma exec_older e s i s' out : reachable s -> exec e s i = Ok (s', out) ->
  older (s_w s) (s_w s') /\ m_seq (w_mkt (s_w s)) <= m_seq (w_mkt (s_w s')) /\
  (m_seq (w_mkt (s_w s')) = m_seq (w_mkt (s_w s)) -> shrinks (s_w s) (s_w s')).
Proof.
  intros Hr H. destruct (reachable_inv _ Hr) as (cl & ct & P & HI). pose proof (exec_steps _ _ _ _ _ (reachable_sound s Hr) H) as Hst.
  destruct i; try (eapply wsteps_older; eassumption).
  destruct Hst as (b & Hb & _ & Hw).
  assert (G : shrinks (s_w s) (s_w s')) by (rewrite Hw; apply shrinks_same; [intros []|]; reflexivity).
  split; [apply shrinks_older; exact G|]. split; [rewrite Hw; apply Z.le_refl|intros _; exact G].
Qed.
