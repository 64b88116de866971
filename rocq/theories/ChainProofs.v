(** Proofs about the client's cache of accounts: the stored writes and the answers. *)
From Coq Require Import ZArith List Bool Lia ZifyBool.
From Verif Require Import Base BaseFacts ChainData SpecChain ChainFacts ChainInv ChainTrack.
Import ListNotations.
Open Scope Z_scope.

(** ** Marks when a slot becomes the newest root *)
Lemma root_marks h c d m2 best : orderly (h ++ [NSlot d]) -> tracks h c -> sd_status d = Rooted -> cd_rooted c < sd_slot d ->
  best = cd_best c ->
  (if (match sd_parent d with Some _ => cd_best c <? sd_slot d | None => false end) || snd (record_slot (cd_slots c) d)
   then mark (S (length (fst (record_slot (cd_slots c) d)))) (fst (record_slot (cd_slots c) d)) best best
   else Ok (fst (record_slot (cd_slots c) d))) = Ok m2 ->
  (forall s v, map_get s m2 = Some v -> s <= cd_rooted c -> sd_status v = Rooted) /\
  (forall s, cd_rooted c < s -> s < sd_slot d ->
     match map_get s m2 with
     | Some v => sd_status v <> Rooted /\ (s <= best -> (sd_chain v = best <-> ancestor h (head_in h) s))
     | None => ~ notified h s
     end) /\
  (forall v, map_get (sd_slot d) m2 = Some v -> sd_status v = Rooted).
Proof.
  intros Ho' [Tb Tr Tr0 Ti Tl Ta Tc Tv] Er Lr -> Em.
  destruct (orderly_inv _ _ Ho') as [Ho (O1 & O2 & O3 & O4 & O5 & O6 & O7 & O8)]. pose proof (orderly_falling _ Ho) as Hf.
  set (m1 := fst (record_slot (cd_slots c) d)) in *.
  assert (E1 : forall t, t <> sd_slot d -> map_get t m1 = map_get t (cd_slots c)).
  { intros t Ht. unfold m1. rewrite record_get. destruct (Z.eqb_spec (sd_slot d) t); [congruence|reflexivity]. }
  assert (E2 : forall v, map_get (sd_slot d) m1 = Some v -> sd_status v = Rooted).
  { intros v E. unfold m1 in E. rewrite record_get, Z.eqb_refl in E. injection E as <-.
    destruct (map_get (sd_slot d) (cd_slots c)); cbn [sd_status]; rewrite Er; [cbn; rewrite orb_true_r|]; reflexivity. }
  assert (Wk : forall a t, walk m1 a t -> cd_rooted c < t -> ancestor h a t).
  { intros a t W. induction W as [s v H|s v p t H Hs Hp W IH]; intros L; [constructor|].
    destruct (Z.eq_dec s (sd_slot d)) as [->|Hsd]; [exfalso; apply Hs; exact (E2 _ H)|].
    rewrite (E1 _ Hsd) in H. destruct (Z.leb_spec s (cd_rooted c)) as [G|G]; [exfalso; apply Hs; exact (Tl _ _ G H)|].
    specialize (Ti s G). rewrite H in Ti. destruct Ti as (_ & T2 & _). econstructor; [rewrite <- T2; exact Hp|exact (IH L)]. }
  assert (Hal : alike m1 m2 /\ forall t v v', map_get t m1 = Some v -> map_get t m2 = Some v' ->
    (walk m1 (cd_best c) t /\ sd_chain v' = cd_best c) \/ sd_chain v' = sd_chain v).
  { destruct (_ || snd (record_slot (cd_slots c) d)).
    - apply mark_spec in Em as [A Hm]. split; [exact A|]. intros t v v' Hv Hv'. destruct (Hm t v v' Hv Hv') as [[W E]|[W E]]; auto.
    - injection Em as <-. split; [intros t; destruct (map_get t m1); auto|]. intros t v v' Hv Hv'. right. congruence. }
  destruct Hal as [Hal Hch]. repeat split.
  - intros s v E L. pose proof (Hal s) as A. rewrite E, E1 in A by lia. destruct (map_get s (cd_slots c)) as [v0|] eqn:E0; [|contradiction].
    destruct A as [_ ->]. exact (Tl _ _ L E0).
  - intros s L1 L2. pose proof (Hal s) as A. pose proof (Ti s L1) as Tis. pose proof (Tv s) as Tvs. pose proof (Hch s) as Hchs. rewrite E1 in A, Hchs by lia.
    destruct (map_get s (cd_slots c)) as [v0|] eqn:E0, (map_get s m2) as [v|] eqn:Ev; try contradiction; [|exact Tis].
    destruct A as [_ A]. destruct Tis as (_ & _ & T3). rewrite A. split; [exact T3|]. intros Lb. specialize (Tvs v0 L1 Lb eq_refl). rewrite Tb in Tvs at 2.
    destruct (Hchs _ _ eq_refl eq_refl) as [[W Ec]|Ec]; [|rewrite Ec; exact Tvs].
    split; [|intros _; exact Ec]. intros _. rewrite <- Tb. apply Wk; assumption.
  - intros v E. pose proof (Hal (sd_slot d)) as A. rewrite E in A. destruct (map_get (sd_slot d) m1) as [v0|] eqn:E0; [|contradiction].
    destruct A as [_ ->]. apply E2. reflexivity.
Qed.

(** ** The stored writes *)
Definition lost (h : list news) (R : Z) (K : list write) (w : write) : Prop :=
  wr_slot w <= R /\
  (~ ancestor h (head_in h) (wr_slot w) \/
   exists w', In w' K /\ ancestor h (head_in h) (wr_slot w') /\ wr_slot w < wr_slot w' <= R).
Definition holds_chain (h : list news) (c : chain_data) : Prop :=
  forall k, match map_get k (cd_accounts c) with
            | None => writes_of k h = []
            | Some l => exists K, l = stored K /\ kept (lost h (cd_rooted c) K) K (writes_of k h) /\
                forall w, In w K -> wr_slot w <= cd_rooted c -> ancestor h (head_in h) (wr_slot w)
            end.

Lemma orderly_writes h : orderly h -> forall k w, In w (writes_of k h) -> 1 <= wr_slot w /\ In (NWrite k w) h.
Proof.
  induction 1 as [|h d Ho IH Hs|h j w0 Ho IH Hs]; intros k w Hw; [destruct Hw| |]; rewrite writes_of_snoc in Hw; apply in_app_or in Hw as [Hw|Hw].
  - destruct (IH k w Hw). split; [assumption|]. apply in_or_app. auto.
  - destruct Hw.
  - destruct (IH k w Hw). split; [assumption|]. apply in_or_app. auto.
  - destruct (Z.eqb_spec j k) as [->|]; [|destruct Hw]. destruct Hw as [<-|[]]. split; [exact (proj1 Hs)|]. apply in_or_app. right. left. reflexivity.
Qed.

Lemma holds_slot h c d c' : orderly (h ++ [NSlot d]) -> tracks h c -> update_slot c d = Ok c' -> holds_chain h c -> holds_chain (h ++ [NSlot d]) c'.
Proof.
  intros Ho' T E IH k. pose proof (IH k) as IHk. pose proof (proj1 (orderly_inv _ _ Ho')) as Ho.
  pose proof (orderly_writes _ Ho k) as Hw1. rewrite writes_of_snoc, app_nil_r.
  assert (Set_ : forall w, In w (writes_of k h) -> wr_slot w <= cd_rooted c ->
    (ancestor (h ++ [NSlot d]) (head_in (h ++ [NSlot d])) (wr_slot w) <-> ancestor h (head_in h) (wr_slot w))).
  { intros w Iw L. destruct (t_root _ _ T) as [Z0|Hr]; [destruct (Hw1 w Iw); lia|]. exact (settled _ _ _ _ Ho' Hr L). }
  apply update_slot_inv in E. cbv zeta in E. destruct E as (ER & EB & m2 & Em & _ & EA).
  destruct ((cd_rooted c <? sd_slot d) && is_rooted (sd_status d)) eqn:Enr.
  - apply andb_true_iff in Enr as [Lr Er]. apply Z.ltb_lt in Lr. apply is_rooted_spec in Er.
    apply prune_accounts_get in EA as [_ EA]. specialize (EA k).
    destruct (map_get k (cd_accounts c)) as [l|] eqn:El; rewrite EA; [|exact IHk].
    destruct IHk as (K & -> & HK & HA).
    destruct (orderly_inv _ _ Ho') as [_ (O1 & O2 & O3 & O4 & O5 & O6 & O7 & O8)].
    assert (Hrd : rooted (h ++ [NSlot d]) (sd_slot d)) by (apply rooted_snoc; right; eauto).
    (* a slot that is rooted adds no link and is no new head *)
    assert (Hpar : forall s, parent_in (h ++ [NSlot d]) s = parent_in h s).
    { intros s. rewrite parent_in_snoc. destruct (parent_in h s) eqn:Es; [reflexivity|]. destruct (Z.eqb_spec (sd_slot d) s) as [<-|]; [|reflexivity].
      destruct (sd_parent d) as [p|] eqn:Ep; [|reflexivity]. destruct (O7 ltac:(discriminate) Es) as [C _]. contradiction. }
    assert (Hnb : match sd_parent d with Some _ => cd_best c <? sd_slot d | None => false end = false).
    { destruct (sd_parent d) as [p|] eqn:Ep; [|reflexivity]. destruct (parent_in h (sd_slot d)) as [q|] eqn:Eq.
      - apply head_in_max in Eq. rewrite (t_best _ _ T). lia.
      - destruct (O7 ltac:(discriminate) eq_refl) as [C _]. contradiction. }
    rewrite Hnb in EB. assert (Hhd : head_in (h ++ [NSlot d]) = head_in h).
    { rewrite head_in_snoc. rewrite (t_best _ _ T) in Hnb. destruct (sd_parent d); [rewrite Hnb|]; reflexivity. }
    assert (Ean : forall s, ancestor (h ++ [NSlot d]) (head_in (h ++ [NSlot d])) s <-> ancestor h (head_in h) s).
    { intros s. rewrite Hhd. symmetry. apply ancestor_same. exact Hpar. }
    pose proof (root_marks _ _ _ m2 _ Ho' T Er Lr EB Em) as (G1 & G2 & G3). rewrite ER in *. rewrite EB in *.
    assert (Hrb : sd_slot d <= cd_best c).
    { rewrite (t_best _ _ T). rewrite <- Hhd. apply (ancestor_le _ _ _ (orderly_falling _ Ho')). exact (O8 _ Hrd). }
    set (P := fun w => (wr_slot w <=? sd_slot d) &&
       match map_get (wr_slot w) m2 with
       | Some s => is_rooted (sd_status s) || (sd_chain s =? cd_best c)
       | None => true
       end).
    assert (HP : forall w, In w K -> (P w = true <-> wr_slot w <= sd_slot d /\ ancestor h (head_in h) (wr_slot w))).
    { intros w Iw. unfold P. rewrite andb_true_iff. rewrite Z.leb_le.
      destruct (Z.leb_spec (wr_slot w) (sd_slot d)) as [Ld|Ld]; [|split; intros []; lia].
      apply and_iff_compat_l. destruct (Z.leb_spec (wr_slot w) (cd_rooted c)) as [L|L].
      - split; [intros _; exact (HA w Iw L)|]. intros _. destruct (map_get (wr_slot w) m2) as [v|] eqn:Ev; [|reflexivity].
        rewrite (G1 _ _ Ev L). reflexivity.
      - destruct (Z.eq_dec (wr_slot w) (sd_slot d)) as [Ew|Ew].
        + rewrite Ew. split; [intros _; apply Ean; exact (O8 _ Hrd)|]. intros _.
          destruct (map_get (sd_slot d) m2) as [v|] eqn:Ev; [|reflexivity]. rewrite (G3 _ eq_refl). reflexivity.
        + specialize (G2 (wr_slot w) L ltac:(lia)). destruct (map_get (wr_slot w) m2) as [v|].
          * destruct G2 as [G2 G4]. specialize (G4 ltac:(lia)). rewrite <- G4. rewrite orb_true_iff, Z.eqb_eq, is_rooted_spec. tauto.
          * split; [|reflexivity]. intros _. destruct (O5 Er) as [_ O5']. destruct (O5' k w) as [C|C]; [|lia|contradiction|exact C].
            apply (Hw1 w). exact (kept_in _ _ _ _ HK Iw). }
    assert (Enew : newest_rooted_write m2 (sd_slot d) (cd_best c) (stored K) = option_map wr_slot (find P (rev (stored K)))) by reflexivity.
    rewrite Enew. pose proof (find_stored P K) as Hfs. rewrite filter_stored.
    eexists. split; [reflexivity|].
    set (n := match option_map wr_slot (find P (rev (stored K))) with Some n => n | None => sd_slot d + 1 end).
    set (q := fun w : write => (wr_slot w =? n) || (sd_slot d <? wr_slot w)).
    assert (Hn : forall w, In w K -> wr_slot w <= sd_slot d -> ancestor h (head_in h) (wr_slot w) ->
       exists w', In w' (filter q K) /\ ancestor h (head_in h) (wr_slot w') /\ wr_slot w <= wr_slot w' <= sd_slot d /\ wr_slot w' = n).
    { intros w Iw L A. pose proof (proj2 (HP w Iw) (conj L A)) as Pw. destruct (find P (rev (stored K))) as [w'|] eqn:Ef.
      - destruct Hfs as (Pw' & K1 & K2 & EK & H1 & H2). cbn [option_map] in n.
        assert (Iw' : In w' K) by (rewrite EK; apply in_or_app; right; left; reflexivity).
        destruct (proj1 (HP w' Iw') Pw') as [L' A']. exists w'. split; [apply filter_In; split; [exact Iw'|unfold q, n; rewrite Z.eqb_refl; reflexivity]|].
        split; [exact A'|]. split; [|reflexivity]. split; [|exact L'].
        rewrite EK in Iw. apply in_app_or in Iw as [Iw|[<-|Iw]]; [exact (H1 w Iw Pw)|lia|]. specialize (H2 w Iw Pw). lia.
      - specialize (Hfs w Iw). congruence. }
    split.
    + apply kept_filter.
      * eapply kept_weaken; [exact HK|]. intros w Iw (L & Hl). split; [lia|]. rewrite Ean. destruct Hl as [Hl|(w' & Iw' & A' & L')]; [left; exact Hl|right].
        destruct (Hn w' Iw' ltac:(lia) A') as (w2 & I2 & A2 & L2 & _). exists w2. split; [exact I2|]. split; [apply Ean; exact A2|lia].
      * intros w Iw Hq. unfold q in Hq. apply orb_false_iff in Hq as [Hq1 Hq2]. apply Z.eqb_neq in Hq1. apply Z.ltb_ge in Hq2.
        split; [exact Hq2|]. rewrite Ean. destruct (P w) eqn:EP.
        -- right. destruct (proj1 (HP w Iw) EP) as [L A]. destruct (Hn w Iw L A) as (w2 & I2 & A2 & L2 & L3). exists w2. split; [exact I2|].
           split; [apply Ean; exact A2|lia].
        -- left. intros A. pose proof (proj2 (HP w Iw) (conj Hq2 A)). congruence.
    + intros w Iw L. apply filter_In in Iw as [Iw Hq]. unfold q in Hq. apply orb_true_iff in Hq as [Hq|Hq]; [|lia]. apply Z.eqb_eq in Hq. apply Ean.
      unfold n in Hq. destruct (find P (rev (stored K))) as [w'|]; cbn [option_map] in Hq; [|lia].
      destruct Hfs as (Pw' & K1 & K2 & EK & H1 & H2).
      assert (Iw' : In w' K) by (rewrite EK; apply in_or_app; right; left; reflexivity).
      rewrite Hq. exact (proj2 (proj1 (HP w' Iw') Pw')).
  - rewrite EA, ER. destruct (map_get k (cd_accounts c)) as [l|]; [|exact IHk]. destruct IHk as (K & -> & HK & HA).
    exists K. split; [reflexivity|]. split.
    + eapply kept_weaken; [exact HK|]. intros w Iw (L & Hl). split; [exact L|]. rewrite Set_ by assumption.
      destruct Hl as [Hl|(w' & Iw' & A' & L')]; [left; exact Hl|right]. exists w'. split; [exact Iw'|]. split; [|exact L'].
      apply Set_; [exact (kept_in _ _ _ _ HK Iw')|lia|exact A'].
    + intros w Iw L. apply Set_; [exact (kept_in _ _ _ _ HK Iw)|exact L|]. exact (HA w Iw L).
Qed.

Lemma holds_write h c k w : orderly (h ++ [NWrite k w]) -> tracks h c -> holds_chain h c -> holds_chain (h ++ [NWrite k w]) (update_account c k w).
Proof.
  intros Ho' T IH j. pose proof (IH j) as IHj. apply orderly_inv in Ho' as [Ho [Hw1 Hw2]].
  unfold update_account. cbn [cd_accounts cd_rooted]. rewrite map_get_set, writes_of_snoc. rewrite head_in_snoc.
  assert (El : forall R K x, lost h R K x -> lost (h ++ [NWrite k w]) R K x).
  { intros R K x (L & Hl). split; [exact L|]. rewrite head_in_snoc, ancestor_write. destruct Hl as [Hl|(w' & Iw' & A' & L')]; [left; exact Hl|right].
    exists w'. rewrite ancestor_write. auto. }
  assert (HR : wr_slot w <= cd_rooted c -> ancestor h (head_in h) (wr_slot w)).
  { intros L. destruct (t_root _ _ T) as [Z0|Hr]; [lia|]. exact (Hw2 _ Hr L). }
  destruct (Z.eqb_spec k j) as [->|Hj].
  - destruct (map_get j (cd_accounts c)) as [l|].
    + destruct IHj as (K & -> & HK & HA). exists (K ++ [w]).
      split; [rewrite stored_snoc; apply insert_write_is; apply stored_ascending|]. split.
      * apply kept_snoc. eapply kept_weaken; [exact HK|]. intros x Ix Hx. apply El. destruct Hx as (L & Hl). split; [exact L|].
        destruct Hl as [Hl|(w' & Iw' & A' & L')]; [left; exact Hl|right]. exists w'. split; [apply in_or_app; left; exact Iw'|auto].
      * intros x Ix L. rewrite ancestor_write. apply in_app_or in Ix as [Ix|[<-|[]]]; [exact (HA x Ix L)|exact (HR L)].
    + exists [w]. split; [reflexivity|]. rewrite IHj. cbn [app]. split; [repeat constructor|]. intros x [<-|[]] L. rewrite ancestor_write. exact (HR L).
  - rewrite app_nil_r. destruct (map_get j (cd_accounts c)) as [l|]; [|exact IHj]. destruct IHj as (K & -> & HK & HA). exists K. split; [reflexivity|].
    split; [eapply kept_weaken; [exact HK|]; intros x _ Hx; apply El; exact Hx|]. intros x Ix L. rewrite ancestor_write. exact (HA x Ix L).
Qed.

Lemma fed_chain h c : fed h c -> orderly h -> holds_chain h c.
Proof.
  intros H. induction H as [|h c d c' Hf IH E|h c k w Hf IH] using fed_steps; intros Ho.
  - intros k. reflexivity.
  - pose proof (proj1 (orderly_inv _ _ Ho)) as Ho0. exact (holds_slot _ _ _ _ Ho (fed_tracks _ _ Hf Ho0) E (IH Ho0)).
  - pose proof (proj1 (orderly_inv _ _ Ho)) as Ho0. exact (holds_write _ _ _ _ Ho (fed_tracks _ _ Hf Ho0) (IH Ho0)).
Qed.

(** ** Answers *)
Lemma root_head h c : orderly h -> tracks h c -> cd_rooted c <= head_in h.
Proof.
  intros Ho T. destruct (t_root _ _ T) as [->|Hr]; [apply head_in_pos|].
  exact (ancestor_le _ _ _ (orderly_falling _ Ho) (orderly_roots _ Ho _ Hr)).
Qed.
Lemma live_counts h c w : orderly h -> tracks h c -> 1 <= wr_slot w ->
  (wr_slot w <= cd_rooted c -> ancestor h (head_in h) (wr_slot w)) ->
  is_account_write_live c w = true <-> counts h (wr_slot w).
Proof.
  intros Ho T Hw HA. pose proof (root_head _ _ Ho T) as Hrh. destruct T as [Tb Tr Tr0 Ti Tl Ta Tc Tv]. unfold is_account_write_live, counts.
  destruct (Z.leb_spec (wr_slot w) (cd_rooted c)) as [L|L].
  - specialize (HA L). destruct Tr0 as [Z0|Hr]; [lia|].
    split; [intros _; right; split; [exact HA|eauto]|]. intros _.
    destruct (map_get (wr_slot w) (cd_slots c)) as [v|] eqn:Ev; [rewrite (Tl _ _ L Ev); reflexivity|reflexivity].
  - specialize (Ti _ L). specialize (Tv (wr_slot w)). destruct (map_get (wr_slot w) (cd_slots c)) as [v|].
    + destruct Ti as (T1 & _ & T3). rewrite !orb_true_iff, is_rooted_spec, Z.eqb_eq, Z.ltb_lt. rewrite Tb in *.
      destruct (Z.leb_spec (wr_slot w) (head_in h)) as [Lh|Lh].
      * specialize (Tv v L Lh eq_refl). rewrite Tv. split.
        -- intros [[C|G]|G]; [contradiction|left; auto|lia].
        -- intros [[_ [G|G]]|[G _]]; [auto|lia|auto].
      * split; [intros _; left; auto|auto].
    + split; [discriminate|]. intros [[C _]|[_ (r & Hr & Lr)]]; [contradiction|]. specialize (Tr r Hr). lia.
Qed.

Lemma answers h c k : fed h c -> orderly h ->
  match account_and_slot c k with
  | Some w => newest (fun x => counts h (wr_slot x)) (writes_of k h) w
  | None => forall w, In w (writes_of k h) -> ~ counts h (wr_slot w)
  end.
Proof.
  intros Hf Ho. pose proof (fed_chain _ _ Hf Ho k) as HC. pose proof (fed_tracks _ _ Hf Ho) as T. unfold account_and_slot.
  destruct (map_get k (cd_accounts c)) as [l|]; [|rewrite HC; intros w []]. destruct HC as (K & -> & HK & HA).
  pose proof (find_stored (is_account_write_live c) K) as Hfs.
  assert (HL : forall x, In x K -> (is_account_write_live c x = true <-> counts h (wr_slot x))).
  { intros x Ix. apply live_counts; [exact Ho|exact T| |exact (HA x Ix)]. exact (proj1 (orderly_writes _ Ho k x (kept_in _ _ _ _ HK Ix))). }
  assert (HD : forall x, lost h (cd_rooted c) K x -> counts h (wr_slot x) -> exists w', In w' K /\ counts h (wr_slot w') /\ wr_slot x < wr_slot w').
  { intros x (L & Hl) Hc. pose proof (root_head _ _ Ho T).
    assert (A : ancestor h (head_in h) (wr_slot x)) by (destruct Hc as [[_ [G|G]]|[G _]]; [exact G|lia|exact G]).
    destruct Hl as [Hl|(w' & Iw' & A' & L')]; [contradiction|]. exists w'. split; [exact Iw'|]. split; [|lia].
    right. split; [exact A'|]. destruct (t_root _ _ T) as [Z0|Hr]; [|exists (cd_rooted c); split; [exact Hr|lia]].
    pose proof (proj1 (orderly_writes _ Ho k w' (kept_in _ _ _ _ HK Iw'))). lia. }
  destruct (find (is_account_write_live c) (rev (stored K))) as [w|].
  - eapply newest_kept; [exact HK|exact Hfs|exact HL|]. intros x Ix Dx Hc. destruct (HD x Dx Hc) as (w' & Iw' & C' & L').
    destruct Hfs as (_ & K1 & K2 & EK & H1 & H2). apply (HL w' Iw') in C' as P'. rewrite EK in Iw'.
    apply in_app_or in Iw' as [I|[<-|I]]; [specialize (H1 _ I P')|exact L'|specialize (H2 _ I P')]; lia.
  - intros w Iw Hc. destruct (kept_or_dropped _ _ _ _ HK Iw) as [I|D].
    + pose proof (Hfs w I) as E. apply (HL w I) in Hc. congruence.
    + destruct (HD w D Hc) as (w' & Iw' & C' & _). pose proof (Hfs w' Iw') as E. apply (HL w' Iw') in C'. congruence.
Qed.
