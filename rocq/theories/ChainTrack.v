(** The cache follows an orderly feed. *)
From Coq Require Import ZArith List Bool Lia ZifyBool.
From Verif Require Import Base BaseFacts ChainData SpecChain ChainFacts ChainInv.
Import ListNotations.
Open Scope Z_scope.

(** ** Marking *)
Inductive walk (m : list (Z * slot_data)) : Z -> Z -> Prop :=
| walk_here s v : map_get s m = Some v -> walk m s s
| walk_step s v p t : map_get s m = Some v -> sd_status v <> Rooted -> sd_parent v = Some p -> walk m p t -> walk m s t.

(** The same slots up to the chain marks. *)
Definition alike (m m' : list (Z * slot_data)) : Prop := forall t,
  match map_get t m, map_get t m' with
  | Some v, Some v' => sd_parent v' = sd_parent v /\ sd_status v' = sd_status v
  | None, None => True
  | _, _ => False
  end.
Lemma alike_walk m m' s t : alike m m' -> walk m s t -> walk m' s t.
Proof.
  intros Ha. induction 1 as [s v H|s v p t H Hs Hp _ IH]; specialize (Ha s); rewrite H in Ha;
    destruct (map_get s m') as [v'|] eqn:E; try contradiction; destruct Ha as [H1 H2].
  - econstructor. exact E.
  - econstructor; [exact E|rewrite H2; exact Hs|rewrite H1; exact Hp|exact IH].
Qed.
Lemma alike_sym m m' : alike m m' -> alike m' m.
Proof. intros H t. specialize (H t). destruct (map_get t m), (map_get t m'); intuition. Qed.

Lemma is_rooted_spec x : is_rooted x = true <-> x = Rooted.
Proof. destruct x; cbn; split; congruence. Qed.

Lemma walk_dec fuel : forall m s best m' t, mark fuel m s best = Ok m' -> walk m s t \/ ~ walk m s t.
Proof.
  induction fuel as [|fuel IH]; intros m s best m' t H; [discriminate|]. cbn [mark] in H.
  destruct (map_get s m) as [d|] eqn:Es; [|right; intros W; inversion W; congruence].
  destruct (Z.eq_dec s t) as [->|Hst]; [left; econstructor; exact Es|].
  destruct (is_rooted (sd_status d)) eqn:Er.
  { right. intros W. inversion W; subst; [congruence|]. apply is_rooted_spec in Er. congruence. }
  destruct (sd_parent d) as [p|] eqn:Ep.
  2:{ right. intros W. inversion W; subst; congruence. }
  set (m1 := map_set s (mkSlot (sd_slot d) (Some p) (sd_status d) best) m) in *.
  assert (A1 : alike m m1).
  { intros u. unfold m1. rewrite map_get_set. destruct (Z.eqb_spec s u) as [<-|]; [rewrite Es; auto|]. destruct (map_get u m); auto. }
  destruct (IH m1 p best m' t H) as [W|W].
  - left. econstructor; [exact Es| |exact Ep|eapply alike_walk; [apply alike_sym; exact A1|exact W]].
    intros C. apply is_rooted_spec in C. congruence.
  - right. intros W'. inversion W' as [|s' v0 p' t' Hs0 Hr0 Hp0 W'']; subst; [congruence|].
    rewrite Es in Hs0. injection Hs0 as <-. assert (p' = p) by congruence. subst p'. apply W. eapply alike_walk; [exact A1|exact W''].
Qed.

Lemma mark_spec fuel : forall m s best m', mark fuel m s best = Ok m' -> alike m m' /\
  forall t v v', map_get t m = Some v -> map_get t m' = Some v' ->
  (walk m s t /\ sd_chain v' = best) \/ (~ walk m s t /\ sd_chain v' = sd_chain v).
Proof.
  assert (G : forall fuel m s best m', mark fuel m s best = Ok m' -> alike m m' /\
    forall t v v', map_get t m = Some v -> map_get t m' = Some v' ->
    (walk m s t -> sd_chain v' = best) /\ ((walk m s t /\ sd_chain v' = best) \/ sd_chain v' = sd_chain v)).
  { clear. induction fuel as [|fuel IH]; intros m s best m' H; [discriminate|]. cbn [mark] in H.
    destruct (map_get s m) as [d|] eqn:Es.
    2:{ injection H as <-. split; [intros t; destruct (map_get t m); auto|]. intros t v v' Hv Hv'. rewrite Hv in Hv'. injection Hv' as <-.
        split; [|right; reflexivity]. intros W. inversion W; congruence. }
    set (m1 := map_set s (mkSlot (sd_slot d) (sd_parent d) (sd_status d) best) m) in *.
    assert (A1 : alike m m1).
    { intros t. unfold m1. rewrite map_get_set. destruct (Z.eqb_spec s t) as [<-|]; [rewrite Es; auto|]. destruct (map_get t m); auto. }
    assert (Stop : Ok m1 = Ok m' -> (forall t, walk m s t -> t = s) -> alike m m' /\
      forall t v v', map_get t m = Some v -> map_get t m' = Some v' ->
      (walk m s t -> sd_chain v' = best) /\ ((walk m s t /\ sd_chain v' = best) \/ sd_chain v' = sd_chain v)).
    { intros E Hone. injection E as <-. split; [exact A1|]. intros t v v' Hv Hv'. unfold m1 in Hv'. rewrite map_get_set in Hv'.
      destruct (Z.eqb_spec s t) as [<-|Hst].
      - injection Hv' as <-. cbn [sd_chain]. split; [reflexivity|]. left. split; [econstructor; exact Es|reflexivity].
      - rewrite Hv in Hv'. injection Hv' as <-. split; [|right; reflexivity]. intros W. apply Hone in W. congruence. }
    destruct (is_rooted (sd_status d)) eqn:Er.
    { apply Stop; [exact H|]. intros t W. inversion W; subst; [reflexivity|]. apply is_rooted_spec in Er. congruence. }
    destruct (sd_parent d) as [p|] eqn:Ep.
    2:{ apply Stop; [exact H|]. intros t W. inversion W; subst; [reflexivity|]. congruence. }
    destruct (IH _ _ _ _ H) as [A2 Hm]. split.
    { intros t. specialize (A1 t). specialize (A2 t). destruct (map_get t m), (map_get t m1), (map_get t m'); try tauto.
      destruct A1, A2. split; congruence. }
    intros t v v' Hv Hv'. pose proof (A1 t) as A1t. rewrite Hv in A1t. destruct (map_get t m1) as [v1|] eqn:E1; [|contradiction].
    destruct (Hm t v1 v' E1 Hv') as [H1 H2]. pose proof E1 as E1'. unfold m1 in E1'. rewrite map_get_set in E1'. split.
    - intros W. inversion W as [s' v0 Hs0|s' v0 p' t' Hs0 Hr0 Hp0 W']; subst.
      + rewrite Z.eqb_refl in E1'. injection E1' as <-. cbn [sd_chain] in H2. destruct H2 as [[_ H2]|H2]; exact H2.
      + apply H1. rewrite Es in Hs0. injection Hs0 as <-. assert (p' = p) by congruence. subst p'. eapply alike_walk; [exact A1|exact W'].
    - destruct H2 as [[W H2]|H2].
      + left. split; [|exact H2]. econstructor; [exact Es| |exact Ep|eapply alike_walk; [apply alike_sym; exact A1|exact W]].
        intros C. apply is_rooted_spec in C. congruence.
      + destruct (Z.eqb_spec s t) as [<-|Hst].
        * left. split; [econstructor; exact Es|]. injection E1' as <-. exact H2.
        * right. rewrite Hv in E1'. injection E1' as <-. exact H2. }
  intros m s best m' H. destruct (G _ _ _ _ _ H) as [A Hm]. split; [exact A|]. intros t v v' Hv Hv'.
  pose proof (walk_dec _ _ _ _ _ t H) as Dec.
  destruct (Hm t v v' Hv Hv') as [H1 H2]. destruct Dec as [W|W]; [left; auto|right]. split; [exact W|]. destruct H2 as [[W' _]|H2]; [contradiction|exact H2].
Qed.

(** Marking ends if parents have smaller numbers. *)
Definition under (s : Z) (l : list Z) : nat := length (filter (fun k => k <=? s) l).
Lemma under_lt p s l : p < s -> In s l -> (under p l < under s l)%nat.
Proof.
  intros Hp Hs. unfold under.
  assert (L : forall l, Nat.le (length (filter (fun k => k <=? p) l)) (length (filter (fun k => k <=? s) l))).
  { induction l0 as [|k l0 IH]; cbn [filter length]; [lia|]. destruct (Z.leb_spec k p), (Z.leb_spec k s); cbn [length]; lia. }
  induction l as [|k l IH]; [destruct Hs|]. cbn [filter]. specialize (L l). destruct Hs as [->|Hs].
  - destruct (Z.leb_spec s p), (Z.leb_spec s s); cbn [length]; lia.
  - specialize (IH Hs). destruct (Z.leb_spec k p), (Z.leb_spec k s); cbn [length]; lia.
Qed.
Lemma map_set_same_keys {A} k (a b : A) m : map_get k m = Some b -> map fst (map_set k a m) = map fst m.
Proof.
  induction m as [|[j x] m IH]; cbn [map_get map_set]; [discriminate|]. destruct (Z.eqb_spec j k) as [->|]; intros H; [reflexivity|].
  cbn [map fst]. rewrite IH by exact H. reflexivity.
Qed.
Definition falls (m : list (Z * slot_data)) : Prop := forall t v p, map_get t m = Some v -> sd_parent v = Some p -> p < t.
Lemma mark_ends fuel : forall m s best, falls m -> (under s (map fst m) < fuel)%nat -> exists m', mark fuel m s best = Ok m'.
Proof.
  induction fuel as [|fuel IH]; intros m s best Hf Hl; [lia|]. cbn [mark].
  destruct (map_get s m) as [d|] eqn:Es; [|eauto]. destruct (is_rooted (sd_status d)); [eauto|].
  destruct (sd_parent d) as [p|] eqn:Ep; [|eauto]. pose proof (Hf s d p Es Ep) as Hp.
  apply IH.
  - intros t v q. rewrite map_get_set. destruct (Z.eqb_spec s t) as [<-|]; [|apply Hf].
    intros E E'. injection E as <-. cbn [sd_parent] in E'. injection E' as <-. exact Hp.
  - rewrite (map_set_same_keys _ _ _ _ Es). apply map_get_in in Es.
    pose proof (under_lt p s (map fst m) Hp). specialize (H (in_map fst _ _ Es)). lia.
Qed.
Lemma mark_returns m s best : falls m -> exists m', mark (S (length m)) m s best = Ok m'.
Proof.
  intros Hf. apply mark_ends; [exact Hf|]. unfold under.
  assert (L : forall l : list Z, Nat.le (length (filter (fun k => k <=? s) l)) (length l)).
  { induction l as [|k l IH]; cbn [filter length]; [lia|]. destruct (k <=? s); cbn [length]; lia. }
  specialize (L (map fst m)). rewrite map_length in L. lia.
Qed.

(** ** The invariant *)
Record tracks (h : list news) (c : chain_data) : Prop := {
  t_best : cd_best c = head_in h;
  t_rooted : forall r, rooted h r -> r <= cd_rooted c;
  t_root : cd_rooted c = 0 \/ rooted h (cd_rooted c);
  t_in : forall s, cd_rooted c < s ->
    match map_get s (cd_slots c) with
    | Some v => notified h s /\ sd_parent v = parent_in h s /\ sd_status v <> Rooted
    | None => ~ notified h s
    end;
  t_low : forall s v, s <= cd_rooted c -> map_get s (cd_slots c) = Some v -> sd_status v = Rooted;
  t_at : cd_rooted c = 0 \/ exists v, map_get (cd_rooted c) (cd_slots c) = Some v;
  t_chain : forall s v, map_get s (cd_slots c) = Some v -> 0 <= sd_chain v <= cd_best c;
  t_live : forall s v, cd_rooted c < s -> s <= cd_best c -> map_get s (cd_slots c) = Some v ->
    (sd_chain v = cd_best c <-> ancestor h (cd_best c) s) }.

Lemma record_get m d t : map_get t (fst (record_slot m d)) =
  if sd_slot d =? t then
    Some match map_get t m with
         | None => d
         | Some v => mkSlot (sd_slot v) (match sd_parent v with Some p => Some p | None => sd_parent d end)
                       (if is_processed (sd_status v) || is_rooted (sd_status d) then sd_status d else sd_status v) (sd_chain v)
         end
  else map_get t m.
Proof.
  unfold record_slot. destruct (Z.eqb_spec (sd_slot d) t) as [<-|Ht].
  - destruct (map_get (sd_slot d) m) as [v|]; cbn [fst]; rewrite map_get_set, Z.eqb_refl; reflexivity.
  - destruct (map_get (sd_slot d) m) as [v|]; cbn [fst]; rewrite map_get_set; destruct (Z.eqb_spec (sd_slot d) t); congruence.
Qed.

Lemma rooted_notified h s : rooted h s -> notified h s.
Proof. intros (d & H1 & H2 & _). exists d. auto. Qed.
Lemma notified_dec h s : notified h s \/ ~ notified h s.
Proof.
  induction h as [|n h IH] using rev_ind; [right; intros (d & [] & _)|].
  destruct IH as [IH|IH]; [left; apply notified_snoc; auto|].
  destruct n as [d|k w]; [|right; rewrite notified_snoc; intros [H|(d & E & _)]; [auto|discriminate]].
  destruct (Z.eq_dec (sd_slot d) s) as [E|E]; [left; apply notified_snoc; right; eauto|].
  right. rewrite notified_snoc. intros [H|(d' & E' & H)]; [auto|]. injection E' as <-. auto.
Qed.

(** The best chain above the newest root is what a walk through the stored slots visits. *)
Lemma walk_low m R s t : (forall s v p, s <= R -> map_get s m = Some v -> sd_status v <> Rooted -> sd_parent v = Some p -> p < s) ->
  walk m s t -> s <= R -> t <= R.
Proof.
  intros Hl W. induction W as [s v H|s v p t H Hs Hp W IH]; intros L; [exact L|].
  apply IH. specialize (Hl s v p L H Hs Hp). lia.
Qed.
Lemma walk_chain h m R : falling h ->
  (forall s v p, s <= R -> map_get s m = Some v -> sd_status v <> Rooted -> sd_parent v = Some p -> p < s) ->
  (forall s, R < s -> match map_get s m with Some v => notified h s /\ sd_parent v = parent_in h s /\ sd_status v <> Rooted | None => ~ notified h s end) ->
  forall b t, R < t -> notified h t -> (walk m b t <-> ancestor h b t).
Proof.
  intros Hf Hl Hm b t Ht Hn. split.
  - intros W. induction W as [s v H|s v p t H Hs Hp W IH]; [constructor|].
    destruct (Z.leb_spec s R) as [L|L].
    + exfalso. pose proof (Hl s v p L H Hs Hp). pose proof (walk_low _ _ _ _ Hl W). lia.
    + econstructor; [|exact (IH Ht Hn)]. specialize (Hm s L). rewrite H in Hm. destruct Hm as (_ & E & _). congruence.
  - intros A. induction A as [s|s p t H A IH].
    + specialize (Hm s Ht). destruct (map_get s m) as [v|] eqn:E; [econstructor; exact E|contradiction].
    + pose proof (ancestor_le _ _ _ Hf A) as L1. pose proof (Hf _ _ H) as L2. assert (L : R < s) by lia.
      specialize (Hm s L). destruct (map_get s m) as [v|] eqn:E; [|exfalso; apply Hm; eapply parent_notified; exact H].
      destruct Hm as (_ & E1 & E2). econstructor; [exact E|exact E2|rewrite E1; exact H|exact (IH Ht Hn)].
Qed.

Lemma tracks_new : tracks [] chain_new.
Proof.
  constructor; cbn; try (left; reflexivity); try discriminate.
  - reflexivity.
  - intros r (d & [] & _).
  - intros s _ (d & [] & _).
Qed.

Lemma ancestor_last h a s : ancestor h a s -> a = s \/ exists t, parent_in h t = Some s.
Proof.
  induction 1 as [|a p s H A IH]; [left; reflexivity|]. right. destruct IH as [->|IH]; [eauto|exact IH].
Qed.
Lemma ancestor_apart h d a s : ancestor (h ++ [NSlot d]) a s -> a <> sd_slot d ->
  (forall t, parent_in h t <> Some (sd_slot d)) -> ancestor h a s.
Proof.
  intros A Ha Hn. induction A as [|a p s H A IH]; [constructor|].
  assert (E : parent_in h a = Some p).
  { rewrite parent_in_snoc in H. destruct (parent_in h a); [exact H|]. destruct (Z.eqb_spec (sd_slot d) a); [congruence|discriminate]. }
  econstructor; [exact E|]. apply IH. intros ->. exact (Hn a E).
Qed.

Lemma tracks_slot h c d c' : orderly (h ++ [NSlot d]) -> tracks h c -> update_slot c d = Ok c' -> tracks (h ++ [NSlot d]) c'.
Proof.
  intros Ho' [Tb Tr Tr0 Ti Tl Ta Tc Tv] H.
  pose proof (orderly_falling _ Ho') as Hf'. pose proof (orderly_roots _ Ho') as Hr'.
  destruct (orderly_inv _ _ Ho') as [Ho (O1 & O2 & O3 & O4 & O5 & O6 & O7 & O8)].
  pose proof (orderly_falling _ Ho) as Hf. pose proof (head_in_pos h) as Hpos. pose proof (head_in_linked h) as Hlk.
  apply update_slot_inv in H. cbv zeta in H. destruct H as (ER & EB & m2 & Em & Es & _).
  set (m1 := fst (record_slot (cd_slots c) d)) in *. set (pu := snd (record_slot (cd_slots c) d)) in *.
  set (nb := match sd_parent d with Some _ => cd_best c <? sd_slot d | None => false end) in *.
  set (h' := h ++ [NSlot d]) in *.
  assert (EB' : cd_best c' = head_in h').
  { rewrite EB. unfold h', nb. rewrite head_in_snoc, <- Tb. destruct (sd_parent d); reflexivity. }
  assert (R0 : 0 <= cd_rooted c).
  { destruct Tr0 as [->|Tr0]; [lia|]. clear - Tr0 Ho. destruct Tr0 as (d0 & Hd & <- & _).
    revert d0 Hd. induction Ho as [|h d1 Ho IH Hs|h k w Ho IH Hs]; intros d0 Hd; [destruct Hd| |];
      apply in_app_or in Hd as [Hd|[Hd|[]]]; auto; try discriminate. injection Hd as <-. destruct Hs as [Hs _]. lia. }
  assert (Rpos : sd_slot d <= cd_rooted c -> rooted h (cd_rooted c)) by (intros L; destruct Tr0 as [Z0|G]; [lia|exact G]).
  (* a rooted slot is not a new head *)
  assert (Frt : sd_status d = Rooted -> nb = false).
  { intros Er. unfold nb. destruct (sd_parent d) as [p|] eqn:Ep; [|reflexivity].
    destruct (parent_in h (sd_slot d)) as [q|] eqn:Eq.
    - apply head_in_max in Eq. rewrite Tb. lia.
    - destruct (O7 ltac:(discriminate) eq_refl) as [C _]. contradiction. }
  assert (RR : cd_rooted c <= cd_rooted c') by (rewrite ER; destruct (_ && _) eqn:B; lia).
  assert (BB : cd_best c <= cd_best c') by (rewrite EB; unfold nb; destruct (sd_parent d); [|lia]; destruct (Z.ltb_spec (cd_best c) (sd_slot d)); lia).
  assert (NR : cd_rooted c < sd_slot d -> sd_status d = Rooted -> cd_rooted c' = sd_slot d).
  { intros L Er. rewrite ER, Er. cbn. destruct (Z.ltb_spec (cd_rooted c) (sd_slot d)); [reflexivity|lia]. }
  assert (NR2 : cd_rooted c' = cd_rooted c \/ (cd_rooted c < sd_slot d /\ sd_status d = Rooted /\ cd_rooted c' = sd_slot d)).
  { destruct (Z.ltb_spec (cd_rooted c) (sd_slot d)) as [L|L]; cbn [andb] in ER; [|left; exact ER].
    destruct (is_rooted (sd_status d)) eqn:E; [right|left; exact ER]. apply is_rooted_spec in E. auto. }
  assert (M1 : forall s, cd_rooted c' < s ->
    match map_get s m1 with Some v => notified h' s /\ sd_parent v = parent_in h' s /\ sd_status v <> Rooted | None => ~ notified h' s end).
  { intros s L. assert (L' : cd_rooted c < s) by lia. specialize (Ti s L'). unfold m1, h'. rewrite record_get, parent_in_snoc.
    destruct (Z.eqb_spec (sd_slot d) s) as [<-|Hs].
    - assert (Nr : sd_status d <> Rooted) by (intros Er; rewrite (NR L' Er) in L; lia).
      split; [apply notified_snoc; right; eauto|]. destruct (map_get (sd_slot d) (cd_slots c)) as [v|]; cbn [sd_parent sd_status].
      + destruct Ti as (_ & -> & T3). split; [destruct (parent_in h (sd_slot d)); reflexivity|].
        destruct (is_processed (sd_status v) || is_rooted (sd_status d)); assumption.
      + split; [|exact Nr]. destruct (parent_in h (sd_slot d)) eqn:E; [|reflexivity]. exfalso. apply Ti. eapply parent_notified. exact E.
    - destruct (map_get s (cd_slots c)) as [v|].
      + destruct Ti as (T1 & -> & T3). split; [apply notified_snoc; auto|]. split; [|exact T3]. destruct (parent_in h s); reflexivity.
      + rewrite notified_snoc. intros [G|(e & E & G)]; [auto|]. injection E as <-. auto. }
  assert (L1 : forall s v, s <= cd_rooted c -> map_get s m1 = Some v -> sd_status v = Rooted).
  { intros s v L E. unfold m1 in E. rewrite record_get in E. destruct (Z.eqb_spec (sd_slot d) s) as [<-|Hs]; [|exact (Tl s v L E)].
    injection E as <-. pose proof (Rpos L) as Hrt. destruct (Z.eq_dec (sd_slot d) (cd_rooted c)) as [E0|E0].
    - destruct Ta as [Z0|[v0 Ev0]]; [lia|]. rewrite <- E0 in Ev0. rewrite Ev0. cbn [sd_status]. pose proof (Tl _ _ L Ev0) as E1.
      rewrite E1. cbn. destruct (is_rooted (sd_status d)) eqn:E2; [apply is_rooted_spec; exact E2|reflexivity].
    - pose proof (O6 _ Hrt ltac:(lia)) as E1. destruct (map_get (sd_slot d) (cd_slots c)); cbn [sd_status]; rewrite E1; [|reflexivity].
      cbn. rewrite orb_true_r. reflexivity. }
  assert (W1 : forall s v p, s <= cd_rooted c' -> map_get s m1 = Some v -> sd_status v <> Rooted -> sd_parent v = Some p -> p < s).
  { intros s v p L E Ns Ep. destruct (Z.leb_spec s (cd_rooted c)) as [L2|L2]; [exfalso; apply Ns; exact (L1 _ _ L2 E)|].
    destruct NR2 as [E0|(N1 & N2 & N3)]; [lia|]. unfold m1 in E. rewrite record_get in E. destruct (Z.eqb_spec (sd_slot d) s) as [<-|Hs].
    - exfalso. apply Ns. injection E as <-. destruct (map_get (sd_slot d) (cd_slots c)); cbn [sd_status]; rewrite N2; [|reflexivity].
      cbn. rewrite orb_true_r. reflexivity.
    - specialize (Ti s L2). rewrite E in Ti. destruct Ti as (_ & T2 & _). apply Hf. congruence. }
  assert (Hal : alike m1 m2 /\ forall t v v', map_get t m1 = Some v -> map_get t m2 = Some v' ->
    (nb || pu = true /\ walk m1 (cd_best c') t /\ sd_chain v' = cd_best c') \/
    ((nb || pu = true -> ~ walk m1 (cd_best c') t) /\ sd_chain v' = sd_chain v)).
  { destruct (nb || pu).
    - apply mark_spec in Em as [A Hm]. split; [exact A|]. intros t v v' Hv Hv'. destruct (Hm t v v' Hv Hv') as [[W E]|[W E]]; auto.
    - injection Em as <-. split; [intros t; destruct (map_get t m1); auto|]. intros t v v' Hv Hv'. right.
      split; [discriminate|congruence]. }
  destruct Hal as [Hal Hch].
  assert (Eg : forall s, map_get s (cd_slots c') = if (cd_rooted c' <=? s) || negb ((cd_rooted c <? sd_slot d) && is_rooted (sd_status d)) then map_get s m2 else None).
  { intros s. rewrite Es. destruct (_ && _); cbn [negb]; rewrite ?orb_false_r, ?orb_true_r; [|reflexivity].
    exact (map_get_filter (fun k => cd_rooted c' <=? k) s m2). }
  assert (C1 : forall s v, map_get s m1 = Some v -> 0 <= sd_chain v <= cd_best c /\ (sd_chain v <> 0 -> exists v0, map_get s (cd_slots c) = Some v0 /\ sd_chain v0 = sd_chain v)).
  { intros s v E. unfold m1 in E. rewrite record_get in E. destruct (Z.eqb_spec (sd_slot d) s) as [<-|Hs].
    - injection E as <-. destruct (map_get (sd_slot d) (cd_slots c)) as [v0|] eqn:E0; cbn [sd_chain].
      + split; [exact (Tc _ _ E0)|]. intros _. eauto.
      + rewrite O2. split; [lia|]. intros C. contradiction.
    - split; [exact (Tc _ _ E)|]. intros _. eauto. }
  constructor.
  - exact EB'.
  - intros r Hr. apply rooted_snoc in Hr as [Hr|(e & E & Hs & Hr)]; [specialize (Tr r Hr); lia|]. injection E as <-. subst r.
    destruct (Z.leb_spec (sd_slot d) (cd_rooted c)); [lia|]. rewrite NR by assumption. lia.
  - destruct NR2 as [E0|(N1 & N2 & N3)].
    + destruct Tr0 as [Z0|G]; [left; lia|right]. rewrite E0. apply rooted_snoc. auto.
    + right. rewrite N3. apply rooted_snoc. right. eauto.
  - intros s L. rewrite Eg. destruct (Z.leb_spec (cd_rooted c') s); [|lia]. cbn [orb]. specialize (M1 s L). specialize (Hal s).
    destruct (map_get s m1) as [v|], (map_get s m2) as [v'|]; try contradiction; [|exact M1].
    destruct Hal as [-> ->]. exact M1.
  - intros s v L E. rewrite Eg in E. destruct NR2 as [E0|(N1 & N2 & N3)].
    + assert (E2 : map_get s m2 = Some v) by (destruct ((cd_rooted c' <=? s) || _); [exact E|discriminate]).
      pose proof (Hal s) as A. rewrite E2 in A. destruct (map_get s m1) as [v1|] eqn:E1; [|contradiction]. destruct A as [_ ->].
      apply (L1 s); [lia|exact E1].
    + rewrite N2 in E. cbn [is_rooted] in E. destruct (Z.ltb_spec (cd_rooted c) (sd_slot d)); [|lia]. cbn [andb negb] in E. rewrite orb_false_r in E.
      destruct (Z.leb_spec (cd_rooted c') s); [|discriminate]. assert (s = sd_slot d) by lia. subst s.
      pose proof (Hal (sd_slot d)) as A. rewrite E in A. unfold m1 in A. rewrite record_get, Z.eqb_refl in A. destruct A as [_ ->].
      destruct (map_get (sd_slot d) (cd_slots c)); cbn [sd_status]; [rewrite N2; cbn; rewrite orb_true_r; reflexivity|exact N2].
  - assert (Here : forall v, map_get (cd_rooted c') m1 = Some v -> exists v, map_get (cd_rooted c') (cd_slots c') = Some v).
    { intros v E. rewrite Eg, Z.leb_refl. cbn [orb]. pose proof (Hal (cd_rooted c')) as A. rewrite E in A.
      destruct (map_get (cd_rooted c') m2) as [v'|]; [eauto|contradiction]. }
    destruct NR2 as [E0|(N1 & N2 & N3)].
    + destruct Ta as [Z0|[v E]]; [left; lia|right].
      destruct (map_get (cd_rooted c') m1) as [v1|] eqn:E1; [exact (Here _ eq_refl)|]. exfalso. unfold m1 in E1. rewrite record_get, E0 in E1.
      destruct (sd_slot d =? cd_rooted c); congruence.
    + right. destruct (map_get (cd_rooted c') m1) as [v1|] eqn:E1; [exact (Here _ eq_refl)|]. exfalso. unfold m1 in E1. rewrite record_get, N3, Z.eqb_refl in E1. discriminate.
  - intros s v E. assert (E2 : map_get s m2 = Some v) by (rewrite Eg in E; destruct ((cd_rooted c' <=? s) || _); [exact E|discriminate]).
    pose proof (Hal s) as A. rewrite E2 in A. destruct (map_get s m1) as [v1|] eqn:E1; [|contradiction].
    destruct (C1 _ _ E1) as [B1 _]. destruct (Hch s v1 v E1 E2) as [(_ & _ & ->)|(_ & ->)]; lia.
  - intros s v LR LB E. assert (E2 : map_get s m2 = Some v) by (rewrite Eg in E; destruct ((cd_rooted c' <=? s) || _); [exact E|discriminate]).
    pose proof (Hal s) as A. rewrite E2 in A. destruct (map_get s m1) as [v1|] eqn:E1; [|contradiction].
    pose proof (M1 s LR) as M1s. rewrite E1 in M1s. destruct M1s as (Ns & _ & _).
    destruct (C1 _ _ E1) as [B1 B2].
    assert (Back : nb = false -> sd_chain v1 = cd_best c' -> ancestor h' (cd_best c') s).
    { intros Enb Ec. assert (EBc : cd_best c' = cd_best c) by (rewrite EB, Enb; reflexivity).
      destruct B2 as (v0 & E0 & Ec0); [lia|]. rewrite EBc in *. apply ancestor_mono. apply (Tv s v0); [lia|lia|exact E0|congruence]. }
    destruct (nb || pu) eqn:Enp.
    + pose proof (walk_chain h' m1 (cd_rooted c') Hf' W1 M1 (cd_best c') s LR Ns) as Hwc.
      destruct (Hch s v1 v E1 E2) as [(_ & W & Ec)|(W & Ec)].
      * split; [intros _; apply Hwc; exact W|intros _; exact Ec].
      * specialize (W eq_refl). rewrite Hwc in W. split; [|contradiction]. intros Ecb. exfalso. rewrite Ec in Ecb. apply W.
        destruct nb eqn:Enb; [|exact (Back eq_refl Ecb)]. exfalso. unfold nb in Enb. destruct (sd_parent d); [|discriminate]. rewrite EB in Ecb. lia.
    + apply orb_false_iff in Enp as [Enb Epu]. rewrite Enb in *. assert (EBc : cd_best c' = cd_best c) by (rewrite EB; reflexivity).
      destruct (Hch s v1 v E1 E2) as [(C & _)|(_ & Ec)]; [discriminate|]. rewrite Ec. split; [exact (Back eq_refl)|]. intros An. rewrite EBc in *.
      assert (Hbn : cd_best c <> sd_slot d \/ notified h (sd_slot d)).
      { rewrite Tb. destruct Hlk as [Z0|[p Hp]]; [left; lia|]. destruct (Z.eq_dec (head_in h) (sd_slot d)) as [G|G]; [right|left; exact G].
        rewrite <- G. eapply parent_notified. exact Hp. }
      destruct (map_get s (cd_slots c)) as [v0|] eqn:E0.
      * (* the links of the chain did not change *)
        assert (Ec0 : sd_chain v1 = sd_chain v0).
        { unfold m1 in E1. rewrite record_get, E0 in E1. destruct (sd_slot d =? s); injection E1 as <-; reflexivity. }
        rewrite Ec0. apply (Tv s v0); [lia|lia|exact E0|].
        destruct (parent_in h (sd_slot d)) as [q|] eqn:Eq.
        { apply (ancestor_same h h'); [|exact An]. intros t. unfold h'. rewrite parent_in_snoc. destruct (parent_in h t) eqn:Et; [reflexivity|].
          destruct (Z.eqb_spec (sd_slot d) t) as [<-|]; [congruence|reflexivity]. }
        destruct (sd_parent d) as [p|] eqn:Ep.
        2:{ apply (ancestor_same h h'); [|exact An]. intros t. unfold h'. rewrite parent_in_snoc. destruct (parent_in h t) eqn:Et; [reflexivity|].
            rewrite Ep. destruct (sd_slot d =? t); reflexivity. }
        destruct (O7 ltac:(discriminate) eq_refl) as [_ O7'].
        assert (Ld : cd_rooted c < sd_slot d) by (destruct (Z.leb_spec (sd_slot d) (cd_rooted c)) as [G|G]; [specialize (O7' _ (Rpos G)); lia|exact G]).
        specialize (Ti (sd_slot d) Ld). destruct (map_get (sd_slot d) (cd_slots c)) as [vd|] eqn:Ed.
        { exfalso. unfold pu, record_slot in Epu. rewrite Ed, Ep in Epu. cbn [snd] in Epu. destruct Ti as (_ & T2 & _). rewrite T2, Eq in Epu. discriminate. }
        destruct Hbn as [Hbn|Hbn]; [|contradiction]. eapply ancestor_apart; [exact An|exact Hbn|exact (O4 Ti)].
      * (* a slot that nobody named *)
        exfalso. assert (Esd : sd_slot d = s).
        { unfold m1 in E1. rewrite record_get, E0 in E1. destruct (Z.eqb_spec (sd_slot d) s); [assumption|discriminate]. }
        assert (Nn : ~ notified h s) by (specialize (Ti s ltac:(lia)); rewrite E0 in Ti; exact Ti).
        rewrite <- Esd in *. destruct Hbn as [Hbn|Hbn]; [|contradiction].
        apply ancestor_last in An as [An|[t Et]]; [contradiction|]. unfold h' in Et. rewrite parent_in_snoc in Et.
        destruct (parent_in h t) as [q|] eqn:Eq; [apply (O4 Nn t); congruence|].
        destruct (Z.eqb_spec (sd_slot d) t) as [<-|]; [|discriminate]. specialize (O3 _ Et). lia.
Qed.

Lemma tracks_write h c k w : tracks h c -> tracks (h ++ [NWrite k w]) (update_account c k w).
Proof.
  intros [Tb Tr Tr0 Ti Tl Ta Tc Tv].
  assert (EN : forall s, notified (h ++ [NWrite k w]) s <-> notified h s).
  { intros s. rewrite notified_snoc. split; [intros [G|(e & E & _)]; [exact G|discriminate]|auto]. }
  assert (ER : forall s, rooted (h ++ [NWrite k w]) s <-> rooted h s).
  { intros s. rewrite rooted_snoc. split; [intros [G|(e & E & _)]; [exact G|discriminate]|auto]. }
  assert (EP : forall s, parent_in (h ++ [NWrite k w]) s = parent_in h s).
  { intros s. rewrite parent_in_snoc. destruct (parent_in h s); reflexivity. }
  constructor; unfold update_account; cbn [cd_slots cd_rooted cd_best].
  - rewrite head_in_snoc. exact Tb.
  - intros r Hr. apply ER in Hr. auto.
  - rewrite ER. exact Tr0.
  - intros s L. specialize (Ti s L). destruct (map_get s (cd_slots c)); rewrite EN, ?EP; exact Ti.
  - exact Tl.
  - exact Ta.
  - exact Tc.
  - intros s v L1 L2 E. rewrite ancestor_write. exact (Tv s v L1 L2 E).
Qed.

Lemma fed_tracks h c : fed h c -> orderly h -> tracks h c.
Proof.
  intros H. induction H as [|h c d c' Hf IH E|h c k w Hf IH] using fed_steps; intros Ho.
  - exact tracks_new.
  - eapply tracks_slot; [exact Ho|apply IH; exact (proj1 (orderly_inv _ _ Ho))|exact E].
  - apply tracks_write. apply IH. exact (proj1 (orderly_inv _ _ Ho)).
Qed.
