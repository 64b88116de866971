(** Applying the changes and deletions collected while matching to the book side. *)
From Coq Require Import ZArith List Bool Lia.
From Verif Require Import Base Nodes OrderTree BookSide Heap Market OpenOrders Order Book
  BaseFacts NodesFacts TreeRep TreeFacts TreeOps TreeIter BookSideFacts BookSideOrder SpecBook
  BookSpecProofs SpecOrder MatchFacts.
Import ListNotations.
Open Scope Z_scope.

(** Leaf of tree [t] after the partial fill [a]. *)
Definition chgk (a : act) (t : otree_id) (l : leaf) : leaf :=
  match a with
  | AFill i q =>
      if negb (lf_qty (im_leaf i) - q =? 0) && about a t l
      then lf_set_qty l (lf_qty (im_leaf i) - q) else l
  | _ => l
  end.
Fixpoint chgs (acts : list act) (t : otree_id) (l : leaf) : leaf :=
  match acts with [] => l | a :: r => chgs r t (chgk a t l) end.
Definition kills (a : act) : bool :=
  match a with AFill i q => lf_qty (im_leaf i) - q =? 0 | _ => true end.
Definition killed (acts : list act) (t : otree_id) (l : leaf) : bool :=
  existsb (fun a => kills a && about a t l) acts.

Definition on_book (T : trees) (a : act) : Prop :=
  In (im_handle (act_item a), im_leaf (act_item a)) (oitems (T (im_tree (act_item a)))).
Definition akey (a : act) : otree_id * Z := (im_tree (act_item a), lf_key (im_leaf (act_item a))).

Lemma items_handles_nodup bs T t : bs_ok bs T -> NoDup (map fst (oitems (T t))).
Proof.
  intros H. pose proof (bitems_nodup bs T t H) as N. unfold bitems in N.
  destruct (bs_side bs); cbn [dir] in N; [|exact N].
  rewrite map_rev in N. rewrite <- rev_involutive. apply NoDup_rev. exact N.
Qed.

Lemma items_key_inj bs T t h l h' l' : bs_ok bs T -> In (h, l) (oitems (T t)) -> In (h', l') (oitems (T t)) ->
  lf_key l = lf_key l' -> (h, l) = (h', l').
Proof.
  intros H H1 H2 E.
  assert (El : l = l').
  { eapply leaves_key_unique; [exact H| | |exact E].
    - apply in_oleaves. exists h. exact H1.
    - apply in_oleaves. exists h'. exact H2. }
  subst l'. destruct H as [F H]. specialize (H t). destruct H as [Ha Hr Hp].
  destruct (T t) as [tr|]; [|destruct H1]. cbn [oitems orepr] in *. destruct Hp as [Hp Hw].
  assert (S := wft_sorted _ Hw). unfold keys_sorted in S.
  f_equal. apply in_split in H1 as (A & B & E1). rewrite E1 in *.
  apply in_app_or in H2 as [H2|[H2|H2]].
  - exfalso. apply in_split in H2 as (A1 & A2 & ->).
    rewrite <- app_assoc in S. cbn [app] in S.
    revert S. clear. intros S. induction A1 as [|x A1 IH]; cbn [app] in S.
    + inversion S as [|? ? S1 S2]; subst. rewrite Forall_forall in S2.
      specialize (S2 (h, l)). cbn [snd] in S2. assert (lf_key l < lf_key l); [|lia].
      apply S2. apply in_or_app. right. left. reflexivity.
    + inversion S; subst. auto.
  - injection H2 as <-. reflexivity.
  - exfalso. revert S H2. clear. intros S H2. induction A as [|x A IH]; cbn [app] in S.
    + inversion S as [|? ? S1 S2]; subst. rewrite Forall_forall in S2.
      specialize (S2 (h', l) H2). cbn [snd] in S2. lia.
    + inversion S; subst. auto.
Qed.

Lemma about_in bs T a t h l : bs_ok bs T -> on_book T a -> In (h, l) (oitems (T t)) ->
  about a t l = true <-> im_tree (act_item a) = t /\ h = im_handle (act_item a).
Proof.
  intros Hbs Hon Hin. unfold about, on_book in *. rewrite andb_true_iff, otree_eqb_eq, Z.eqb_eq.
  split; intros [E1 E2]; (split; [exact E1|]); subst t.
  - pose proof (items_key_inj _ _ _ _ _ _ _ Hbs Hon Hin E2) as E. congruence.
  - pose proof (items_handles_nodup _ _ (im_tree (act_item a)) Hbs) as N. subst h.
    assert (E : im_leaf (act_item a) = l).
    { revert N Hon Hin. generalize (oitems (T (im_tree (act_item a)))). clear.
      intros L N H1 H2. induction L as [|[x y] L IH]; [destruct H1|].
      cbn [map fst] in N. inversion N as [|? ? N1 N2]; subst.
      destruct H1 as [H1|H1], H2 as [H2|H2]; [congruence| | |auto].
      - injection H1 as -> ->. exfalso. apply N1. apply (in_map fst) in H2. exact H2.
      - injection H2 as -> ->. exfalso. apply N1. apply (in_map fst) in H1. exact H1. }
    rewrite E. reflexivity.
Qed.

Lemma leaf_of_about bs T a t l : bs_ok bs T -> on_book T a -> In l (oleaves (T t)) ->
  about a t l = true -> l = im_leaf (act_item a).
Proof.
  intros Hbs Hon Hin Ha. unfold about, on_book in *. apply andb_prop in Ha as [E1 E2].
  apply otree_eqb_eq in E1. apply Z.eqb_eq in E2. subst t.
  symmetry. eapply leaves_key_unique; [exact Hbs| |exact Hin|exact E2].
  apply in_oleaves. eexists. exact Hon.
Qed.

Lemma qty_key l q : lf_key (lf_set_qty l q) = lf_key l.
Proof. reflexivity. Qed.
Lemma chgk_key a t l : lf_key (chgk a t l) = lf_key l.
Proof. unfold chgk. destruct a; try reflexivity. destruct (negb _ && _); reflexivity. Qed.
Lemma chgs_key acts : forall t l, lf_key (chgs acts t l) = lf_key l.
Proof. induction acts as [|a r IH]; intros t l; cbn [chgs]; [reflexivity|]. rewrite IH. apply chgk_key. Qed.
Lemma about_key a t l l' : lf_key l = lf_key l' -> about a t l = about a t l'.
Proof. unfold about. intros ->. reflexivity. Qed.
Lemma killed_key acts t l l' : lf_key l = lf_key l' -> killed acts t l = killed acts t l'.
Proof.
  intros E. unfold killed. induction acts as [|a r IH]; cbn [existsb]; [reflexivity|].
  rewrite (about_key a t l l' E), IH. reflexivity.
Qed.

Lemma apply_changes_app b l1 l2 : apply_changes b (l1 ++ l2) =
  bind (apply_changes b l1) (fun b' => apply_changes b' l2).
Proof.
  revert b; induction l1 as [|[h q] l1 IH]; intros b; cbn [apply_changes app]; [reflexivity|].
  destruct (bs_set_qty b h q) as [b'|e]; cbn [bind]; [apply IH|reflexivity].
Qed.
Lemma apply_deletes_app b l1 l2 : apply_deletes b (l1 ++ l2) =
  bind (apply_deletes b l1) (fun b' => apply_deletes b' l2).
Proof.
  revert b; induction l1 as [|[t k] l1 IH]; intros b; cbn [apply_deletes app]; [reflexivity|].
  destruct (bs_remove_by_key b t k) as [[b' o]|e]; cbn [bind]; [|reflexivity].
  destruct (unwrap o); cbn [bind]; [apply IH|reflexivity].
Qed.

Lemma akey_id bs T a b : bs_ok bs T -> on_book T a -> on_book T b ->
  item_id (act_item a) = item_id (act_item b) -> akey a = akey b.
Proof.
  intros Hbs Ha Hb E. unfold item_id, akey, on_book in *. injection E as E1 E2.
  rewrite <- E1, <- E2 in Hb.
  pose proof (items_handles_nodup _ _ (im_tree (act_item a)) Hbs) as N.
  rewrite E1. f_equal. f_equal.
  revert N Ha Hb. generalize (oitems (T (im_tree (act_item a)))). clear.
  intros L N H1 H2. induction L as [|[x y] L IH]; [destruct H1|].
  cbn [map fst] in N. inversion N as [|? ? N1 N2]; subst.
  destruct H1 as [H1|H1], H2 as [H2|H2]; [congruence| | |auto].
  - injection H1 as -> ->. exfalso. apply N1. apply (in_map fst) in H2. exact H2.
  - injection H2 as -> ->. exfalso. apply N1. apply (in_map fst) in H1. exact H1.
Qed.

Lemma change_one bs T a : bs_ok bs T -> on_book T a ->
  exists bs' T', apply_changes bs (change_of a) = Ok bs' /\ bs_ok bs' T' /\ bs_side bs' = bs_side bs /\
    (forall t, oleaves (T' t) = map (chgk a t) (oleaves (T t))) /\
    (forall b, on_book T b -> akey b <> akey a -> on_book T' b) /\
    (forall s, book_reach s bs -> book_reach s bs').
Proof.
  intros Hbs Hon. destruct a as [i q|i|i].
  2,3: exists bs, T; split; [reflexivity|]; split; [exact Hbs|]; split; [reflexivity|]; split;
    [intros t; cbn [chgk]; symmetry; apply map_id|split; auto].
  unfold change_of, chgk. destruct (lf_qty (im_leaf i) - q =? 0) eqn:Z0.
  { exists bs, T; split; [reflexivity|]; split; [exact Hbs|]; split; [reflexivity|]; split;
    [intros t; cbn [negb andb]; symmetry; apply map_id|split; auto]. }
  cbn [negb andb apply_changes].
  destruct (bs_set_qty_spec bs T (im_tree i) (im_handle i) (im_leaf i) (lf_qty (im_leaf i) - q) Hbs Hon)
    as (bs' & E & Hok & Hs).
  rewrite E. cbn [bind]. eexists bs', _. split; [reflexivity|]. split; [exact Hok|]. split; [exact Hs|].
  split; [|split].
  - intros t. destruct (otree_eqb t (im_tree i)) eqn:Et.
    + apply otree_eqb_eq in Et as ->. rewrite tupd_same. unfold oleaves. rewrite oset_items, !map_map.
      apply map_ext_in. intros [h l] Hin. unfold set_item. cbn [fst].
      pose proof (about_in _ _ (AFill i q) _ _ _ Hbs Hon Hin) as Ha. cbn [act_item] in Ha.
      destruct (about (AFill i q) (im_tree i) l) eqn:Ab.
      * destruct (proj1 Ha eq_refl) as [_ ->]. rewrite Z.eqb_refl. cbn [snd].
        apply in_map with (f := snd) in Hin. cbn [snd] in Hin.
        pose proof (leaf_of_about _ _ (AFill i q) _ _ Hbs Hon Hin Ab) as El. cbn [act_item] in El.
        rewrite Ab, El. reflexivity.
      * cbn [snd]. rewrite Ab. destruct (h =? im_handle i) eqn:Eh; [|reflexivity].
        apply Z.eqb_eq in Eh. discriminate (proj2 Ha (conj eq_refl Eh)).
    + rewrite tupd_other by (intros ->; rewrite otree_eqb_refl in Et; discriminate Et).
      rewrite <- (map_id (oleaves (T t))) at 1. apply map_ext. intros l.
      unfold about. cbn [act_item].
      assert (E0 : otree_eqb (im_tree i) t = false).
      { destruct (otree_eqb (im_tree i) t) eqn:E0; [|reflexivity].
        apply otree_eqb_eq in E0. subst t. rewrite otree_eqb_refl in Et. discriminate Et. }
      rewrite E0. reflexivity.
  - intros b Hb Hne. unfold on_book in *.
    destruct (otree_eqb (im_tree (act_item b)) (im_tree i)) eqn:Et.
    + apply otree_eqb_eq in Et. rewrite Et in *. rewrite tupd_same, oset_items. apply in_map_iff.
      exists (im_handle (act_item b), im_leaf (act_item b)). split; [|exact Hb].
      unfold set_item. cbn [fst]. destruct (im_handle (act_item b) =? im_handle i) eqn:Eh; [|reflexivity].
      apply Z.eqb_eq in Eh. exfalso. apply Hne.
      apply (akey_id bs T b (AFill i q) Hbs).
      * unfold on_book. rewrite Et. exact Hb.
      * exact Hon.
      * unfold item_id. cbn [act_item]. rewrite Et, Eh. reflexivity.
    + rewrite tupd_other by (intros E0; rewrite E0, otree_eqb_refl in Et; discriminate Et). exact Hb.
  - intros s Hr. pose proof Hbs as (F & Hrep).
    eapply (br_qty s bs (im_tree i)); [exact Hr|apply (tree_iter_all_spec _ _ _ _ _ (Hrep (im_tree i)))| |exact E].
    apply in_dir. exact Hon.
Qed.

Lemma changes_spec acts : forall bs T, bs_ok bs T -> Forall (on_book T) acts -> NoDup (map akey acts) ->
  exists bs' T', apply_changes bs (concat (map change_of acts)) = Ok bs' /\ bs_ok bs' T' /\
    bs_side bs' = bs_side bs /\ (forall t, oleaves (T' t) = map (chgs acts t) (oleaves (T t))) /\
    (forall s, book_reach s bs -> book_reach s bs').
Proof.
  induction acts as [|a r IH]; intros bs T Hbs Hon Hnd.
  - exists bs, T. split; [reflexivity|]. split; [exact Hbs|]. split; [reflexivity|].
    split; [intros t; symmetry; apply map_id|auto].
  - inversion Hon as [|? ? Ha Hr]; subst. cbn [map] in Hnd. inversion Hnd as [|? ? N1 N2]; subst.
    destruct (change_one bs T a Hbs Ha) as (b1 & T1 & E1 & Hb1 & S1 & L1 & K1 & R1).
    destruct (IH b1 T1 Hb1) as (b2 & T2 & E2 & Hb2 & S2 & L2 & R2); [|exact N2|].
    + rewrite Forall_forall in *. intros b Hb. apply K1; [apply Hr; exact Hb|].
      intros E. apply N1. rewrite <- E. apply in_map. exact Hb.
    + exists b2, T2. cbn [map concat]. rewrite apply_changes_app, E1. cbn [bind].
      split; [exact E2|]. split; [exact Hb2|]. split; [congruence|].
      split; [intros t; rewrite L2, L1, map_map; reflexivity|auto].
Qed.

Lemma filter_split_key A (x : leaf) B : (forall l, In l (A ++ B) -> lf_key l <> lf_key x) ->
  filter (fun l => negb (lf_key x =? lf_key l)) (A ++ x :: B) = A ++ B.
Proof.
  intros H. rewrite filter_app. cbn [filter]. rewrite Z.eqb_refl. cbn [negb].
  assert (G : forall L, (forall l, In l L -> lf_key l <> lf_key x) ->
    filter (fun l => negb (lf_key x =? lf_key l)) L = L).
  { intros L HL. induction L as [|y L IH]; [reflexivity|]. cbn [filter].
    assert (E : (lf_key x =? lf_key y) = false).
    { apply Z.eqb_neq. intros E. apply (HL y (or_introl eq_refl)). symmetry. exact E. }
    rewrite E. cbn [negb]. rewrite IH; [reflexivity|]. intros l Hl. apply HL. right. exact Hl. }
  rewrite !G; [reflexivity| |]; intros l Hl; apply H; apply in_or_app; auto.
Qed.

Definition has_key (T : trees) (a : act) : Prop :=
  exists l, In l (oleaves (T (im_tree (act_item a)))) /\ lf_key l = lf_key (im_leaf (act_item a)).

Lemma delete_one bs T a : bs_ok bs T -> has_key T a ->
  exists bs' T', apply_deletes bs (delete_of a) = Ok bs' /\ bs_ok bs' T' /\ bs_side bs' = bs_side bs /\
    (forall t, oleaves (T' t) = filter (fun l => negb (kills a && about a t l)) (oleaves (T t))) /\
    (forall b, has_key T b -> akey b <> akey a -> has_key T' b) /\
    (forall s, book_reach s bs -> book_reach s bs').
Proof.
  intros Hbs Hon.
  assert (D : delete_of a = if kills a then [akey a] else []).
  { destruct a as [i q|i|i]; cbn [delete_of kills]; try reflexivity. }
  rewrite D. destruct (kills a) eqn:K.
  2:{ exists bs, T. split; [reflexivity|]. split; [exact Hbs|]. split; [reflexivity|]. split; [|split; auto].
      intros t. cbn [andb negb]. generalize (oleaves (T t)). intros L.
      induction L as [|x L IH]; cbn [filter]; [reflexivity|rewrite <- IH; reflexivity]. }
  cbn [andb apply_deletes]. unfold akey.
  destruct (bs_remove_spec bs T (im_tree (act_item a)) (lf_key (im_leaf (act_item a))) Hbs)
    as (bs' & old & o' & E & Hok & Hs & Hr).
  rewrite E. cbn [bind]. destruct Hon as (l & Hl & Kl).
  destruct old as [x|]; cbn [removed] in Hr.
  2:{ exfalso. destruct Hr as [_ Hr]. apply (Hr l Hl Kl). }
  destruct Hr as (Kx & A & B & EL & EL'). cbn [unwrap bind].
  exists bs', (tupd T (im_tree (act_item a)) o'). split; [reflexivity|]. split; [exact Hok|]. split; [exact Hs|].
  assert (Hf : forall t, oleaves (tupd T (im_tree (act_item a)) o' t) =
    filter (fun l0 => negb (about a t l0)) (oleaves (T t))).
  { intros t. destruct (otree_eqb t (im_tree (act_item a))) eqn:Et.
    - apply otree_eqb_eq in Et as ->. rewrite tupd_same, EL', EL.
      rewrite <- (filter_split_key A x B (bs_rep_nodup_keys bs T _ A x B Hbs EL)).
      apply filter_ext. intros y. unfold about. rewrite otree_eqb_refl, Kx. reflexivity.
    - rewrite tupd_other by (intros ->; rewrite otree_eqb_refl in Et; discriminate Et).
      assert (E0 : otree_eqb (im_tree (act_item a)) t = false).
      { destruct (otree_eqb (im_tree (act_item a)) t) eqn:E0; [|reflexivity].
        apply otree_eqb_eq in E0. subst t. rewrite otree_eqb_refl in Et. discriminate Et. }
      unfold about. rewrite E0. cbn [andb negb]. generalize (oleaves (T t)). intros L.
      induction L as [|y L IH]; cbn [filter]; [reflexivity|rewrite <- IH; reflexivity]. }
  split; [exact Hf|]. split; [|intros s Hr; eapply br_remove; [exact Hr|exact E]].
  intros b (y & Hy & Ky) Hne. exists y. split; [|exact Ky]. rewrite Hf. apply filter_In. split; [exact Hy|].
  unfold about. destruct (otree_eqb (im_tree (act_item a)) (im_tree (act_item b))) eqn:Et; [|reflexivity].
  apply otree_eqb_eq in Et. cbn [andb]. apply negb_true_iff. apply Z.eqb_neq. intros Ek.
  apply Hne. unfold akey. rewrite <- Et, <- Ky, Ek. reflexivity.
Qed.

Lemma deletes_spec acts : forall bs T, bs_ok bs T -> Forall (has_key T) acts -> NoDup (map akey acts) ->
  exists bs' T', apply_deletes bs (concat (map delete_of acts)) = Ok bs' /\ bs_ok bs' T' /\
    bs_side bs' = bs_side bs /\
    (forall t, oleaves (T' t) = filter (fun l => negb (killed acts t l)) (oleaves (T t))) /\
    (forall s, book_reach s bs -> book_reach s bs').
Proof.
  induction acts as [|a r IH]; intros bs T Hbs Hon Hnd.
  - exists bs, T. split; [reflexivity|]. split; [exact Hbs|]. split; [reflexivity|]. split; [|auto].
    intros t. cbn. generalize (oleaves (T t)). intros L.
    induction L as [|y L IH]; cbn [filter]; [reflexivity|rewrite <- IH; reflexivity].
  - inversion Hon as [|? ? Ha Hr]; subst. cbn [map] in Hnd. inversion Hnd as [|? ? N1 N2]; subst.
    destruct (delete_one bs T a Hbs Ha) as (b1 & T1 & E1 & Hb1 & S1 & L1 & K1 & R1).
    destruct (IH b1 T1 Hb1) as (b2 & T2 & E2 & Hb2 & S2 & L2 & R2); [|exact N2|].
    + rewrite Forall_forall in *. intros b Hb. apply K1; [apply Hr; exact Hb|].
      intros E. apply N1. rewrite <- E. apply in_map. exact Hb.
    + exists b2, T2. cbn [map concat]. rewrite apply_deletes_app, E1. cbn [bind].
      split; [exact E2|]. split; [exact Hb2|]. split; [congruence|]. split; [|auto].
      intros t. rewrite L2, L1. generalize (oleaves (T t)). intros L.
      induction L as [|y L IHL]; [reflexivity|]. cbn [filter]. unfold killed at 2. cbn [existsb].
      fold (killed r t y). destruct (kills a && about a t y); cbn [negb orb].
      * exact IHL.
      * cbn [filter]. rewrite IHL. reflexivity.
Qed.

(** Leaf by leaf, changes and deletions are what [residue] says. *)
Lemma chgs_other acts t : forall l, (forall a, In a acts -> about a t l = false) -> chgs acts t l = l.
Proof.
  induction acts as [|a r IH]; intros l H; cbn [chgs]; [reflexivity|].
  assert (E : chgk a t l = l).
  { unfold chgk. destruct a; try reflexivity. rewrite (H _ (or_introl eq_refl)), andb_false_r. reflexivity. }
  rewrite E. apply IH. intros b Hb. apply H. right. exact Hb.
Qed.
Lemma killed_other acts t l : (forall a, In a acts -> about a t l = false) -> killed acts t l = false.
Proof.
  intros H. unfold killed. induction acts as [|a r IH]; cbn [existsb]; [reflexivity|].
  rewrite (H a (or_introl eq_refl)), andb_false_r. cbn [orb]. apply IH. intros b Hb. apply H. right. exact Hb.
Qed.

Lemma about_akey a t l : about a t l = true <-> akey a = (t, lf_key l).
Proof.
  unfold about, akey. rewrite andb_true_iff, otree_eqb_eq, Z.eqb_eq.
  split; [intros [-> ->]; reflexivity|intros E; injection E as -> ->; auto].
Qed.

Lemma residue_steps acts t l : NoDup (map akey acts) ->
  (forall a, In a acts -> about a t l = true -> l = im_leaf (act_item a)) ->
  residue acts t l = if killed acts t l then None else Some (chgs acts t l).
Proof.
  induction acts as [|a r IH]; intros N Hl; [reflexivity|].
  cbn [map] in N. inversion N as [|? ? N1 N2]; subst. cbn [residue].
  destruct (about a t l) eqn:Ab.
  - assert (Hno : forall l', lf_key l' = lf_key l -> forall b, In b r -> about b t l' = false).
    { intros l' K b Hb. destruct (about b t l') eqn:Eb; [|reflexivity]. exfalso. apply N1.
      apply about_akey in Ab. apply about_akey in Eb. rewrite Ab, <- K, <- Eb. apply in_map. exact Hb. }
    unfold killed. cbn [existsb]. fold (killed r t l). rewrite Ab, andb_true_r, (killed_other r t l), orb_false_r.
    2:{ apply Hno. reflexivity. }
    pose proof (Hl a (or_introl eq_refl) Ab) as El.
    destruct a as [i q|i|i]; cbn [after_act kills chgs chgk]; try reflexivity.
    rewrite Ab, andb_true_r, El. cbn [act_item].
    destruct (Z.eqb_spec (lf_qty (im_leaf i)) q) as [E|E];
      destruct (Z.eqb_spec (lf_qty (im_leaf i) - q) 0) as [E0|E0]; try lia; cbn [negb].
    + reflexivity.
    + rewrite chgs_other; [reflexivity|]. apply Hno. rewrite qty_key, El. reflexivity.
  - unfold killed. cbn [existsb]. fold (killed r t l). rewrite Ab, andb_false_r. cbn [orb chgs].
    assert (E : chgk a t l = l).
    { unfold chgk. destruct a; try reflexivity. rewrite Ab, andb_false_r. reflexivity. }
    rewrite E. apply IH; [exact N2|]. intros b Hb. apply Hl. right. exact Hb.
Qed.

Lemma residues_steps acts t L : NoDup (map akey acts) ->
  (forall a l, In a acts -> In l L -> about a t l = true -> l = im_leaf (act_item a)) ->
  residues acts t L = filter (fun l => negb (killed acts t l)) (map (chgs acts t) L).
Proof.
  intros N. induction L as [|l L IH]; intros Hl; [reflexivity|]. cbn [residues map filter].
  rewrite (killed_key acts t (chgs acts t l) l (chgs_key acts t l)).
  rewrite residue_steps; [|exact N|].
  2:{ intros a Ha Ab. apply (Hl a l Ha (or_introl eq_refl) Ab). }
  rewrite IH.
  2:{ intros a l' Ha Hin Ab. apply (Hl a l' Ha (or_intror Hin) Ab). }
  destruct (killed acts t l); reflexivity.
Qed.

Lemma residues_app acts t L M : residues acts t (L ++ M) = residues acts t L ++ residues acts t M.
Proof.
  induction L as [|l L IH]; cbn [residues app]; [reflexivity|]. rewrite IH.
  destruct (residue acts t l); reflexivity.
Qed.
Lemma residues_dir acts t s L : residues acts t (dir s L) = dir s (residues acts t L).
Proof.
  destruct s; cbn [dir]; [|reflexivity]. induction L as [|l L IH]; [reflexivity|].
  cbn [rev residues]. rewrite residues_app, IH. cbn [residues].
  destruct (residue acts t l); cbn [rev]; [reflexivity|apply app_nil_r].
Qed.

Theorem book_apply bs T acts : bs_ok bs T -> Forall (on_book T) acts -> NoDup (map akey acts) ->
  exists b1 b2 T', apply_changes bs (concat (map change_of acts)) = Ok b1 /\
    apply_deletes b1 (concat (map delete_of acts)) = Ok b2 /\ bs_ok b2 T' /\ bs_side b2 = bs_side bs /\
    (forall t, oleaves (T' t) = residues acts t (oleaves (T t))) /\
    (forall s, book_reach s bs -> book_reach s b2).
Proof.
  intros Hbs Hon Hnd. destruct (changes_spec acts bs T Hbs Hon Hnd) as (b1 & T1 & E1 & Hb1 & S1 & L1 & R1).
  destruct (deletes_spec acts b1 T1 Hb1) as (b2 & T2 & E2 & Hb2 & S2 & L2 & R2); [|exact Hnd|].
  - rewrite Forall_forall in *. intros a Ha. specialize (Hon a Ha). unfold on_book in Hon.
    exists (chgs acts (im_tree (act_item a)) (im_leaf (act_item a))). split; [|apply chgs_key].
    rewrite L1. apply in_map. apply in_oleaves. eexists. exact Hon.
  - exists b1, b2, T2. split; [exact E1|]. split; [exact E2|]. split; [exact Hb2|]. split; [congruence|].
    split; [|auto].
    intros t. rewrite L2, L1. symmetry. apply residues_steps; [exact Hnd|].
    intros a l Ha Hl Ab. rewrite Forall_forall in Hon. eapply leaf_of_about; [exact Hbs|apply Hon; exact Ha|exact Hl|exact Ab].
Qed.
