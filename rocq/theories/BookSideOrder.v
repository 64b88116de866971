(** The merged iteration is ordered, complete when nothing is skipped, and the order
    removed from a full side is a worst one. *)
From Coq Require Import ZArith List Bool Lia ZifyBool Permutation Sorted.
From Verif Require Import Base Nodes OrderTree BookSide BaseFacts NodesFacts BitFacts HeapFacts
  TreeRep TreeFacts TreeOps TreeIter BookSideFacts.
Import ListNotations.
Open Scope Z_scope.

(** [a] comes no later than [b] on side [s]. *)
Definition no_worse (s : side) (a b : Z) : Prop := match s with Bid => b <= a | Ask => a <= b end.
Lemma no_worse_refl s a : no_worse s a a.
Proof. destruct s; cbn; lia. Qed.
Lemma no_worse_trans s a b c : no_worse s a b -> no_worse s b c -> no_worse s a c.
Proof. destruct s; cbn; lia. Qed.
Lemma no_worse_total s a b : no_worse s a b \/ no_worse s b a.
Proof. destruct s; cbn; lia. Qed.

Definition before (s : side) (i j : item) : Prop := no_worse s (rank_key i) (rank_key j).

(** Items of a list of orders, in order. *)
Definition key_sorted (s : side) (l : list (Z * leaf)) : Prop :=
  StronglySorted (fun x y => no_worse s (lf_key (snd x)) (lf_key (snd y))) l.

Lemma ssorted_rev {A} (R : A -> A -> Prop) l : StronglySorted R l -> StronglySorted (fun x y => R y x) (rev l).
Proof.
  induction 1 as [|x l Hs IH Hf]; cbn; [constructor|].
  clear Hs. revert IH. rewrite Forall_forall in Hf.
  assert (Hf' : forall y, In y (rev l) -> R x y) by (intros y Hy; apply Hf; apply in_rev; exact Hy).
  clear Hf. induction (rev l) as [|z m IHm]; intros Hm; cbn; [repeat constructor|].
  inversion Hm; subst. constructor.
  - apply IHm; auto. intros y Hy. apply Hf'. right. exact Hy.
  - apply Forall_app. split; [assumption|]. constructor; [|constructor]. apply Hf'. left. reflexivity.
Qed.

Lemma ssorted_impl {A} (R S : A -> A -> Prop) l : (forall x y, R x y -> S x y) ->
  StronglySorted R l -> StronglySorted S l.
Proof.
  intros H. induction 1 as [|x l Hs IH Hf]; constructor; auto.
  eapply Forall_impl; [|exact Hf]. auto.
Qed.

Lemma bitems_sorted bs T t : bs_ok bs T -> key_sorted (bs_side bs) (bitems bs T t).
Proof.
  intros (F & Hb). pose proof (oleaves_sorted _ _ _ _ _ (Hb t)) as Hs. unfold keys_sorted in Hs.
  unfold key_sorted, bitems. destruct (bs_side bs); cbn [dir].
  - apply ssorted_rev in Hs. eapply ssorted_impl; [|exact Hs]. cbn. intros; lia.
  - eapply ssorted_impl; [|exact Hs]. cbn. intros; lia.
Qed.

Lemma suffix_ssorted {A} (R : A -> A -> Prop) l m : suffix l m -> StronglySorted R m -> StronglySorted R l.
Proof. induction 1; auto. intros H'. inversion H'; auto. Qed.

(** The rank of an item in terms of its key. *)
Lemma rank_fixed s now oracle x i : item_of s now oracle Fixed x = Some i -> rank_key i = lf_key (snd x).
Proof.
  intros H. injection H as <-. unfold rank_key. cbn [im_price im_leaf].
  unfold price_of_key, low_of_key. pose proof (Z.div_mod (lf_key (snd x)) 18446744073709551616). lia.
Qed.

Lemma rank_pegged s now op x i : 0 <= lf_key (snd x) < two128 ->
  item_of s now (Some op) OraclePegged x = Some i ->
  rank_key i = lf_key (snd x) + (op - 9223372036854775808) * 18446744073709551616.
Proof.
  intros Hk H. unfold item_of in H. destruct (oracle_pegged_price op (snd x) s) as [st p] eqn:E.
  assert (Hst : st <> Skipped) by (intros ->; discriminate).
  destruct (oracle_price_not_skipped _ _ _ _ _ Hk E Hst) as [Hp _].
  assert (Hi : i = mkItem OraclePegged (fst x) (snd x) p (if leaf_is_expired (snd x) now then Invalid else st))
    by (destruct st; congruence).
  rewrite Hi. unfold rank_key. cbn [im_price im_leaf]. rewrite Hp. unfold price_of_key, low_of_key.
  pose proof (Z.div_mod (lf_key (snd x)) 18446744073709551616). lia.
Qed.

Lemma rank_mono s now oracle t x y i j :
  (forall z, z = x \/ z = y -> 0 <= lf_key (snd z) < two128) ->
  item_of s now oracle t x = Some i -> item_of s now oracle t y = Some j ->
  no_worse s (lf_key (snd x)) (lf_key (snd y)) -> before s i j.
Proof.
  intros Hk Hi Hj Hn. unfold before. destruct t.
  - rewrite (rank_fixed _ _ _ _ _ Hi), (rank_fixed _ _ _ _ _ Hj). exact Hn.
  - destruct oracle as [op|]; [|discriminate].
    rewrite (rank_pegged _ _ _ _ _ (Hk _ (or_introl eq_refl)) Hi),
            (rank_pegged _ _ _ _ _ (Hk _ (or_intror eq_refl)) Hj).
    destruct s; cbn in *; lia.
Qed.

Lemma pick_best s a b : exists i, pick s (Some a) (Some b) = Some i /\ before s i a /\ before s i b.
Proof.
  unfold pick, before. destruct s; cbn [no_worse].
  - destruct (rank_key b <? rank_key a) eqn:E; eexists; (split; [reflexivity|]); lia.
  - destruct (rank_key a <? rank_key b) eqn:E; eexists; (split; [reflexivity|]); lia.
Qed.

Lemma pick_none_r s f i : pick s f None = Some i -> f = Some i.
Proof. destruct f; cbn; congruence. Qed.
Lemma pick_none_l s p i : pick s None p = Some i -> p = Some i.
Proof. destruct p; cbn; congruence. Qed.

Lemma fixed_item s now oracle x : exists i, item_of s now oracle Fixed x = Some i.
Proof. eexists; reflexivity. Qed.

Lemma pegged_item s now op x : skipped s op (snd x) = false ->
  exists i, item_of s now (Some op) OraclePegged x = Some i.
Proof.
  unfold skipped, item_of. destruct (oracle_pegged_price op (snd x) s) as [st p]. cbn [fst].
  destruct st; intros H; try discriminate; eauto.
Qed.

Lemma skip1_snd_after s op pl x : fst (skip1 s op pl) = Some x ->
  exists pre, pl = pre ++ x :: tl (snd (skip1 s op pl)) \/
   (exists y, pl = pre ++ x :: y :: tl (snd (skip1 s op pl))).
Proof.
  destruct pl as [|y pl]; [discriminate|]. cbn [skip1].
  destruct (skipped s op (snd y)) eqn:E.
  - rewrite skip2_cons_true by exact E. intros H.
    assert (Hx : exists pre, pl = pre ++ x :: snd (skip2 s op pl)).
    { clear E y. induction pl as [|z pl IH]; [discriminate|]. cbn in *.
      destruct (skipped s op (snd z)).
      - destruct (IH H) as (pre & Hp). exists (z :: pre). cbn. congruence.
      - injection H as <-. exists []. reflexivity. }
    destruct Hx as (pre & Hx). exists (y :: pre).
    destruct (snd (skip2 s op pl)) as [|z r] eqn:Es.
    + left. cbn. rewrite Hx. reflexivity.
    + right. exists z. cbn. rewrite Hx. reflexivity.
  - cbn. intros H. injection H as <-. exists []. left. reflexivity.
Qed.

Lemma skips_first s oracle pl x : key_sorted s pl -> fst (skips s oracle pl) = Some x ->
  forall y, In y (snd (skips s oracle pl)) -> no_worse s (lf_key (snd x)) (lf_key (snd y)).
Proof.
  intros Hs H y Hy. destruct oracle as [op|]; [|discriminate]. cbn [skips] in *.
  destruct pl as [|z pl]; [discriminate|]. cbn [skip1] in *.
  destruct (skipped s op (snd z)) eqn:E.
  - rewrite skip2_cons_true in * by exact E. inversion Hs as [|? ? Hs' _]; subst. clear E Hs.
    induction pl as [|w pl IH]; [discriminate|]. cbn in *. inversion Hs' as [|? ? Hs2 Hf]; subst.
    destruct (skipped s op (snd w)); [auto|]. injection H as <-. rewrite Forall_forall in Hf. cbn in Hy. auto.
  - cbn in H, Hy. injection H as <-. destruct Hy as [<-|Hy]; [apply no_worse_refl|].
    inversion Hs as [|? ? _ Hf]; subst. rewrite Forall_forall in Hf. auto.
Qed.

(** The rank order of the whole iteration. *)
Lemma miter_sorted n : forall s now oracle fl pl,
  key_sorted s fl -> key_sorted s pl ->
  (forall x, In x fl \/ In x pl -> 0 <= lf_key (snd x) < two128) ->
  StronglySorted (before s) (miter n s now oracle fl pl).
Proof.
  induction n as [|n IH]; intros s now oracle fl pl Hf Hp Hk; cbn [miter]; [constructor|].
  destruct (pick s _ _) as [i|] eqn:Ep; [|constructor].
  pose proof (skips_suffix s oracle pl) as Hsuf.
  assert (Hfb : forall x j, In x fl -> item_of s now oracle Fixed x = Some j -> before s i j).
  { intros x j Hx Hj. destruct fl as [|x0 fl]; [contradiction|]. cbn [hd_error oitem_of] in Ep.
    destruct (fixed_item s now oracle x0) as (i0 & Hi0). rewrite Hi0 in Ep.
    assert (Hb0 : before s i i0).
    { destruct (oitem_of s now oracle OraclePegged (fst (skips s oracle pl))) as [b|].
      - destruct (pick_best s i0 b) as (i' & He & H1 & _). rewrite Ep in He. injection He as <-. exact H1.
      - apply pick_none_r in Ep. injection Ep as <-. apply no_worse_refl. }
    eapply no_worse_trans; [exact Hb0|].
    eapply (rank_mono s now oracle Fixed x0 x); eauto.
    - intros z [->| ->]; apply Hk; left; [left; reflexivity|exact Hx].
    - destruct Hx as [<-|Hx]; [apply no_worse_refl|]. inversion Hf as [|? ? _ Hf']; subst.
      rewrite Forall_forall in Hf'. auto. }
  assert (Hpb : forall y j, In y (snd (skips s oracle pl)) -> 
            (im_tree i = OraclePegged \/ fst (skips s oracle pl) <> None) ->
            item_of s now oracle OraclePegged y = Some j -> before s i j).
  { intros y j Hy Hne Hj.
    destruct (fst (skips s oracle pl)) as [x0|] eqn:Es.
    2:{ destruct Hne as [Ht|Hne]; [|congruence]. cbn [oitem_of] in Ep. apply pick_none_r in Ep.
        destruct fl; [discriminate|]. cbn [hd_error oitem_of] in Ep. apply item_of_tree in Ep as (Ht' & _). congruence. }
    destruct (skips_in _ _ _ _ Es) as [Hin0 Hpk]. cbn [oitem_of] in Ep.
    destruct oracle as [op|]; [|discriminate]. cbn [peek_ok] in Hpk.
    destruct (pegged_item s now op x0 Hpk) as (i0 & Hi0). rewrite Hi0 in Ep.
    assert (Hb0 : before s i i0).
    { destruct (oitem_of s now (Some op) Fixed (hd_error fl)) as [b|].
      - destruct (pick_best s b i0) as (i' & He & _ & H1). rewrite Ep in He. injection He as <-. exact H1.
      - apply pick_none_l in Ep. injection Ep as <-. apply no_worse_refl. }
    eapply no_worse_trans; [exact Hb0|].
    eapply (rank_mono s now (Some op) OraclePegged x0 y); eauto.
    - intros z [->| ->]; apply Hk; right; [exact Hin0|]. eapply suffix_in; eauto.
    - eapply skips_first; eauto. }
  assert (Hnone : fst (skips s oracle pl) = None -> forall y j, In y (snd (skips s oracle pl)) ->
            item_of s now oracle OraclePegged y = Some j -> False).
  { intros Es y j Hy Hj. destruct oracle as [op|]; [|discriminate]. cbn [skips] in *.
    destruct pl as [|z pl]; [contradiction|]. cbn [skip1] in *.
    destruct (skipped s op (snd z)); [|discriminate].
    clear - Es Hy. revert Es Hy. generalize (z :: pl). induction l as [|w l IHl]; cbn; [auto|].
    destruct (skipped s op (snd w)); [auto|discriminate]. }
  assert (Hpb' : forall y j, In y (snd (skips s oracle pl)) ->
            item_of s now oracle OraclePegged y = Some j -> before s i j).
  { intros y j Hy Hj. destruct (fst (skips s oracle pl)) as [x0|] eqn:Es.
    - eapply Hpb; [exact Hy|right; congruence|exact Hj].
    - exfalso. eapply Hnone; eauto. }
  assert (Hks : key_sorted s (snd (skips s oracle pl))) by (eapply suffix_ssorted; eauto).
  constructor.
  - destruct (im_tree i).
    + apply IH.
      * eapply suffix_ssorted; [apply suffix_tl|exact Hf].
      * exact Hks.
      * intros x [Hx|Hx]; apply Hk; [left; eapply suffix_in; [apply suffix_tl|exact Hx]|right; eapply suffix_in; eauto].
    + apply IH.
      * exact Hf.
      * eapply suffix_ssorted; [apply suffix_tl|exact Hks].
      * intros x [Hx|Hx]; apply Hk; [auto|right]. eapply suffix_in; [exact Hsuf|]. eapply suffix_in; [apply suffix_tl|exact Hx].
  - apply Forall_forall. intros j Hj.
    assert (Hj' : exists x, In x (match im_tree j with Fixed => fl | OraclePegged => snd (skips s oracle pl) end) /\
              item_of s now oracle (im_tree j) x = Some j).
    { destruct (im_tree i); apply miter_in in Hj as (x & Hx & Hi); exists x; (split; [|exact Hi]);
        destruct (im_tree j); auto; (eapply suffix_in; [apply suffix_tl|exact Hx]). }
    destruct Hj' as (x & Hx & Hi). destruct (im_tree j); eauto.
Qed.

Theorem merged_sorted bs T now oracle : bs_ok bs T -> leaves_ok T ->
  StronglySorted (before (bs_side bs)) (merged bs T now oracle).
Proof.
  intros Hb Hl. unfold merged. apply miter_sorted.
  - apply bitems_sorted; exact Hb.
  - apply bitems_sorted; exact Hb.
  - intros x [Hx|Hx]; unfold bitems in Hx; apply in_dir in Hx; apply oitems_leaf in Hx; apply Hl in Hx; apply Hx.
Qed.

(** ** Completeness *)
Definition none_skipped (s : side) (oracle : option Z) (pl : list (Z * leaf)) : Prop :=
  match oracle with
  | None => pl = []
  | Some op => forall x, In x pl -> skipped s op (snd x) = false
  end.

Definition omap {A B} (f : A -> option B) (l : list A) : list B :=
  concat (map (fun x => match f x with Some y => [y] | None => [] end) l).

Lemma omap_cons {A B} (f : A -> option B) x l :
  omap f (x :: l) = match f x with Some y => y :: omap f l | None => omap f l end.
Proof. unfold omap. cbn. destruct (f x); reflexivity. Qed.

Lemma omap_in {A B} (f : A -> option B) l y : In y (omap f l) <-> exists x, In x l /\ f x = Some y.
Proof.
  induction l as [|z l IH]; cbn.
  - split; [intros []|intros (x & [] & _)].
  - rewrite in_app_iff, IH. split.
    + intros [H|(x & Hx & He)]; [|eauto]. destruct (f z) eqn:E; [|destruct H].
      destruct H as [<-|[]]. eauto.
    + intros (x & [<-|Hx] & He); [left; rewrite He; left; reflexivity|right; eauto].
Qed.

Lemma omap_perm {A B} (f : A -> option B) l m : Permutation l m -> Permutation (omap f l) (omap f m).
Proof.
  induction 1 as [|x l m H IH|x y l|l m n H1 IH1 H2 IH2].
  - constructor.
  - rewrite !omap_cons. destruct (f x); [constructor|]; exact IH.
  - rewrite !omap_cons. destruct (f x), (f y); try reflexivity. constructor.
  - eapply Permutation_trans; eauto.
Qed.

Lemma none_skipped_suffix s oracle l m : suffix l m -> none_skipped s oracle m -> none_skipped s oracle l.
Proof.
  intros Hs H. destruct oracle as [op|]; cbn in *.
  - intros x Hx. apply H. eapply suffix_in; eauto.
  - subst m. inversion Hs. reflexivity.
Qed.

Lemma skips_none s oracle pl : none_skipped s oracle pl -> skips s oracle pl = (hd_error pl, pl).
Proof.
  destruct oracle as [op|]; cbn [none_skipped skips]; [|intros ->; reflexivity].
  destruct pl as [|x pl]; [reflexivity|]. intros H. cbn [skip1].
  rewrite (H x (or_introl eq_refl)). reflexivity.
Qed.

Lemma miter_complete n : forall s now oracle fl pl, none_skipped s oracle pl ->
  (length fl + length pl <= n)%nat ->
  Permutation (miter n s now oracle fl pl)
    (omap (item_of s now oracle Fixed) fl ++ omap (item_of s now oracle OraclePegged) pl).
Proof.
  induction n as [|n IH]; intros s now oracle fl pl Hn Hl.
  - destruct fl; [|cbn in Hl; lia]. destruct pl; [|cbn in Hl; lia]. constructor.
  - cbn [miter]. rewrite (skips_none _ _ _ Hn). cbn [fst snd].
    destruct (pick s _ _) as [i|] eqn:Ep.
    + apply pick_some in Ep as [Ep|Ep].
      * destruct fl as [|x fl]; [discriminate|]. cbn [hd_error oitem_of] in Ep. rewrite omap_cons, Ep.
        apply item_of_tree in Ep as (-> & _). cbn [tl app]. constructor. apply IH; [exact Hn|].
        cbn in Hl. lia.
      * destruct pl as [|x pl]; [discriminate|]. cbn [hd_error oitem_of] in Ep. rewrite (omap_cons _ x pl), Ep.
        apply item_of_tree in Ep as (-> & _). cbn [tl app].
        apply Permutation_cons_app. apply IH; [eapply none_skipped_suffix; [apply suffix_cons, suffix_refl|exact Hn]|].
        cbn in Hl. lia.
    + destruct fl as [|x fl].
      2:{ exfalso. cbn [hd_error oitem_of] in Ep. destruct (fixed_item s now oracle x) as (i0 & Hi). rewrite Hi in Ep.
          destruct (oitem_of s now oracle OraclePegged (hd_error pl)) as [b|]; [|discriminate].
          destruct (pick_best s i0 b) as (i' & He & _). congruence. }
      destruct pl as [|y pl]; [constructor|].
      exfalso. destruct oracle as [op|]; [|discriminate]. cbn [hd_error oitem_of] in Ep.
      destruct (pegged_item s now op y (Hn y (or_introl eq_refl))) as (j & Hj). rewrite Hj in Ep. discriminate.
Qed.

(** Orders of a side as the matching engine should see them. *)
Definition all_items (bs : bookside) (T : trees) (now : Z) (oracle : option Z) : list item :=
  omap (item_of (bs_side bs) now oracle Fixed) (oitems (T Fixed)) ++
  omap (item_of (bs_side bs) now oracle OraclePegged) (oitems (T OraclePegged)).

Lemma dir_perm {A} s (l : list A) : Permutation (dir s l) l.
Proof. destruct s; cbn; [symmetry; apply Permutation_rev|reflexivity]. Qed.

Theorem merged_complete bs T now oracle :
  none_skipped (bs_side bs) oracle (oitems (T OraclePegged)) ->
  Permutation (merged bs T now oracle) (all_items bs T now oracle).
Proof.
  intros Hn. unfold merged, all_items, bitems.
  eapply Permutation_trans; [apply miter_complete|].
  - destruct oracle as [op|]; cbn in *.
    + intros x Hx. apply in_dir in Hx. auto.
    + rewrite Hn. destruct (bs_side bs); reflexivity.
  - rewrite !dir_length. lia.
  - apply Permutation_app; apply omap_perm, dir_perm.
Qed.

(** Without an oracle price only the fixed orders are offered, all of them. *)
Lemma miter_no_oracle n : forall s now fl pl, (length fl <= n)%nat ->
  miter n s now None fl pl = omap (item_of s now None Fixed) fl.
Proof.
  induction n as [|n IH]; intros s now fl pl Hl.
  - destruct fl; [reflexivity|cbn in Hl; lia].
  - destruct fl as [|x fl]; [reflexivity|]. cbn [miter skips fst snd hd_error oitem_of tl].
    destruct (fixed_item s now None x) as (i & Hi). rewrite omap_cons, Hi. cbn [pick].
    apply item_of_tree in Hi as (-> & _). f_equal. apply IH. cbn in Hl. lia.
Qed.

Theorem merged_no_oracle bs T now :
  merged bs T now None = omap (item_of (bs_side bs) now None Fixed) (bitems bs T Fixed).
Proof. unfold merged. apply miter_no_oracle. unfold bitems. rewrite dir_length. lia. Qed.

(** Fixed orders are never missed, whatever the oracle says. *)
Lemma miter_fixed_complete n : forall s now oracle fl pl x i, In x fl ->
  item_of s now oracle Fixed x = Some i -> (length fl + length pl <= n)%nat ->
  In i (miter n s now oracle fl pl).
Proof.
  induction n as [|n IH]; intros s now oracle fl pl x i Hx Hi Hl.
  - destruct fl; [contradiction|cbn in Hl; lia].
  - destruct fl as [|x0 fl]; [contradiction|]. cbn [miter hd_error oitem_of tl].
    destruct (fixed_item s now oracle x0) as (i0 & Hi0). rewrite Hi0.
    destruct (pick s _ _) as [j|] eqn:Ep.
    + destruct (pick_some _ _ _ _ Ep) as [E|E].
      * injection E as <-. pose proof (item_of_tree _ _ _ _ _ _ Hi0) as (-> & _).
        destruct Hx as [<-|Hx]; [left; congruence|right]. eapply IH; eauto.
        pose proof (suffix_length _ _ (skips_suffix s oracle pl)). cbn in Hl. lia.
      * destruct (fst (skips s oracle pl)) as [y|] eqn:Es; [|discriminate]. cbn [oitem_of] in E.
        pose proof (item_of_tree _ _ _ _ _ _ E) as (-> & _). right. eapply IH; eauto.
        pose proof (skips_progress _ _ _ _ Es). cbn [length] in *. lia.
    + exfalso. destruct (oitem_of s now oracle OraclePegged (fst (skips s oracle pl))) as [b|]; [|discriminate].
      destruct (pick_best s i0 b) as (i' & He & _). congruence.
Qed.

Theorem merged_fixed_complete bs T now oracle x : In x (oitems (T Fixed)) ->
  exists i, item_of (bs_side bs) now oracle Fixed x = Some i /\ In i (merged bs T now oracle).
Proof.
  intros Hx. destruct (fixed_item (bs_side bs) now oracle x) as (i & Hi). exists i. split; [exact Hi|].
  unfold merged. eapply miter_fixed_complete; [|exact Hi|].
  - apply in_dir. exact Hx.
  - unfold bitems. rewrite !dir_length. lia.
Qed.

(** ** The worst order *)
Definition worst_price (s : side) (oracle : option Z) (t : otree_id) (l : leaf) : option Z :=
  match t with
  | Fixed => Some (price_of_key (lf_key l))
  | OraclePegged => match oracle with Some op => Some (snd (oracle_pegged_price op l s)) | None => None end
  end.

Definition worst_rank (s : side) (oracle : option Z) (t : otree_id) (l : leaf) : option Z :=
  match worst_price s oracle t l with
  | Some p => Some (p * 18446744073709551616 + low_of_key (lf_key l))
  | None => None
  end.

Lemma last_error_snoc {A} (l : list A) x : last_error l = Some x -> exists m, l = m ++ [x].
Proof.
  unfold last_error. intros H. destruct (rev l) as [|y m] eqn:E; [discriminate|]. injection H as ->.
  exists (rev m). rewrite <- (rev_involutive l), E. reflexivity.
Qed.

Lemma last_error_nil {A} (l : list A) : last_error l = None -> l = [].
Proof.
  unfold last_error. intros H. destruct (rev l) as [|y m] eqn:E; [|discriminate].
  rewrite <- (rev_involutive l), E. reflexivity.
Qed.

Definition taken_out (t : otree_id) (x : leaf) (T T' : trees) : Prop :=
  oleaves (T' (flip t)) = oleaves (T (flip t)) /\
  exists A B, oleaves (T t) = A ++ x :: B /\ oleaves (T' t) = A ++ B.

Lemma in_unique_key bs T t h l l' : bs_ok bs T -> In (h, l) (oitems (T t)) -> In l' (oleaves (T t)) ->
  lf_key l = lf_key l' -> l = l'.
Proof.
  intros (F & Hb) Hin Hin' Hk. apply in_oleaves in Hin' as (h' & Hin').
  pose proof (keys_sorted_unique _ _ _ (oleaves_sorted _ _ _ _ _ (Hb t)) Hin Hin' Hk) as E. congruence.
Qed.

Lemma rank_worst_spec s now oracle fo po :
  (forall x, fo = Some x -> leaf_ok Fixed (snd x)) ->
  (forall x, po = Some x -> leaf_ok OraclePegged (snd x)) ->
  exists o, rank_orders s fo po true now oracle = Ok o /\
    match o with
    | None => fo = None /\ (po = None \/ oracle = None)
    | Some i =>
        (match im_tree i with Fixed => fo | OraclePegged => po end) = Some (im_handle i, im_leaf i) /\
        worst_price s oracle (im_tree i) (im_leaf i) = Some (im_price i) /\
        (forall t x r, (match t with Fixed => fo | OraclePegged => po end) = Some x ->
           worst_rank s oracle t (snd x) = Some r -> no_worse s r (rank_key i))
    end.
Proof.
  intros Hf Hp. unfold rank_orders.
  assert (Hfix : forall h l, fo = Some (h, l) -> exists i, fixed_to_result (h, l) now = Ok i /\
            im_tree i = Fixed /\ im_handle i = h /\ im_leaf i = l /\ im_price i = price_of_key (lf_key l) /\
            rank_key i = lf_key l).
  { intros h l E. destruct (item_of_fixed s now oracle h l (Hf _ E)) as (i & Hr & Hi & Hk).
    exists i. split; [exact Hr|]. injection Hi as <-. cbn. auto. }
  assert (Hwf : forall l, worst_rank s oracle Fixed l = Some (lf_key l)).
  { intros l. unfold worst_rank, worst_price, price_of_key, low_of_key.
    f_equal. pose proof (Z.div_mod (lf_key l) 18446744073709551616). lia. }
  destruct oracle as [op|], po as [[ph pl]|].
  - destruct (oracle_pegged_price op pl s) as [st p] eqn:Eo.
    destruct (Hp _ eq_refl) as [Hpk _]. cbn [snd] in Hpk.
    pose proof (oracle_price_range _ _ _ _ _ Eo) as Hpr.
    assert (Hwp : worst_price s (Some op) OraclePegged pl = Some p) by (cbn; rewrite Eo; reflexivity).
    destruct fo as [[fh fl]|].
    + destruct (Hfix _ _ eq_refl) as (i & Hr & Ht & Hh & Hl & Hpi & Hk).
      rewrite key_for_fixed_price_eq by assumption. cbn [bind snd].
      set (b := match s with Bid => _ | Ask => _ end).
      destruct (xorb b true) eqn:Eb.
      * rewrite Hr. cbn [bind]. exists (Some i). split; [reflexivity|]. rewrite Ht, Hh, Hl.
        split; [reflexivity|]. split; [rewrite Hpi; reflexivity|].
        intros t x r Hx Hw. rewrite Hk. destruct t.
        -- injection Hx as <-. cbn [snd] in Hw. rewrite Hwf in Hw. injection Hw as <-. apply no_worse_refl.
        -- injection Hx as <-. cbn [snd] in Hw. unfold worst_rank in Hw. rewrite Hwp in Hw. injection Hw as <-.
           subst b. destruct s; cbn; lia.
      * exists (Some (pegged_to_result ph pl p st now)). split; [reflexivity|]. cbn [im_tree im_handle im_leaf im_price pegged_to_result].
        split; [reflexivity|]. split; [exact Hwp|].
        intros t x r Hx Hw. unfold rank_key. cbn [im_price im_leaf pegged_to_result]. destruct t.
        -- injection Hx as <-. cbn [snd] in Hw. rewrite Hwf in Hw. injection Hw as <-.
           subst b. destruct s; cbn; lia.
        -- injection Hx as <-. cbn [snd] in Hw. unfold worst_rank in Hw. rewrite Hwp in Hw. injection Hw as <-.
           apply no_worse_refl.
    + exists (Some (pegged_to_result ph pl p st now)). split; [reflexivity|]. cbn [im_tree im_handle im_leaf im_price pegged_to_result].
      split; [reflexivity|]. split; [exact Hwp|]. intros t x r Hx Hw. destruct t; [discriminate|].
      injection Hx as <-. cbn [snd] in Hw. unfold worst_rank in Hw. rewrite Hwp in Hw. injection Hw as <-.
      apply no_worse_refl.
  - destruct fo as [[fh fl]|].
    + destruct (Hfix _ _ eq_refl) as (i & Hr & Ht & Hh & Hl & Hpi & Hk). rewrite Hr. cbn [bind].
      exists (Some i). split; [reflexivity|]. rewrite Ht, Hh, Hl. split; [reflexivity|].
      split; [rewrite Hpi; reflexivity|]. intros t x r Hx Hw. destruct t; [|discriminate].
      injection Hx as <-. cbn [snd] in Hw. rewrite Hwf in Hw. injection Hw as <-. rewrite Hk. apply no_worse_refl.
    + exists None. auto.
  - destruct fo as [[fh fl]|].
    + destruct (Hfix _ _ eq_refl) as (i & Hr & Ht & Hh & Hl & Hpi & Hk). rewrite Hr. cbn [bind].
      exists (Some i). split; [reflexivity|]. rewrite Ht, Hh, Hl. split; [reflexivity|].
      split; [rewrite Hpi; reflexivity|]. intros t x r Hx Hw. destruct t; [|discriminate].
      injection Hx as <-. cbn [snd] in Hw. rewrite Hwf in Hw. injection Hw as <-. rewrite Hk. apply no_worse_refl.
    + exists None. auto.
  - destruct fo as [[fh fl]|].
    + destruct (Hfix _ _ eq_refl) as (i & Hr & Ht & Hh & Hl & Hpi & Hk). rewrite Hr. cbn [bind].
      exists (Some i). split; [reflexivity|]. rewrite Ht, Hh, Hl. split; [reflexivity|].
      split; [rewrite Hpi; reflexivity|]. intros t x r Hx Hw. destruct t; [|discriminate].
      injection Hx as <-. cbn [snd] in Hw. rewrite Hwf in Hw. injection Hw as <-. rewrite Hk. apply no_worse_refl.
    + exists None. auto.
Qed.

Theorem bs_remove_worst_spec bs T now oracle : bs_ok bs T -> leaves_ok T ->
  exists bs' ow T', bs_remove_worst bs now oracle = Ok (bs', ow) /\ bs_ok bs' T' /\ bs_side bs' = bs_side bs /\
    match ow with
    | None => (forall t, oleaves (T' t) = oleaves (T t)) /\ oleaves (T Fixed) = [] /\
              (oleaves (T OraclePegged) = [] \/ oracle = None)
    | Some (l, p) => exists t, taken_out t l T T' /\ worst_price (bs_side bs) oracle t l = Some p /\
        last_error (dir (bs_side bs) (oleaves (T t))) = Some l /\
        (forall t' x r, last_error (dir (bs_side bs) (oleaves (T t'))) = Some x ->
           worst_rank (bs_side bs) oracle t' x = Some r ->
           no_worse (bs_side bs) r (p * 18446744073709551616 + low_of_key (lf_key l)))
    end.
Proof.
  intros Hb Hl. pose proof Hb as (F & Hr). unfold bs_remove_worst.
  pose proof (find_worst_spec _ _ _ _ _ (Hr Fixed)) as Hwf.
  pose proof (find_worst_spec _ _ _ _ _ (Hr OraclePegged)) as Hwp.
  cbn [bs_root] in Hwf, Hwp. rewrite Hwf, Hwp. cbn [bind]. change (a_side (bs_nodes bs)) with (bs_side bs) in *.
  assert (Hlast : forall t x, last_error (dir (bs_side bs) (oitems (T t))) = Some x -> In x (oitems (T t))).
  { intros t x Hx. apply last_error_snoc in Hx as (m & Hm). apply (in_dir (bs_side bs)). rewrite Hm.
    apply in_or_app. right. left. reflexivity. }
  assert (Hmap : forall t, last_error (dir (bs_side bs) (oleaves (T t))) =
                 option_map snd (last_error (dir (bs_side bs) (oitems (T t))))).
  { intros t. unfold oleaves. rewrite dir_map. unfold last_error. rewrite <- map_rev.
    destruct (rev _); reflexivity. }
  destruct (rank_worst_spec (bs_side bs) now oracle
     (last_error (dir (bs_side bs) (oitems (T Fixed)))) (last_error (dir (bs_side bs) (oitems (T OraclePegged)))))
    as (o & Ho & Hm).
  { intros x Hx. apply Hl. apply oitems_leaf. apply Hlast. exact Hx. }
  { intros x Hx. apply Hl. apply oitems_leaf. apply Hlast. exact Hx. }
  rewrite Ho. cbn [bind]. destruct o as [i|].
  - destruct Hm as (Hi & Hp & Hw).
    assert (Hi' : last_error (dir (bs_side bs) (oitems (T (im_tree i)))) = Some (im_handle i, im_leaf i))
      by (destruct (im_tree i); exact Hi).
    destruct (bs_remove_spec _ _ (im_tree i) (lf_key (im_leaf i)) Hb) as (bs' & old & o' & He & Hb' & Hs & Hrm).
    rewrite He. cbn [bind]. destruct old as [l|].
    + destruct Hrm as (Hk & A & B & HA & HB).
      assert (l = im_leaf i).
      { symmetry. eapply in_unique_key; [exact Hb|apply Hlast; exact Hi'| |congruence].
        rewrite HA. apply in_or_app. right. left. reflexivity. }
      subst l. exists bs', (Some (im_leaf i, im_price i)), (tupd T (im_tree i) o').
      split; [reflexivity|]. split; [exact Hb'|]. split; [exact Hs|]. exists (im_tree i).
      split; [|split; [exact Hp|split]].
      * split; [rewrite tupd_flip; reflexivity|]. exists A, B. rewrite tupd_same. auto.
      * rewrite Hmap, Hi'. reflexivity.
      * intros t x r Hx Hr'. rewrite Hmap in Hx.
        destruct (last_error (dir (bs_side bs) (oitems (T t)))) as [y|] eqn:Ey; [|discriminate].
        cbn in Hx. injection Hx as <-. apply (Hw t y); [destruct t; exact Ey|exact Hr'].
    + exfalso. destruct Hrm as [_ Hno]. eapply Hno; [|reflexivity]. apply oitems_leaf with (x := (im_handle i, im_leaf i)).
      apply Hlast. exact Hi'.
  - destruct Hm as (Hf & Hp). exists bs, None, T. split; [reflexivity|]. split; [exact Hb|]. split; [reflexivity|].
    split; [reflexivity|].
    assert (Hnil : forall t, last_error (dir (bs_side bs) (oitems (T t))) = None -> oleaves (T t) = []).
    { intros t Hn. apply last_error_nil in Hn. unfold oleaves.
      destruct (oitems (T t)) as [|y m] eqn:E; [reflexivity|].
      assert (Hin : In y (dir (bs_side bs) (y :: m))) by (apply in_dir; left; reflexivity).
      rewrite Hn in Hin. contradiction. }
    split; [apply Hnil; exact Hf|]. destruct Hp as [Hp|Hp]; [left; apply Hnil; exact Hp|right; exact Hp].
Qed.

(** The order found is the worst of all: no order has a worse price, and among those of the
    same price (inside the price range) it has the worst low part. *)
Lemma worst_price_mono s oracle t x y p q : leaf_ok t x -> leaf_ok t y ->
  no_worse s (lf_key x) (lf_key y) -> worst_price s oracle t x = Some p -> worst_price s oracle t y = Some q ->
  no_worse s p q /\ (p = q -> 2 <= p < 9223372036854775807 -> no_worse s (low_of_key (lf_key x)) (low_of_key (lf_key y))).
Proof.
  intros [Kx _] [Ky _] Hk Hp Hq.
  assert (Hd : no_worse s (price_of_key (lf_key x)) (price_of_key (lf_key y))).
  { unfold price_of_key. destruct s; cbn [no_worse] in *; apply Z.div_le_mono; lia. }
  assert (Hlow : price_of_key (lf_key x) = price_of_key (lf_key y) -> no_worse s (low_of_key (lf_key x)) (low_of_key (lf_key y))).
  { unfold price_of_key, low_of_key. intros E.
    pose proof (Z.div_mod (lf_key x) 18446744073709551616 ltac:(lia)).
    pose proof (Z.div_mod (lf_key y) 18446744073709551616 ltac:(lia)). destruct s; cbn [no_worse] in *; lia. }
  destruct t; cbn [worst_price] in *.
  - injection Hp as <-. injection Hq as <-. split; [exact Hd|]. intros E _. exact (Hlow E).
  - destruct oracle as [op|]; [|discriminate]. injection Hp as <-. injection Hq as <-.
    unfold oracle_pegged_price. rewrite !leaf_price_data_eq by assumption.
    pose proof (price_data_range _ Kx) as Rx. pose proof (price_data_range _ Ky) as Ry.
    rewrite !oracle_pegged_price_offset_eq by assumption. cbv zeta.
    unfold saturating_add_i64, i64_min, i64_max.
    set (a := price_of_key (lf_key x)) in *. set (b := price_of_key (lf_key y)) in *.
    assert (Hsnd : forall pr l, snd (if (1 <=? pr) && (pr <? 9223372036854775807)
       then if negb (lf_peg_limit l =? -1) && is_price_better s pr (lf_peg_limit l) then (Invalid, pr) else (Valid, pr)
       else (Skipped, Z.max pr 1)) = Z.max pr 1).
    { intros pr l. destruct ((1 <=? pr) && (pr <? 9223372036854775807)) eqn:E; [|reflexivity].
      destruct (negb _ && _); cbn [snd]; lia. }
    rewrite !Hsnd. split; [destruct s; cbn [no_worse] in *; lia|].
    intros E R. apply Hlow. lia.
Qed.

Lemma last_worst s (l : list leaf) y : StronglySorted (fun a b => no_worse s (lf_key a) (lf_key b)) l ->
  last_error l = Some y -> forall x, In x l -> no_worse s (lf_key x) (lf_key y).
Proof.
  intros Hs Hl x Hx. apply last_error_snoc in Hl as (m & ->).
  apply in_app_or in Hx as [Hx|[->|[]]]; [|apply no_worse_refl].
  clear - Hs Hx. induction m as [|z m IH]; [destruct Hx|]. cbn [app] in Hs. inversion Hs as [|? ? S1 S2]; subst.
  destruct Hx as [->|Hx]; [|auto]. rewrite Forall_forall in S2. apply S2. apply in_or_app. right. left. reflexivity.
Qed.

Lemma worst_over_all bs T oracle l p : bs_ok bs T -> leaves_ok T ->
  (forall t' x r, last_error (dir (bs_side bs) (oleaves (T t'))) = Some x ->
     worst_rank (bs_side bs) oracle t' x = Some r ->
     no_worse (bs_side bs) r (p * 18446744073709551616 + low_of_key (lf_key l))) ->
  forall t x q, In x (oleaves (T t)) -> worst_price (bs_side bs) oracle t x = Some q ->
    no_worse (bs_side bs) q p /\
    (q = p -> 2 <= p < 9223372036854775807 -> no_worse (bs_side bs) (low_of_key (lf_key x)) (low_of_key (lf_key l))).
Proof.
  intros Hb Hl Hw t x q Hx Hq. set (s := bs_side bs) in *.
  assert (Hsort : StronglySorted (fun a b => no_worse s (lf_key a) (lf_key b)) (dir s (oleaves (T t)))).
  { pose proof Hb as (F & Hr). pose proof (oleaves_sorted _ _ _ _ _ (Hr t)) as Hs.
    assert (Hs1 : StronglySorted (fun a b => lf_key a < lf_key b) (oleaves (T t))).
    { unfold oleaves. unfold keys_sorted in Hs. induction Hs as [|z m Hs IH Hf]; cbn [map]; constructor; auto.
      rewrite Forall_map. exact Hf. }
    destruct s; cbn [dir no_worse].
    - clear - Hs1. induction Hs1 as [|z m Hs IH Hf]; cbn [rev]; [constructor|].
      assert (G : forall n, StronglySorted (fun a b => lf_key b <= lf_key a) n -> (forall y, In y n -> lf_key z <= lf_key y) ->
                 StronglySorted (fun a b => lf_key b <= lf_key a) (n ++ [z])).
      { induction 1 as [|u n Hn IHn Hu]; intros Hz; cbn [app]; [constructor; constructor|]. constructor.
        - apply IHn. intros y Hy. apply Hz. right. exact Hy.
        - apply Forall_app. split; [exact Hu|]. constructor; [apply Hz; left; reflexivity|constructor]. }
      apply G; [exact IH|]. intros y Hy. apply in_rev in Hy. rewrite Forall_forall in Hf. specialize (Hf y Hy). lia.
    - clear - Hs1. induction Hs1 as [|z m Hs IH Hf]; constructor; [exact IH|].
      eapply Forall_impl; [|exact Hf]. cbn beta. intros; lia. }
  destruct (last_error (dir s (oleaves (T t)))) as [y|] eqn:Ey.
  2:{ apply last_error_nil in Ey. apply (in_dir s) in Hx. rewrite Ey in Hx. destruct Hx. }
  pose proof (last_worst _ _ _ Hsort Ey x ltac:(apply in_dir; exact Hx)) as Hk.
  assert (Hy : In y (oleaves (T t))).
  { apply last_error_snoc in Ey as (m & Em). apply (in_dir s). rewrite Em. apply in_or_app. right. left. reflexivity. }
  assert (Hqy : exists qy, worst_price s oracle t y = Some qy).
  { destruct t; cbn [worst_price] in *; [eauto|]. destruct oracle; [eauto|discriminate]. }
  destruct Hqy as (qy & Hqy).
  destruct (worst_price_mono _ _ _ _ _ _ _ (Hl _ _ Hx) (Hl _ _ Hy) Hk Hq Hqy) as [M1 M2].
  pose proof (Hw t y (qy * 18446744073709551616 + low_of_key (lf_key y)) Ey) as Hr. unfold worst_rank in Hr. rewrite Hqy in Hr.
  specialize (Hr eq_refl).
  assert (Ly : 0 <= low_of_key (lf_key y) < 18446744073709551616) by (unfold low_of_key; apply Z.mod_pos_bound; lia).
  assert (Ll : 0 <= low_of_key (lf_key l) < 18446744073709551616) by (unfold low_of_key; apply Z.mod_pos_bound; lia).
  assert (M3 : no_worse s qy p) by (destruct s; cbn [no_worse] in *; lia).
  split; [eapply no_worse_trans; eassumption|]. intros E R.
  assert (Ep : qy = p) by (destruct s; cbn [no_worse] in *; lia).
  eapply no_worse_trans; [apply M2; lia|]. subst qy. destruct s; cbn [no_worse] in *; lia.
Qed.

(** ** How many orders a full arena holds *)
Lemma thandles_count t : (length (thandles t) + 1 = 2 * length (tleaves t))%nat.
Proof. induction t as [h l|h p k t0 IH0 t1 IH1]; cbn [thandles tleaves length]; [reflexivity|]. rewrite !app_length. lia. Qed.

Lemma full_count bs T : bs_ok bs T -> is_full (bs_nodes bs) = true ->
  (512 <= length (oleaves (T Fixed)) + length (oleaves (T OraclePegged)))%nat.
Proof.
  intros (F & Hr) Hf. pose proof (Hr Fixed) as Ht. cbn [flip] in Ht.
  assert (Ha : alloc (bs_nodes bs) (ohandles (T Fixed) ++ ohandles (T OraclePegged)) F) by (destruct Ht; assumption).
  destruct Ha as [_ _ A3 _ A5 _]. unfold is_full, MAX_NODES in Hf. rewrite !app_length in A3. unfold oleaves. rewrite !map_length.
  assert (C : forall t, (length (ohandles (T t)) <= 2 * length (oitems (T t)))%nat /\
     (length (ohandles (T t)) = 0 \/ length (ohandles (T t)) + 1 = 2 * length (oitems (T t)))%nat).
  { intros t. unfold ohandles, oitems. destruct (T t) as [x|]; cbn [length]; [|lia]. pose proof (thandles_count x). lia. }
  pose proof (C Fixed). pose proof (C OraclePegged). lia.
Qed.
