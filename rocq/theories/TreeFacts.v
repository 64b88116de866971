(** The order tree operations on represented trees. *)
From Coq Require Import ZArith List Bool Lia ZifyBool Permutation Sorted.
From Verif Require Import Base Nodes OrderTree BaseFacts BitFacts HeapFacts TreeRep.
Import ListNotations.
Open Scope Z_scope.

Definition rehandle (t : tree) (h : Z) : tree :=
  match t with TLeaf _ l => TLeaf h l | TNode _ p k t0 t1 => TNode h p k t0 t1 end.
Definition tsub (t : tree) : list Z :=
  match t with TLeaf _ _ => [] | TNode _ _ _ t0 t1 => thandles t0 ++ thandles t1 end.

Lemma thandles_eq t : thandles t = thandle t :: tsub t.
Proof. destruct t; reflexivity. Qed.
Lemma thandles_rehandle t h : thandles (rehandle t h) = h :: tsub t.
Proof. destruct t; reflexivity. Qed.
Lemma rehandle_handle t h : thandle (rehandle t h) = h.
Proof. destruct t; reflexivity. Qed.
Lemma rehandle_exp t h : texp (rehandle t h) = texp t.
Proof. destruct t; reflexivity. Qed.
Lemma rehandle_content t h : tcontent (rehandle t h) = tcontent t.
Proof. destruct t; reflexivity. Qed.
Lemma rehandle_leaves t h : map snd (tleaves (rehandle t h)) = map snd (tleaves t).
Proof. destruct t; reflexivity. Qed.
Lemma rehandle_wft t h : wft (rehandle t h) <-> wft t.
Proof. destruct t; reflexivity. Qed.
Lemma in_map_snd {A B} (b : B) (l : list (A * B)) : In b (map snd l) <-> exists a, In (a, b) l.
Proof.
  rewrite in_map_iff. split.
  - intros ([a b'] & Heq & Hin). cbn in Heq. subst. eauto.
  - intros (a & Hin). exists (a, b). auto.
Qed.
Lemma leaves_forall (P : leaf -> Prop) t t' :
  map snd (tleaves t) = map snd (tleaves t') ->
  (forall x, In x (tleaves t) -> P (snd x)) -> (forall x, In x (tleaves t') -> P (snd x)).
Proof.
  intros He H x Hx.
  assert (Hi : In (snd x) (map snd (tleaves t'))) by (apply in_map; exact Hx).
  rewrite <- He in Hi. apply in_map_snd in Hi as (h & Hi). apply (H (h, snd x) Hi).
Qed.
Lemma repr_rehandle nd nd' t h :
  repr nd t -> nd' h = tcontent t -> (forall x, In x (tsub t) -> nd' x = nd x) ->
  repr nd' (rehandle t h).
Proof.
  destruct t as [h0 l|h0 p k t0 t1]; cbn; intros H Hc Hf; [exact Hc|].
  destruct H as (_ & H0 & H1). split; [exact Hc|].
  split; [eapply repr_frame; [|exact H0]|eapply repr_frame; [|exact H1]];
    intros x Hx; apply Hf, in_or_app; auto.
Qed.

Lemma node_earliest_expiry_content t : node_earliest_expiry (tcontent t) = Ok (texp t).
Proof. destruct t; reflexivity. Qed.

(** ** Expiry bookkeeping *)
Lemma finner_exp f hh he : in_exp (finner f hh he) (fr_b f) = he.
Proof. unfold finner, in_exp. destruct (fr_b f); reflexivity. Qed.
Lemma finner_set_exp f hh he new : in_set_exp (finner f hh he) (fr_b f) new = finner f hh new.
Proof. unfold finner, in_set_exp. destruct (fr_b f); reflexivity. Qed.
Lemma finner_earliest f hh he : inner_earliest_expiry (finner f hh he) = Z.min he (texp (fr_sib f)).
Proof. unfold finner, inner_earliest_expiry. destruct (fr_b f); cbn; lia. Qed.
Lemma finner_child f hh he : in_child (finner f hh he) (fr_b f) = hh.
Proof. unfold finner, in_child. destruct (fr_b f); reflexivity. Qed.
Lemma finner_other f hh he : in_child (finner f hh he) (negb (fr_b f)) = thandle (fr_sib f).
Proof. unfold finner, in_child. destruct (fr_b f); reflexivity. Qed.

Lemma upe_spec c : forall a U F hh he new,
  alloc a U F -> incl (chandles c) U -> NoDup (chandles c) -> crepr (a_nodes a) c hh he ->
  exists a', update_parent_earliest_expiry a (cstack c) he new = Ok a' /\
    crepr (a_nodes a') c hh new /\ alloc a' U F /\ a_side a' = a_side a /\ a_bump a' = a_bump a /\
    (forall h, ~ In h (chandles c) -> a_nodes a' h = a_nodes a h).
Proof.
  induction c as [|f r IH]; intros a U F hh he new Ha Hin Hnd Hc.
  - cbn. exists a. auto 10.
  - cbn [cstack map update_parent_earliest_expiry]. cbn [crepr] in Hc. destruct Hc as (Hn & Hs & Hr).
    cbn [chandles] in Hin, Hnd. inversion Hnd as [|? ? Hni Hnd']; subst.
    assert (HfU : In (fr_h f) U) by (apply Hin; left; reflexivity).
    rewrite (get_node_repr a U F (fr_h f) _ Ha HfU Hn) by eauto. cbn [bind].
    rewrite finner_exp, Z.eqb_refl, finner_set_exp, !finner_earliest.
    set (a1 := set_node a (fr_h f) (NInner (finner f hh new))).
    assert (Ha1 : alloc a1 U F) by (apply alloc_set; auto).
    assert (Hf1 : forall x, In x (thandles (fr_sib f) ++ chandles r) -> a_nodes a1 x = a_nodes a x).
    { intros x Hx. cbn. apply upd_other. congruence. }
    destruct (IH a1 U F (fr_h f) (Z.min he (texp (fr_sib f))) (Z.min new (texp (fr_sib f))) Ha1)
      as (a' & He & Hcr & Hal & Hsd & Hbp & Hfr).
    { intros x Hx. apply Hin. right. apply in_or_app. auto. }
    { eapply nodup_app_r; exact Hnd'. }
    { eapply crepr_frame; [|exact Hr]. intros x Hx. apply Hf1. apply in_or_app. auto. }
    exists a'. split; [exact He|]. split; [|split; [exact Hal|split; [exact Hsd|split; [exact Hbp|]]]].
    + cbn [crepr]. split; [|split].
      * rewrite Hfr.
        -- cbn. apply upd_same.
        -- intros Hi. apply Hni. apply in_or_app. auto.
      * eapply repr_frame; [|exact Hs]. intros x Hx. rewrite Hfr.
        -- apply Hf1. apply in_or_app. auto.
        -- intros Hi. eapply nodup_app_disj; eauto.
      * exact Hcr.
    + intros h Hh. cbn [chandles] in Hh. rewrite Hfr.
      * cbn. apply upd_other. intros ->. apply Hh. left. reflexivity.
      * intros Hi. apply Hh. right. apply in_or_app. auto.
Qed.

(** Removal: the outdated expiry is the removed leaf's, the recorded one the minimum of
    that and the sibling's, which is the new one. *)
Lemma upe_remove_spec c a U F hh le se :
  alloc a U F -> incl (chandles c) U -> NoDup (chandles c) ->
  crepr (a_nodes a) c hh (Z.min le se) ->
  exists a', update_parent_earliest_expiry a (cstack c) le se = Ok a' /\
    crepr (a_nodes a') c hh se /\ alloc a' U F /\ a_side a' = a_side a /\ a_bump a' = a_bump a /\
    (forall h, ~ In h (chandles c) -> a_nodes a' h = a_nodes a h).
Proof.
  intros Ha Hin Hnd Hc. destruct (Z.leb_spec le se) as [Hle|Hle].
  - rewrite Z.min_l in Hc by lia. eapply upe_spec; eauto.
  - rewrite Z.min_r in Hc by lia. exists a.
    split; [|auto 10].
    destruct c as [|f r]; [reflexivity|].
    cbn [cstack map update_parent_earliest_expiry]. cbn [crepr] in Hc. destruct Hc as (Hn & _).
    rewrite (get_node_repr a U F (fr_h f) _ Ha (Hin _ (or_introl eq_refl)) Hn) by eauto.
    cbn [bind]. rewrite finner_exp. destruct (Z.eqb_spec se le); [lia|reflexivity].
Qed.

(** ** Insertion *)
Definition stops (t : tree) (key : Z) : Prop :=
  match t with
  | TLeaf _ _ => True
  | TNode _ p k _ _ => leading_zeros128 (Z.lxor k key) < p
  end.

Lemma get_node_tree a U F t : alloc a U F -> incl (thandles t) U -> repr (a_nodes a) t ->
  get_node_unwrap a (thandle t) = Ok (tcontent t).
Proof.
  intros Ha Hin Hr. eapply get_node_repr; eauto.
  - apply Hin. apply thandle_in.
  - apply repr_content. exact Hr.
  - apply tcontent_kind.
Qed.

Lemma plug_incl c t U : incl (thandles (plug c t)) U -> incl (thandles t) U /\ incl (chandles c) U.
Proof.
  intros H. split; intros x Hx; apply H; eapply Permutation_in;
    try (symmetry; apply plug_handles); apply in_or_app; auto.
Qed.

Lemma walk_down_content p k t0 t1 key :
  walk_down (tinner p k t0 t1) key =
  (if crit_bit_of p key then thandle t1 else thandle t0, crit_bit_of p key).
Proof. unfold walk_down, tinner, in_child. cbn. destruct (crit_bit_of p key); reflexivity. Qed.

Definition down_frame (h p k : Z) (t0 t1 : tree) (b : bool) : frame :=
  mkFrame h p k b (if b then t0 else t1).
Lemma down_plug h p k t0 t1 b :
  plug1 (down_frame h p k t0 t1 b) (if b then t1 else t0) = TNode h p k t0 t1.
Proof. destruct b; reflexivity. Qed.

Lemma insert_walk_reach fuel : forall a r nl c t U F,
  alloc a U F -> incl (thandles (plug c t)) U -> repr (a_nodes a) (plug c t) -> wft (plug c t) ->
  0 <= lf_key nl < two128 -> caccepts c (lf_key nl) -> (tdepth t <= fuel)%nat ->
  exists c' t' n, plug c' t' = plug c t /\ caccepts c' (lf_key nl) /\ stops t' (lf_key nl) /\
    insert_walk fuel a r nl (thandle t) (cstack c) = insert_walk (S n) a r nl (thandle t') (cstack c').
Proof.
  induction fuel as [|fuel IH]; intros a r nl c t U F Ha Hin Hr Hw Hk Hacc Hd.
  - destruct t; cbn in Hd; lia.
  - destruct t as [h l|h p k t0 t1].
    + exists c, (TLeaf h l), fuel. cbn [stops]. auto.
    + destruct (Z.ltb_spec (leading_zeros128 (Z.lxor k (lf_key nl))) p) as [Hlt|Hge].
      * exists c, (TNode h p k t0 t1), fuel. cbn [stops]. auto.
      * pose proof Hr as Hr0. apply plug_repr in Hr0 as [Hrt Hrc].
        pose proof Hw as Hw0. apply plug_wft in Hw0 as (Hcw & Hwt & Hal).
        destruct (plug_incl _ _ _ Hin) as [Hint Hinc].
        set (b := crit_bit_of p (lf_key nl)).
        assert (Hstep : insert_walk (S fuel) a r nl (thandle (TNode h p k t0 t1)) (cstack c) =
          insert_walk fuel a r nl (thandle (if b then t1 else t0)) (cstack (down_frame h p k t0 t1 b :: c))).
        { cbn [insert_walk].
          rewrite (get_node_tree a U F (TNode h p k t0 t1) Ha Hint Hrt).
          cbn [tcontent bind node_key in_key in_prefix tinner].
          change (in_key (tinner p k t0 t1)) with k. change (in_prefix (tinner p k t0 t1)) with p.
          replace (p <=? leading_zeros128 (Z.lxor k (lf_key nl))) with true by lia.
          rewrite walk_down_content. fold b. destruct b; reflexivity. }
        pose proof Hwt as Hwt0. cbn [wft] in Hwt0. destruct Hwt0 as (Hp & Hk0 & Hw0 & Hw1 & _).
        destruct (IH a r nl (down_frame h p k t0 t1 b :: c) (if b then t1 else t0) U F)
          as (c' & t' & n & He & Hac' & Hst & Hiw); auto.
        -- cbn [plug]. rewrite down_plug. exact Hin.
        -- cbn [plug]. rewrite down_plug. exact Hr.
        -- cbn [plug]. rewrite down_plug. exact Hw.
        -- constructor; [|exact Hacc]. unfold down_frame; cbn [fr_p fr_k fr_b].
           apply on_side_intro; [lia| |].
           ++ symmetry. apply crit_bit_testbit. lia.
           ++ symmetry. apply lz_prefix; auto; lia.
        -- cbn [tdepth] in Hd. destruct b; lia.
        -- exists c', t', n. cbn [plug] in He. rewrite down_plug in He.
           split; [exact He|]. split; [exact Hac'|]. split; [exact Hst|].
           rewrite Hstep. exact Hiw.
Qed.

Definition avail (a : arena) (F : list Z) : Z := Z.of_nat (length F) + (1024 - a_bump a).

Lemma tree_insert_none a U F v : alloc a U F -> avail a F <= 0 -> exists e, tree_insert a v = Err e.
Proof.
  intros H Hav. unfold avail in Hav. pose proof (al_bump _ _ _ H).
  destruct F as [|x F]; [|cbn [length] in Hav; lia]. cbn [length] in Hav.
  unfold tree_insert. rewrite (al_flen _ _ _ H). cbn [length Z.of_nat Z.eqb].
  unfold MAX_NODES. replace ((a_bump a <? 1024) && (a_bump a <? u32_max)) with false by lia.
  cbn. eauto.
Qed.

(** Replacing a leaf of the same key. *)
Lemma insert_clobber n a r nl c h old R F :
  alloc a (thandles (plug c (TLeaf h old)) ++ R) F -> repr (a_nodes a) (plug c (TLeaf h old)) ->
  wft (plug c (TLeaf h old)) -> lf_key old = lf_key nl ->
  exists a', insert_walk (S n) a r nl h (cstack c) = Ok (a', r, h, Some old) /\
    alloc a' (thandles (plug c (TLeaf h nl)) ++ R) F /\ repr (a_nodes a') (plug c (TLeaf h nl)) /\
    wft (plug c (TLeaf h nl)) /\ a_side a' = a_side a /\ a_bump a' = a_bump a /\
    (forall x, In x R -> a_nodes a' x = a_nodes a x).
Proof.
  intros Ha Hr Hw Hkey.
  assert (Hnd := al_nodup _ _ _ Ha). apply nodup_app_l in Hnd.
  assert (Hdisj : forall x, In x (thandles (plug c (TLeaf h old))) -> In x R -> False)
    by (intros x; eapply nodup_app_disj; exact Hnd).
  apply nodup_app_l in Hnd.
  assert (Hnd' : NoDup (h :: chandles c))
    by (eapply Permutation_NoDup; [apply (plug_handles c (TLeaf h old))|exact Hnd]).
  inversion Hnd' as [|? ? Hhc Hndc]; subst.
  destruct (plug_incl c (TLeaf h old) (thandles (plug c (TLeaf h old)) ++ R)) as [Hint Hinc];
    [apply incl_appl, incl_refl|].
  pose proof Hr as Hr0. apply plug_repr in Hr0 as [Hrt Hrc].
  pose proof Hw as Hw0. apply plug_wft in Hw0 as (Hcw & Hwt & Hal).
  cbn [insert_walk].
  pose proof (get_node_tree a _ F (TLeaf h old) Ha Hint Hrt) as Hg. cbn [thandle] in Hg.
  rewrite Hg. cbn [tcontent bind node_key].
  rewrite Hkey, Z.eqb_refl.
  set (a1 := set_node a h (NLeaf nl)).
  assert (HhU : In h (thandles (plug c (TLeaf h old)) ++ R)) by (apply Hint; left; reflexivity).
  assert (Ha1 : alloc a1 (thandles (plug c (TLeaf h old)) ++ R) F) by (apply alloc_set; auto).
  destruct (upe_spec c a1 _ F h (leaf_expiry old) (leaf_expiry nl) Ha1 Hinc Hndc)
    as (a' & He & Hcr & Hal' & Hsd & Hbp & Hfr).
  { eapply crepr_frame; [|exact Hrc]. intros x Hx. cbn. apply upd_other. congruence. }
  rewrite He. cbn [bind]. exists a'. split; [reflexivity|].
  assert (HP : Permutation (thandles (plug c (TLeaf h old))) (thandles (plug c (TLeaf h nl)))).
  { rewrite !plug_handles. reflexivity. }
  split; [eapply alloc_perm; [|exact Hal']; apply Permutation_app_tail; exact HP|].
  split; [|split; [|split; [exact Hsd|split; [exact Hbp|]]]].
  - apply plug_repr. split; [|exact Hcr]. cbn. rewrite Hfr by auto. cbn. apply upd_same.
  - apply plug_wft. split; [exact Hcw|]. cbn in *. rewrite <- Hkey. split; [exact Hwt|].
    intros x [<-|[]]. cbn. rewrite <- Hkey. apply (Hal (h, old)). left. reflexivity.
  - intros x Hx. rewrite Hfr.
    + cbn. apply upd_other. intros ->. apply (Hdisj h); auto.
      eapply Permutation_in; [symmetry; apply plug_handles|]. left. reflexivity.
    + intros Hi. apply (Hdisj x); auto.
      eapply Permutation_in; [symmetry; apply plug_handles|]. apply in_or_app. auto.
Qed.

Definition tkey (t : tree) : Z := match t with TLeaf _ l => lf_key l | TNode _ _ k _ _ => k end.

Definition split_tree (ph nh mh s : Z) (nb : bool) (nl : leaf) (t : tree) : tree :=
  if nb then TNode ph s (lf_key nl) (rehandle t mh) (TLeaf nh nl)
  else TNode ph s (lf_key nl) (TLeaf nh nl) (rehandle t mh).

Lemma wft_tkey t : wft t -> 0 <= tkey t < two128.
Proof. destruct t; cbn; tauto. Qed.

Lemma testbit_div_eq a b n m : 0 <= n <= m -> a / 2 ^ n = b / 2 ^ n -> Z.testbit a m = Z.testbit b m.
Proof.
  intros Hn H. assert (H' : a / 2 ^ m = b / 2 ^ m) by (eapply div_pow2_le; eauto; lia).
  pose proof (Z.testbit_spec' a m ltac:(lia)) as Ha. pose proof (Z.testbit_spec' b m ltac:(lia)) as Hb.
  rewrite H' in Ha. rewrite <- Ha in Hb. destruct (Z.testbit a m), (Z.testbit b m); cbn in Hb; congruence.
Qed.

Lemma split_sides t nl :
  wft t -> stops t (lf_key nl) -> tkey t <> lf_key nl -> 0 <= lf_key nl < two128 ->
  let s := leading_zeros128 (Z.lxor (tkey t) (lf_key nl)) in
  let nb := crit_bit_of s (lf_key nl) in
  0 <= s <= 127 /\ on_side s (lf_key nl) nb (lf_key nl) /\
  (forall x, In x (tleaves t) -> on_side s (lf_key nl) (negb nb) (lf_key (snd x))).
Proof.
  intros Hw Hst Hne Hk. cbv zeta.
  pose proof (wft_tkey t Hw) as Htk.
  set (s := leading_zeros128 (Z.lxor (tkey t) (lf_key nl))).
  assert (Hs : 0 <= s <= 127).
  { pose proof (lz_range (tkey t) (lf_key nl) Htk Hk) as H1.
    pose proof (lz_full (tkey t) (lf_key nl) Htk Hk) as H2. fold s in H1, H2.
    assert (s <> 128) by tauto. lia. }
  assert (Hpre : tkey t / 2 ^ (128 - s) = lf_key nl / 2 ^ (128 - s))
    by (apply (lz_prefix (tkey t) (lf_key nl) Htk Hk); lia).
  assert (Hbit : Z.testbit (tkey t) (127 - s) = negb (Z.testbit (lf_key nl) (127 - s)))
    by (apply (lz_differ (tkey t) (lf_key nl) Htk Hk Hne)).
  rewrite (crit_bit_testbit s (lf_key nl) Hs).
  split; [exact Hs|]. split.
  - apply on_side_intro; auto.
  - intros x Hx.
    assert (Hag : lf_key (snd x) / 2 ^ (127 - s) = tkey t / 2 ^ (127 - s)).
    { pose proof (wft_prefix t x Hw Hx) as Hp. destruct t as [h l|h p k t0 t1]; cbn [tkey] in *.
      - rewrite Hp. reflexivity.
      - cbn [stops] in Hst. fold s in Hst. destruct Hw as (Hpr & _).
        eapply div_pow2_le; [|exact Hp]. lia. }
    apply on_side_intro; auto.
    + rewrite <- Hbit. apply (testbit_div_eq _ _ (127 - s)); auto. lia.
    + rewrite <- Hpre. apply (div_pow2_le _ _ (127 - s)); auto. lia.
Qed.

Lemma split_content ph nh mh s nb nl t :
  tcontent (split_tree ph nh mh s nb nl t) =
  NInner (mkInner s (lf_key nl) (if nb then mh else nh) (if nb then nh else mh)
            (if nb then texp t else leaf_expiry nl) (if nb then leaf_expiry nl else texp t)).
Proof.
  unfold split_tree. destruct nb; cbn [tcontent tinner]; unfold tinner;
    rewrite rehandle_handle, rehandle_exp; reflexivity.
Qed.
Lemma split_exp ph nh mh s nb nl t :
  texp (split_tree ph nh mh s nb nl t) = Z.min (texp t) (leaf_expiry nl).
Proof.
  unfold split_tree. destruct nb; cbn [texp]; rewrite rehandle_exp; lia.
Qed.
Lemma split_handles ph nh mh s nb nl t : thandle t = ph ->
  Permutation (thandles (split_tree ph nh mh s nb nl t)) (mh :: nh :: thandles t).
Proof.
  intros <-. rewrite (thandles_eq t). unfold split_tree.
  destruct nb; cbn [thandles]; rewrite thandles_rehandle; cbn [app].
  - transitivity (thandle t :: mh :: nh :: tsub t).
    + constructor. constructor. symmetry. apply Permutation_cons_append.
    + transitivity (mh :: thandle t :: nh :: tsub t); [apply perm_swap|]. constructor. apply perm_swap.
  - transitivity (thandle t :: mh :: nh :: tsub t).
    + constructor. apply perm_swap.
    + transitivity (mh :: thandle t :: nh :: tsub t); [apply perm_swap|]. constructor. apply perm_swap.
Qed.

(** Splitting an edge. *)
Lemma insert_split n a r nl c t R F :
  alloc a (thandles (plug c t) ++ R) F -> repr (a_nodes a) (plug c t) ->
  wft (plug c t) -> 0 <= lf_key nl < two128 -> caccepts c (lf_key nl) ->
  stops t (lf_key nl) -> (forall h l, t = TLeaf h l -> lf_key l <> lf_key nl) ->
  avail a F >= 2 -> 0 <= r_count r < u32_max ->
  exists a' nh mh F' s nb, 
    let t' := split_tree (thandle t) nh mh s nb nl t in
    insert_walk (S n) a r nl (thandle t) (cstack c) = Ok (a', mkRoot (r_node r) (r_count r + 1), nh, None) /\
    alloc a' (thandles (plug c t') ++ R) F' /\ repr (a_nodes a') (plug c t') /\
    wft (plug c t') /\ a_side a' = a_side a /\ avail a' F' = avail a F - 2 /\
    (forall x, In x R -> a_nodes a' x = a_nodes a x).
Proof.
  intros Ha Hr Hw Hk Hacc Hst Hleaf Hav Hcnt.
  set (U := thandles (plug c t) ++ R) in *.
  assert (Hnd := al_nodup _ _ _ Ha). apply nodup_app_l in Hnd. unfold U in Hnd.
  assert (Hdisj : forall x, In x (thandles (plug c t)) -> In x R -> False)
    by (intros x; eapply nodup_app_disj; exact Hnd).
  apply nodup_app_l in Hnd.
  assert (Hnd' : NoDup (thandles t ++ chandles c))
    by (eapply Permutation_NoDup; [apply (plug_handles c t)|exact Hnd]).
  assert (Hndc : NoDup (chandles c)) by (eapply nodup_app_r; exact Hnd').
  assert (Hndt : NoDup (thandles t)) by (eapply nodup_app_l; exact Hnd').
  destruct (plug_incl c t U) as [Hint Hinc]; [apply incl_appl, incl_refl|].
  pose proof Hr as Hr0. apply plug_repr in Hr0 as [Hrt Hrc].
  pose proof Hw as Hw0. apply plug_wft in Hw0 as (Hcw & Hwt & Hal).
  assert (Hne : tkey t <> lf_key nl).
  { destruct t as [h l|h p k t0 t1]; cbn [tkey].
    - eapply Hleaf; reflexivity.
    - cbn [stops] in Hst. destruct Hwt as (Hp & Hk0 & _). intros Heq.
      rewrite Heq, Z.lxor_nilpotent in Hst. cbn in Hst. lia. }
  destruct (split_sides t nl Hwt Hst Hne Hk) as (Hs & Hon & Hot).
  set (s := leading_zeros128 (Z.lxor (tkey t) (lf_key nl))) in *.
  set (nb := crit_bit_of s (lf_key nl)) in *.
  (* allocation *)
  unfold avail in Hav.
  destruct (tree_insert_spec a U F (NLeaf nl) Ha) as (a1 & nh & F1 & Hi1 & Hnh & Ha1 & Hsd1 & Hn1 & Hav1).
  { destruct F; [right; cbn [length] in Hav; lia|left; discriminate]. }
  destruct (tree_insert_spec a1 (nh :: U) F1 (tcontent t) Ha1) as (a2 & mh & F2 & Hi2 & Hmh & Ha2 & Hsd2 & Hn2 & Hav2).
  { destruct F1; [right; cbn [length] in Hav1; lia|left; discriminate]. }
  set (t' := split_tree (thandle t) nh mh s nb nl t).
  set (a3 := set_node a2 (thandle t) (tcontent t')).
  assert (HphU : In (thandle t) U) by (apply Hint, thandle_in).
  assert (Hph2 : In (thandle t) (mh :: nh :: U)) by (right; right; exact HphU).
  assert (Ha3 : alloc a3 (mh :: nh :: U) F2) by (apply alloc_set; auto).
  assert (Hn3 : forall x, In x U -> x <> thandle t -> a_nodes a3 x = a_nodes a x).
  { intros x Hx Hxt. cbn. rewrite upd_other by auto. rewrite Hn2, Hn1.
    rewrite !upd_other; auto; intros ->; [apply Hnh|apply Hmh; right]; auto. }
  assert (Hcdis : forall x, In x (chandles c) -> x <> thandle t).
  { intros x Hx ->. eapply nodup_app_disj; [exact Hnd'|apply thandle_in|exact Hx]. }
  assert (Hrc3 : crepr (a_nodes a3) c (thandle t) (texp t)).
  { eapply crepr_frame; [|exact Hrc]. intros x Hx. apply Hn3; auto. }
  assert (Hinc3 : incl (chandles c) (mh :: nh :: U)).
  { intros x Hx. right. right. auto. }
  assert (Hmhph : mh <> thandle t) by (intros ->; apply Hmh; right; exact HphU).
  assert (Hnhph : nh <> thandle t) by (intros ->; apply Hnh; exact HphU).
  assert (Hmhnh : mh <> nh) by (intros ->; apply Hmh; left; reflexivity).
  assert (Hmhc : ~ In mh (chandles c)) by (intros Hi; apply Hmh; right; auto).
  assert (Hnhc : ~ In nh (chandles c)) by (intros Hi; apply Hnh; auto).
  assert (Hphc : ~ In (thandle t) (chandles c)) by (intros Hi; eapply Hcdis; eauto).
  (* expiry update *)
  assert (Hup : exists a4, (if leaf_expiry nl <? texp t
                 then update_parent_earliest_expiry a3 (cstack c) (texp t) (leaf_expiry nl)
                 else Ok a3) = Ok a4 /\
     crepr (a_nodes a4) c (thandle t) (texp t') /\ alloc a4 (mh :: nh :: U) F2 /\
     a_side a4 = a_side a3 /\ a_bump a4 = a_bump a3 /\
     (forall h, ~ In h (chandles c) -> a_nodes a4 h = a_nodes a3 h)).
  { unfold t'. rewrite split_exp. destruct (Z.ltb_spec (leaf_expiry nl) (texp t)).
    - rewrite Z.min_r by lia. eapply upe_spec; eauto.
    - rewrite Z.min_l by lia. exists a3. auto 10. }
  destruct Hup as (a4 & He4 & Hcr4 & Ha4 & Hsd4 & Hbp4 & Hfr4).
  exists a4, nh, mh, F2, s, nb. cbv zeta. fold t'.
  assert (Hrt' : repr (a_nodes a4) t').
  { assert (Hmv : repr (a_nodes a4) (rehandle t mh)).
    { eapply repr_rehandle; [exact Hrt| |].
      - rewrite Hfr4 by auto. cbn. rewrite upd_other by auto. rewrite Hn2. apply upd_same.
      - intros x Hx. assert (Hxt : In x (thandles t)) by (rewrite thandles_eq; right; exact Hx).
        rewrite Hfr4 by (intros Hi; eapply nodup_app_disj; eauto).
        apply Hn3; auto. intros ->. rewrite thandles_eq in Hndt. inversion Hndt; auto. }
    assert (Hnl : a_nodes a4 nh = NLeaf nl).
    { rewrite Hfr4 by auto. cbn. rewrite upd_other by auto. rewrite Hn2, upd_other by auto.
      rewrite Hn1. apply upd_same. }
    assert (Hpc : a_nodes a4 (thandle t) = tcontent t').
    { rewrite Hfr4 by auto. cbn. apply upd_same. }
    unfold t', split_tree in *. destruct nb; cbn [repr]; cbn [tcontent] in Hpc; auto. }
  assert (Hht' : thandle t' = thandle t) by (unfold t', split_tree; destruct nb; reflexivity).
  split.
  - cbn [insert_walk].
    rewrite (get_node_tree a U F t Ha Hint Hrt). cbn [bind].
    assert (Hnk : node_key (tcontent t) = Ok (tkey t)) by (destruct t; reflexivity).
    rewrite Hnk. cbn [bind]. fold s.
    replace (match tcontent t with NLeaf old => if tkey t =? lf_key nl then Some old else None | _ => None end)
      with (@None leaf).
    2:{ destruct t as [h l|h p k t0 t1]; cbn [tcontent]; [|reflexivity].
        destruct (Z.eqb_spec (tkey (TLeaf h l)) (lf_key nl)); [contradiction|reflexivity]. }
    replace (match tcontent t with NInner i => if in_prefix i <=? s then Some i else None | _ => None end)
      with (@None inner).
    2:{ destruct t as [h l|h p k t0 t1]; cbn [tcontent]; [reflexivity|].
        cbn [stops] in Hst. change (in_prefix (tinner p k t0 t1)) with p.
        change (leading_zeros128 (Z.lxor k (lf_key nl))) with s in Hst.
        replace (p <=? s) with false by lia. reflexivity. }
    fold nb. rewrite Hi1. cbn [bind]. rewrite Hi2. cbn [bind].
    assert (Hg : get_node_unwrap a2 (thandle t) = Ok (tcontent t)).
    { eapply get_node_repr; [exact Ha2|exact Hph2| |apply tcontent_kind].
      rewrite Hn2, Hn1, !upd_other by auto. apply repr_content. exact Hrt. }
    rewrite Hg. cbn [bind]. rewrite node_earliest_expiry_content. cbn [bind].
    unfold a3, t' in He4. rewrite split_content in He4. rewrite He4. cbn [bind].
    assert (Hck : chk (in_range 0 u32_max) (r_count r + 1) = Ok (r_count r + 1)).
    { unfold chk, in_range. replace ((0 <=? r_count r + 1) && (r_count r + 1 <=? u32_max)) with true by lia.
      reflexivity. }
    rewrite Hck. reflexivity.
  - assert (HP : Permutation (mh :: nh :: U) (thandles (plug c t') ++ R)).
    { transitivity ((mh :: nh :: thandles (plug c t)) ++ R); [reflexivity|].
      apply Permutation_app_tail. rewrite !plug_handles. unfold t'.
      rewrite (split_handles (thandle t) nh mh s nb nl t eq_refl). reflexivity. }
    split; [eapply alloc_perm; [exact HP|exact Ha4]|].
    split; [apply plug_repr; split; [exact Hrt'|rewrite Hht'; exact Hcr4]|].
    split.
    + apply plug_wft. split; [exact Hcw|].
      assert (Hwr : wft (rehandle t mh)) by (apply rehandle_wft; exact Hwt).
      assert (Hor : forall x, In x (tleaves (rehandle t mh)) -> on_side s (lf_key nl) (negb nb) (lf_key (snd x))).
      { apply (leaves_forall (fun l => on_side s (lf_key nl) (negb nb) (lf_key l)) t); auto.
        symmetry. apply rehandle_leaves. }
      assert (Har : forall x, In x (tleaves (rehandle t mh)) -> caccepts c (lf_key (snd x))).
      { apply (leaves_forall (fun l => caccepts c (lf_key l)) t); auto.
        symmetry. apply rehandle_leaves. }
      unfold t', split_tree. destruct nb; cbn [wft tleaves negb] in *.
      * split.
        -- repeat (split; [assumption|]). intros x [<-|[]]. exact Hon.
        -- intros x Hx. apply in_app_or in Hx as [Hx|[<-|[]]]; auto.
      * split.
        -- repeat (split; [assumption|]). split; [|exact Hor]. intros x [<-|[]]. exact Hon.
        -- intros x Hx. apply in_app_or in Hx as [[<-|[]]|Hx]; auto.
    + split; [rewrite Hsd4; cbn; congruence|].
      split; [unfold avail; rewrite Hbp4; cbn [a3 set_node a_bump]; lia|].
      intros x Hx.
      assert (HxU : In x U) by (apply in_or_app; auto).
      rewrite Hfr4.
      * apply Hn3; auto. intros ->. eapply Hdisj; [|exact Hx].
        eapply Permutation_in; [symmetry; apply plug_handles|]. apply in_or_app. left. apply thandle_in.
      * intros Hi. eapply Hdisj; [|exact Hx].
        eapply Permutation_in; [symmetry; apply plug_handles|]. apply in_or_app. auto.
Qed.
