(** Specifications of the order tree operations: insertion, removal, extremes, expiry, iteration. *)
From Coq Require Import ZArith List Bool Lia ZifyBool Permutation Sorted.
From Verif Require Import Base Nodes OrderTree BaseFacts BitFacts HeapFacts TreeRep TreeFacts.
Import ListNotations.
Open Scope Z_scope.

(** Possibly empty trees. *)
Definition ohandles (o : option tree) : list Z := match o with None => [] | Some t => thandles t end.
Definition oitems (o : option tree) : list (Z * leaf) := match o with None => [] | Some t => tleaves t end.
Definition oleaves (o : option tree) : list leaf := map snd (oitems o).

Definition root_rep (r : root) (o : option tree) : Prop :=
  match o with
  | None => r_count r = 0
  | Some t => r_node r = thandle t /\ r_count r = Z.of_nat (length (tleaves t))
  end.
Definition orepr (nd : Z -> node) (o : option tree) : Prop :=
  match o with None => True | Some t => repr nd t /\ wft t end.

(** Root [r] in arena [a] stores [o]; [R] are handles used by others, [F] the free ones. *)
Record tree_ok (a : arena) (r : root) (o : option tree) (R F : list Z) : Prop := mkTreeOk {
  tk_alloc : alloc a (ohandles o ++ R) F;
  tk_root : root_rep r o;
  tk_repr : orepr (a_nodes a) o }.

Lemma root_handle_none r : root_rep r None -> root_handle r = None.
Proof. cbn. unfold root_handle. intros ->. reflexivity. Qed.
Lemma root_handle_some r t : root_rep r (Some t) -> root_handle r = Some (thandle t).
Proof.
  intros [Hn Hc]. unfold root_handle. rewrite Hc, Hn.
  destruct (Z.eqb_spec (Z.of_nat (length (tleaves t))) 0) as [H|H]; [|reflexivity].
  pose proof (thandles_leaves_count t). lia.
Qed.

Lemma tree_fuel_eq : tree_fuel = 1025%nat.
Proof. reflexivity. Qed.

Lemma tree_depth_fuel a U F t : alloc a U F -> incl (thandles t) U -> NoDup (thandles t) ->
  (tdepth t <= 1024)%nat.
Proof.
  intros Ha Hin Hnd. pose proof (alloc_len _ _ _ Ha). pose proof (tdepth_le t).
  pose proof (NoDup_incl_length Hnd Hin). lia.
Qed.

Lemma tree_ok_facts a r t R F : tree_ok a r (Some t) R F ->
  alloc a (thandles t ++ R) F /\ repr (a_nodes a) t /\ wft t /\ NoDup (thandles t) /\
  incl (thandles t) (thandles t ++ R) /\ (tdepth t <= 1024)%nat /\
  (length (tleaves t) <= 512)%nat.
Proof.
  intros [Ha Hr [Ht Hw]]. cbn in Ha. split; [exact Ha|]. split; [exact Ht|]. split; [exact Hw|].
  assert (Hnd : NoDup (thandles t))
    by (pose proof (al_nodup _ _ _ Ha) as H; apply nodup_app_l in H; apply nodup_app_l in H; exact H).
  assert (Hin : incl (thandles t) (thandles t ++ R)) by apply incl_appl, incl_refl.
  split; [exact Hnd|]. split; [exact Hin|]. split; [eapply tree_depth_fuel; eauto|].
  pose proof (thandles_leaves_count t). pose proof (alloc_len _ _ _ Ha) as Hl.
  rewrite app_length in Hl. lia.
Qed.

Lemma oleaves_sorted a r o R F : tree_ok a r o R F -> keys_sorted (oitems o).
Proof.
  intros [_ _ H]. destruct o as [t|]; cbn; [apply wft_sorted; apply H|constructor].
Qed.

Lemma split_leaves c ph nh mh s nb nl t : exists A B,
  oleaves (Some (plug c t)) = A ++ B /\
  oleaves (Some (plug c (split_tree ph nh mh s nb nl t))) = A ++ nl :: B /\
  In (nh, nl) (tleaves (plug c (split_tree ph nh mh s nb nl t))).
Proof.
  unfold oleaves, oitems. rewrite !plug_leaves, !map_app.
  destruct nb; unfold split_tree; cbn [tleaves].
  - exists (map snd (cbefore c) ++ map snd (tleaves t)), (map snd (cafter c)).
    rewrite !map_app, rehandle_leaves. cbn [map snd]. rewrite <- !app_assoc. cbn [app].
    split; [reflexivity|]. split; [reflexivity|].
    apply in_or_app. right. apply in_or_app. right. left. reflexivity.
  - exists (map snd (cbefore c)), (map snd (tleaves t) ++ map snd (cafter c)).
    rewrite !map_app, rehandle_leaves. cbn [map snd app].
    split; [reflexivity|]. split; [reflexivity|].
    apply in_or_app. right. left. reflexivity.
Qed.

Definition inserted (nl : leaf) (old : option leaf) (L L' : list leaf) : Prop :=
  match old with
  | None => exists A B, L = A ++ B /\ L' = A ++ nl :: B
  | Some x => lf_key x = lf_key nl /\ exists A B, L = A ++ x :: B /\ L' = A ++ nl :: B
  end.

Lemma plug_handle_same c t t' : thandle t = thandle t' -> thandle (plug c t) = thandle (plug c t').
Proof.
  revert t t'; induction c as [|f c IH]; intros t t' H; cbn [plug]; [exact H|].
  apply IH. rewrite !plug1_handle. reflexivity.
Qed.

Lemma oleaves_length o : length (oleaves o) = length (oitems o).
Proof. apply map_length. Qed.

Lemma split_thandle ph nh mh s nb nl t : thandle (split_tree ph nh mh s nb nl t) = ph.
Proof. unfold split_tree; destruct nb; reflexivity. Qed.

(** Insertion: if it does not fail it adds the leaf, or replaces the one with the same key. *)
Theorem insert_leaf_spec a r o R F nl a' r' h old :
  tree_ok a r o R F -> 0 <= lf_key nl < two128 ->
  insert_leaf a r nl = Ok (a', r', h, old) ->
  exists o' F', tree_ok a' r' o' R F' /\ a_side a' = a_side a /\
    (forall x, In x R -> a_nodes a' x = a_nodes a x) /\
    In (h, nl) (oitems o') /\ inserted nl old (oleaves o) (oleaves o') /\
    avail a' F' = avail a F - (match o, old with _, Some _ => 0 | None, None => 1 | Some _, None => 2 end).
Proof.
  intros Hok Hk He. unfold insert_leaf in He. destruct o as [t|].
  - rewrite (root_handle_some r t (tk_root _ _ _ _ _ Hok)) in He.
    destruct (tree_ok_facts a r t R F Hok) as (Ha & Hr & Hw & Hnd & Hin & Hd & Hlen).
    destruct (insert_walk_reach tree_fuel a r nl [] t _ F Ha Hin Hr Hw Hk (Forall_nil _))
      as (c & t' & n & Hpl & Hacc & Hst & Hiw).
    { rewrite tree_fuel_eq. lia. }
    change (@nil (Z * bool)) with (cstack []) in He. rewrite Hiw in He. cbn [plug] in Hpl. subst t.
    destruct (tk_root _ _ _ _ _ Hok) as [Hrn Hrc].
    assert (Hcase : (exists h0 l0, t' = TLeaf h0 l0 /\ lf_key l0 = lf_key nl) \/
                    (forall h0 l0, t' = TLeaf h0 l0 -> lf_key l0 <> lf_key nl)).
    { destruct t' as [h0 l0|? ? ? ? ?].
      - destruct (Z.eq_dec (lf_key l0) (lf_key nl)); [left; eauto|right].
        intros ? ? E; injection E as <- <-; assumption.
      - right. intros; discriminate. }
    destruct Hcase as [(h0 & l0 & -> & Hkey)|Hne].
    + destruct (insert_clobber n a r nl c h0 l0 R F Ha Hr Hw Hkey)
        as (a1 & He1 & Ha1 & Hr1 & Hw1 & Hsd & Hbp & Hfr).
      cbn [thandle] in He. rewrite He1 in He. injection He as <- <- <- <-.
      exists (Some (plug c (TLeaf h0 nl))), F.
      split; [constructor; [exact Ha1| |split; assumption]|].
      { cbn. split.
        - rewrite Hrn. apply plug_handle_same. reflexivity.
        - rewrite Hrc, !plug_leaves, !app_length. reflexivity. }
      split; [exact Hsd|]. split; [exact Hfr|].
      split; [cbn; rewrite plug_leaves; apply in_or_app; right; left; reflexivity|].
      split; [|unfold avail; rewrite Hbp; lia].
      cbn [inserted]. split; [exact Hkey|].
      exists (map snd (cbefore c)), (map snd (cafter c)). unfold oleaves, oitems.
      rewrite !plug_leaves, !map_app. split; reflexivity.
    + assert (Hav : avail a F >= 2).
      { destruct (Z.leb_spec (avail a F) 1) as [Hle|]; [exfalso|lia].
        destruct (plug_incl c t' (thandles (plug c t') ++ R)) as [Hint _]; [apply incl_appl, incl_refl|].
        pose proof Hr as Hr0. apply plug_repr in Hr0 as [Hrt _].
        cbn [insert_walk] in He. rewrite (get_node_tree _ _ _ t' Ha Hint Hrt) in He. cbn [bind] in He.
        assert (Hnk : node_key (tcontent t') = Ok (tkey t')) by (destruct t'; reflexivity).
        rewrite Hnk in He. cbn [bind] in He.
        assert (Hc1 : match tcontent t' with NLeaf old0 => if tkey t' =? lf_key nl then Some old0 else None | _ => None end
          = @None leaf).
        { destruct t' as [h0 l0|h0 p k t0 t1]; cbn [tcontent]; [|reflexivity].
          destruct (Z.eqb_spec (tkey (TLeaf h0 l0)) (lf_key nl)); [|reflexivity].
          exfalso. eapply Hne; [reflexivity|assumption]. }
        rewrite Hc1 in He.
        assert (Hc2 : match tcontent t' with
            | NInner i => if in_prefix i <=? leading_zeros128 (Z.lxor (tkey t') (lf_key nl)) then Some i else None
            | _ => None end = @None inner).
        { destruct t' as [h0 l0|h0 p k t0 t1]; cbn [tcontent]; [reflexivity|].
          cbn [stops] in Hst. change (in_prefix (tinner p k t0 t1)) with p. cbn [tkey].
          replace (p <=? leading_zeros128 (Z.lxor k (lf_key nl))) with false by lia. reflexivity. }
        rewrite Hc2 in He.
        destruct (Z.leb_spec (avail a F) 0) as [Hle0|Hgt0].
        - destruct (tree_insert_none a _ F (NLeaf nl) Ha Hle0) as (e & Hi). rewrite Hi in He. discriminate.
        - destruct (tree_insert_spec a _ F (NLeaf nl) Ha) as (a1 & nh & F1 & Hi1 & Hnh & Ha1 & Hsd1 & Hn1 & Hav1).
          { unfold avail in Hgt0. destruct F; [right; cbn [length] in Hgt0; lia|left; discriminate]. }
          rewrite Hi1 in He. cbn [bind] in He.
          destruct (tree_insert_none a1 _ F1 (tcontent t') Ha1) as (e & Hi2); [unfold avail in *; lia|].
          rewrite Hi2 in He. discriminate. }
      destruct (insert_split n a r nl c t' R F Ha Hr Hw Hk Hacc Hst Hne Hav)
        as (a1 & nh & mh & F' & s & nb & He1 & Ha1 & Hr1 & Hw1 & Hsd & Hav' & Hfr).
      { rewrite Hrc. unfold u32_max. lia. }
      rewrite He1 in He. injection He as <- <- <- <-.
      destruct (split_leaves c (thandle t') nh mh s nb nl t') as (A & B & HA & HB & Hi).
      exists (Some (plug c (split_tree (thandle t') nh mh s nb nl t'))), F'.
      split; [constructor; [exact Ha1| |split; assumption]|].
      { split; cbn [r_node r_count].
        - rewrite Hrn. apply plug_handle_same. rewrite split_thandle. reflexivity.
        - rewrite Hrc. assert (H1 := f_equal (@length leaf) HA). assert (H2 := f_equal (@length leaf) HB).
          rewrite oleaves_length, app_length in H1, H2. cbn [oitems length] in H1, H2. lia. }
      split; [exact Hsd|]. split; [exact Hfr|]. split; [exact Hi|].
      split; [|lia]. cbn [inserted]. eauto.
  - rewrite (root_handle_none r (tk_root _ _ _ _ _ Hok)) in He.
    pose proof (tk_alloc _ _ _ _ _ Hok) as Ha. cbn [ohandles app] in Ha.
    destruct (Z.leb_spec (avail a F) 0) as [Hle0|Hgt0].
    { destruct (tree_insert_none a _ F (NLeaf nl) Ha Hle0) as (e & Hi). rewrite Hi in He. discriminate. }
    destruct (tree_insert_spec a _ F (NLeaf nl) Ha) as (a1 & nh & F1 & Hi1 & Hnh & Ha1 & Hsd1 & Hn1 & Hav1).
    { unfold avail in Hgt0. destruct F; [right; cbn [length] in Hgt0; lia|left; discriminate]. }
    rewrite Hi1 in He. cbn [bind] in He. injection He as <- <- <- <-.
    exists (Some (TLeaf nh nl)), F1. split.
    { constructor; [exact Ha1|split; reflexivity|]. cbn. rewrite Hn1. split; [apply upd_same|exact Hk]. }
    split; [exact Hsd1|]. split.
    { intros x Hx. rewrite Hn1. apply upd_other. congruence. }
    split; [left; reflexivity|]. split; [exists [], []; split; reflexivity|]. unfold avail in *; lia.
Qed.

(** With two nodes available insertion does not fail. *)
Theorem insert_leaf_succeeds a r o R F nl :
  tree_ok a r o R F -> 0 <= lf_key nl < two128 -> avail a F >= 2 ->
  exists res, insert_leaf a r nl = Ok res.
Proof.
  intros Hok Hk Hav. unfold insert_leaf. destruct o as [t|].
  - rewrite (root_handle_some r t (tk_root _ _ _ _ _ Hok)).
    destruct (tree_ok_facts a r t R F Hok) as (Ha & Hr & Hw & Hnd & Hin & Hd & Hlen).
    destruct (insert_walk_reach tree_fuel a r nl [] t _ F Ha Hin Hr Hw Hk (Forall_nil _))
      as (c & t' & n & Hpl & Hacc & Hst & Hiw).
    { rewrite tree_fuel_eq. lia. }
    change (@nil (Z * bool)) with (cstack []). rewrite Hiw. cbn [plug] in Hpl. subst t.
    destruct (tk_root _ _ _ _ _ Hok) as [Hrn Hrc].
    assert (Hcase : (exists h0 l0, t' = TLeaf h0 l0 /\ lf_key l0 = lf_key nl) \/
                    (forall h0 l0, t' = TLeaf h0 l0 -> lf_key l0 <> lf_key nl)).
    { destruct t' as [h0 l0|? ? ? ? ?].
      - destruct (Z.eq_dec (lf_key l0) (lf_key nl)); [left; eauto|right].
        intros ? ? E; injection E as <- <-; assumption.
      - right. intros; discriminate. }
    destruct Hcase as [(h0 & l0 & -> & Hkey)|Hne].
    + destruct (insert_clobber n a r nl c h0 l0 R F Ha Hr Hw Hkey) as (a1 & He1 & _).
      cbn [thandle]. rewrite He1. eauto.
    + destruct (insert_split n a r nl c t' R F Ha Hr Hw Hk Hacc Hst Hne Hav)
        as (a1 & nh & mh & F' & s & nb & He1 & _).
      { rewrite Hrc. unfold u32_max. lia. }
      rewrite He1. eauto.
  - rewrite (root_handle_none r (tk_root _ _ _ _ _ Hok)).
    pose proof (tk_alloc _ _ _ _ _ Hok) as Ha. cbn [ohandles app] in Ha.
    destruct (tree_insert_spec a _ F (NLeaf nl) Ha) as (a1 & nh & F1 & Hi1 & _).
    { unfold avail in Hav. destruct F; [right; cbn [length] in Hav; lia|left; discriminate]. }
    rewrite Hi1. cbn [bind]. eauto.
Qed.

(** ** Removal *)
Lemma remove_walk_reach fuel : forall a key f c t U F,
  alloc a U F -> incl (thandles (plug (f :: c) t)) U -> repr (a_nodes a) (plug (f :: c) t) ->
  wft (plug (f :: c) t) -> (tdepth t <= fuel)%nat ->
  exists f' c' h l, plug (f' :: c') (TLeaf h l) = plug (f :: c) t /\
    remove_walk fuel a key (fr_h f) (thandle t) (fr_b f) (cstack (f :: c)) =
      Ok (if lf_key l =? key then Some (fr_h f', h, fr_b f', cstack (f' :: c')) else None) /\
    ((exists x, In x (tleaves t) /\ lf_key (snd x) = key) -> lf_key l = key).
Proof.
  induction fuel as [|fuel IH]; intros a key f c t U F Ha Hin Hr Hw Hd.
  - destruct t; cbn in Hd; lia.
  - pose proof Hr as Hr0. apply plug_repr in Hr0 as [Hrt Hrc].
    pose proof Hw as Hw0. apply plug_wft in Hw0 as (Hcw & Hwt & Hal).
    destruct (plug_incl _ _ _ Hin) as [Hint Hinc].
    destruct t as [h l|h p k t0 t1].
    + exists f, c, h, l. split; [reflexivity|]. cbn [remove_walk].
      rewrite (get_node_tree a U F (TLeaf h l) Ha Hint Hrt). cbn [tcontent bind].
      split; [destruct (lf_key l =? key); reflexivity|].
      intros (x & [<-|[]] & Hx). exact Hx.
    + set (b := crit_bit_of p key).
      assert (Hstep : remove_walk (S fuel) a key (fr_h f) (thandle (TNode h p k t0 t1)) (fr_b f) (cstack (f :: c)) =
        remove_walk fuel a key h (thandle (if b then t1 else t0)) b
          (cstack (down_frame h p k t0 t1 b :: f :: c))).
      { cbn [remove_walk]. rewrite (get_node_tree a U F (TNode h p k t0 t1) Ha Hint Hrt).
        cbn [tcontent bind]. rewrite walk_down_content. fold b. destruct b; reflexivity. }
      cbn [wft] in Hwt. destruct Hwt as (Hp & Hk0 & Hw0 & Hw1 & Hl0 & Hl1).
      destruct (IH a key (down_frame h p k t0 t1 b) (f :: c) (if b then t1 else t0) U F)
        as (f' & c' & h' & l' & He & Hrw & Hmem); auto.
      * cbn [plug]. rewrite down_plug. exact Hin.
      * cbn [plug]. rewrite down_plug. exact Hr.
      * cbn [plug]. rewrite down_plug. exact Hw.
      * cbn [tdepth] in Hd. destruct b; lia.
      * exists f', c', h', l'. split; [rewrite He; cbn [plug]; rewrite down_plug; reflexivity|].
        split; [rewrite Hstep; exact Hrw|].
        intros (x & Hx & Hkx). apply Hmem. exists x. split; [|exact Hkx].
        cbn [tleaves] in Hx. apply in_app_or in Hx as [Hx|Hx].
        -- pose proof (on_side_bit p k false _ Hp (Hl0 x Hx)) as [Hb _].
           unfold b. rewrite crit_bit_testbit by lia. rewrite <- Hkx, Hb. exact Hx.
        -- pose proof (on_side_bit p k true _ Hp (Hl1 x Hx)) as [Hb _].
           unfold b. rewrite crit_bit_testbit by lia. rewrite <- Hkx, Hb. exact Hx.
Qed.

Definition removed (key : Z) (old : option leaf) (L L' : list leaf) : Prop :=
  match old with
  | None => L' = L /\ forall l, In l L -> lf_key l <> key
  | Some x => lf_key x = key /\ exists A B, L = A ++ x :: B /\ L' = A ++ B
  end.

Lemma in_oleaves o l : In l (oleaves o) <-> exists h, In (h, l) (oitems o).
Proof. apply in_map_snd. Qed.

Theorem remove_by_key_spec a r o R F key :
  tree_ok a r o R F ->
  exists a' r' old o' F', remove_by_key a r key = Ok (a', r', old) /\ tree_ok a' r' o' R F' /\
    a_side a' = a_side a /\ (forall x, In x R -> a_nodes a' x = a_nodes a x) /\
    removed key old (oleaves o) (oleaves o') /\
    avail a' F' = avail a F + (match old, o' with None, _ => 0 | Some _, None => 1 | Some _, Some _ => 2 end).
Proof.
  intros Hok. unfold remove_by_key. destruct o as [t|].
  2:{ rewrite (root_handle_none r (tk_root _ _ _ _ _ Hok)).
      exists a, r, None, None, F. split; [reflexivity|]. split; [exact Hok|].
      split; [reflexivity|]. split; [auto|]. split; [|lia]. cbn. split; [reflexivity|]. intros l []. }
  rewrite (root_handle_some r t (tk_root _ _ _ _ _ Hok)).
  destruct (tree_ok_facts a r t R F Hok) as (Ha & Hr & Hw & Hnd & Hin & Hd & Hlen).
  rewrite (get_node_tree a _ F t Ha Hin Hr). cbn [bind].
  destruct t as [h l|h p k t0 t1]; cbn [tcontent].
  - destruct (Z.eqb_spec (lf_key l) key) as [Hkey|Hkey].
    + destruct (tk_root _ _ _ _ _ Hok) as [_ Hrc]. cbn [tleaves length] in Hrc.
      rewrite Hrc. change (Z.of_nat 1 =? 1) with true. cbn [massert bind thandle].
      cbn [thandles app] in Ha. cbn [repr] in Hr.
      destruct (tree_remove_spec a R F h (NLeaf l) Ha Hr) as (a' & fr & He & Ha' & Hsd & Hnn & Hbp); [eauto|].
      rewrite He. cbn [bind].
      exists a', (mkRoot 0 0), (Some l), None, (h :: F). split; [reflexivity|].
      split; [constructor; [exact Ha'|reflexivity|exact I]|]. split; [exact Hsd|].
      split.
      { intros x Hx. rewrite Hnn. apply upd_other. intros ->.
        pose proof (al_nodup _ _ _ Ha) as HH. inversion HH as [|? ? Hni _]. apply Hni, in_or_app. auto. }
      split; [|unfold avail; rewrite Hbp; cbn [length]; lia].
      cbn. split; [exact Hkey|]. exists [], []. split; reflexivity.
    + exists a, r, None, (Some (TLeaf h l)), F. split; [reflexivity|]. split; [exact Hok|].
      split; [reflexivity|]. split; [auto|]. split; [|lia]. cbn. split; [reflexivity|].
      intros l' [<-|[]]. exact Hkey.
  - rewrite walk_down_content. set (b := crit_bit_of p key). cbn [thandle].
    set (f := down_frame h p k t0 t1 b). set (ts := if b then t1 else t0).
    assert (Hpl : plug [f] ts = TNode h p k t0 t1) by (cbn [plug]; apply down_plug).
    assert (Hts : (if b then thandle t1 else thandle t0) = thandle ts) by (unfold ts; destruct b; reflexivity).
    rewrite Hts.
    destruct (remove_walk_reach tree_fuel a key f [] ts (thandles (TNode h p k t0 t1) ++ R) F)
      as (f' & c' & h' & l' & He & Hrw & Hmem); auto.
    { rewrite Hpl. exact Hin. }
    { rewrite Hpl. exact Hr. }
    { rewrite Hpl. exact Hw. }
    { rewrite tree_fuel_eq. cbn [tdepth] in Hd. unfold ts. destruct b; lia. }
    change (remove_walk tree_fuel a key h (thandle ts) b [(h, b)] =
      Ok (if lf_key l' =? key then Some (fr_h f', h', fr_b f', cstack (f' :: c')) else None)) in Hrw.
    rewrite Hrw. cbn [bind]. rewrite Hpl in He.
    assert (Hmem' : (exists x, In x (tleaves (TNode h p k t0 t1)) /\ lf_key (snd x) = key) -> lf_key l' = key).
    { intros (x & Hx & Hkx). apply Hmem. exists x. split; [|exact Hkx].
      destruct Hw as (Hp & _ & _ & _ & Hl0 & Hl1).
      cbn [tleaves] in Hx. apply in_app_or in Hx as [Hx|Hx].
      -- pose proof (on_side_bit p k false _ Hp (Hl0 x Hx)) as [Hb _].
         unfold ts, b. rewrite crit_bit_testbit by lia. rewrite <- Hkx, Hb. exact Hx.
      -- pose proof (on_side_bit p k true _ Hp (Hl1 x Hx)) as [Hb _].
         unfold ts, b. rewrite crit_bit_testbit by lia. rewrite <- Hkx, Hb. exact Hx. }
    destruct (Z.eqb_spec (lf_key l') key) as [Hkey|Hkey].
    2:{ exists a, r, None, (Some (TNode h p k t0 t1)), F. split; [reflexivity|]. split; [exact Hok|].
        split; [reflexivity|]. split; [auto|]. split; [|lia]. cbn [removed]. split; [reflexivity|].
        intros l Hl Hc. apply Hkey, Hmem'. apply in_oleaves in Hl as (hx & Hx).
        exists (hx, l). auto. }
    clear Hmem Hmem' Hrw Hts Hpl. set (T := TNode h p k t0 t1) in *. clearbody T. subst T. clear f ts b h p k t0 t1.
    (* the leaf, its parent frame and the rest *)
    destruct (tk_root _ _ _ _ _ Hok) as [Hrn Hrc].
    set (sib := fr_sib f'). set (ph := fr_h f').
    set (tn := rehandle sib ph).
    pose proof Hr as Hr0. apply plug_repr in Hr0 as [Hrl Hrcc]. cbn [thandle texp] in Hrcc.
    cbn [crepr] in Hrcc. destruct Hrcc as (Hnp & Hrs & Hrc'). fold ph sib in Hnp, Hrs, Hrc'.
    cbn [repr] in Hrl.
    assert (HP : Permutation (thandles (plug (f' :: c') (TLeaf h' l')))
                   (h' :: ph :: thandle sib :: tsub sib ++ chandles c')).
    { rewrite plug_handles. cbn [thandles chandles app]. fold sib ph. rewrite thandles_eq. reflexivity. }
    assert (HndP : NoDup (h' :: ph :: thandle sib :: tsub sib ++ chandles c'))
      by (eapply Permutation_NoDup; eassumption).
    assert (HU : Permutation (thandles (plug (f' :: c') (TLeaf h' l')) ++ R)
                   (thandle sib :: h' :: ph :: (tsub sib ++ chandles c') ++ R)).
    { rewrite HP. cbn [app]. rewrite perm_swap. 
      transitivity (ph :: h' :: thandle sib :: (tsub sib ++ chandles c') ++ R); [reflexivity|].
      etransitivity; [apply perm_skip, perm_swap|]. etransitivity; [apply perm_swap|].
      apply perm_skip. apply perm_swap. }
    pose proof (alloc_perm _ _ _ _ HU Ha) as Ha0.
    inversion HndP as [|? ? Hh' HndP1]; subst. inversion HndP1 as [|? ? Hph HndP2]; subst.
    inversion HndP2 as [|? ? Hsib HndP3]; subst.
    assert (Hgp : get_node_unwrap a ph = Ok (NInner (finner f' h' (leaf_expiry l')))).
    { eapply get_node_repr; [exact Ha0| |exact Hnp|eauto]. right. right. left. reflexivity. }
    fold ph. rewrite Hgp. cbn [bind]. rewrite finner_other. fold sib.
    destruct (tree_remove_spec a _ F (thandle sib) (tcontent sib) Ha0 (repr_content _ _ Hrs) (tcontent_kind sib))
      as (a1 & fr1 & He1 & Ha1 & Hsd1 & Hn1 & Hbp1).
    rewrite He1. cbn [bind]. rewrite node_earliest_expiry_content. cbn [bind].
    assert (Hphs : ph <> thandle sib) by (intros E; apply Hph; rewrite E; left; reflexivity).
    assert (Hh's : h' <> thandle sib) by (intros E; apply Hh'; rewrite E; right; left; reflexivity).
    assert (Hh'p : h' <> ph) by (intros E; apply Hh'; rewrite E; left; reflexivity).
    assert (Hgp1 : get_node_unwrap a1 ph = Ok (NInner (finner f' h' (leaf_expiry l')))).
    { eapply get_node_repr; [exact Ha1| | |eauto]; [right; left; reflexivity|].
      rewrite Hn1, upd_other by auto. exact Hnp. }
    rewrite Hgp1. cbn [bind].
    set (a2 := set_node a1 ph (tcontent sib)).
    assert (Ha2 : alloc a2 (h' :: ph :: (tsub sib ++ chandles c') ++ R) (thandle sib :: F))
      by (apply alloc_set; [exact Ha1|right; left; reflexivity]).
    assert (Hck : chk (in_range 0 u32_max) (r_count r - 1) = Ok (r_count r - 1)).
    { unfold chk, in_range. rewrite Hrc. pose proof (thandles_leaves_count (plug (f' :: c') (TLeaf h' l'))).
      unfold u32_max.
      replace ((0 <=? Z.of_nat (length (tleaves (plug (f' :: c') (TLeaf h' l')))) - 1) &&
        (Z.of_nat (length (tleaves (plug (f' :: c') (TLeaf h' l')))) - 1 <=? 4294967295)) with true by lia.
      reflexivity. }
    rewrite Hck. cbn [bind].
    assert (Hnl2 : a_nodes a2 h' = NLeaf l').
    { cbn. rewrite upd_other by auto. rewrite Hn1, upd_other by auto. exact Hrl. }
    destruct (tree_remove_spec a2 _ (thandle sib :: F) h' (NLeaf l') Ha2 Hnl2)
      as (a3 & fr3 & He3 & Ha3 & Hsd3 & Hn3 & Hbp3); [eauto|].
    rewrite He3. cbn [bind]. cbn [cstack map tl].
    assert (Hcin : forall x, In x (chandles c') -> x <> ph /\ x <> h' /\ x <> thandle sib).
    { intros x Hx. split; [|split]; intros ->; [apply Hph; right|apply Hh'; right; right|apply Hsib];
        apply in_or_app; auto. }
    assert (Hframe3 : forall x, x <> ph -> x <> h' -> x <> thandle sib -> a_nodes a3 x = a_nodes a x).
    { intros x Hx1 Hx2 Hx3. rewrite Hn3, upd_other by auto. cbn. rewrite upd_other by auto.
      rewrite Hn1. apply upd_other. auto. }
    destruct (upe_remove_spec c' a3 _ _ ph (leaf_expiry l') (texp sib) Ha3)
      as (a4 & He4 & Hcr4 & Ha4 & Hsd4 & Hbp4 & Hfr4).
    { intros x Hx. right. apply in_or_app. left. apply in_or_app. auto. }
    { eapply nodup_app_r; exact HndP3. }
    { eapply crepr_frame; [|exact Hrc']. intros x Hx. destruct (Hcin x Hx) as (? & ? & ?). auto. }
    change (map (fun f : frame => (fr_h f, fr_b f)) c') with (cstack c').
    rewrite He4. cbn [bind].
    exists a4, (mkRoot (r_node r) (r_count r - 1)), (Some l'), (Some (plug c' tn)), (h' :: thandle sib :: F).
    split; [reflexivity|].
    pose proof Hw as Hw0. apply plug_wft in Hw0 as (Hcw & Hwl & Hal).
    cbn [cwf] in Hcw. destruct Hcw as (Hfp & Hfk & Hws & Hsd & Hsc & Hcw). fold sib in Hws, Hsd, Hsc.
    assert (HPn : Permutation (ph :: (tsub sib ++ chandles c') ++ R) (thandles (plug c' tn) ++ R)).
    { change (ph :: (tsub sib ++ chandles c') ++ R) with ((ph :: tsub sib ++ chandles c') ++ R).
      apply Permutation_app_tail. rewrite plug_handles. unfold tn. rewrite thandles_rehandle. reflexivity. }
    assert (Hlv : oleaves (Some (plug c' tn)) = map snd (cbefore c') ++ map snd (tleaves sib) ++ map snd (cafter c')).
    { unfold oleaves, oitems. rewrite plug_leaves, !map_app. unfold tn. rewrite rehandle_leaves. reflexivity. }
    assert (Hlv0 : oleaves (Some (plug (f' :: c') (TLeaf h' l'))) =
       map snd (cbefore c') ++ (if fr_b f' then map snd (tleaves sib) else []) ++
        l' :: (if fr_b f' then [] else map snd (tleaves sib)) ++ map snd (cafter c')).
    { unfold oleaves, oitems. rewrite plug_leaves. cbn [cbefore cafter tleaves]. fold sib.
      rewrite !map_app. cbn [map snd]. rewrite <- !app_assoc. destruct (fr_b f'); reflexivity. }
    split; [constructor; [eapply alloc_perm; [exact HPn|exact Ha4]| |split]|].
    + split; cbn [r_node r_count].
      * rewrite Hrn. cbn [plug]. apply plug_handle_same. rewrite plug1_handle. unfold tn.
        rewrite rehandle_handle. reflexivity.
      * rewrite Hrc. assert (H1 := f_equal (@length leaf) Hlv). assert (H2 := f_equal (@length leaf) Hlv0).
        rewrite oleaves_length in H1, H2. cbn [oitems] in H1, H2. rewrite H1, H2.
        rewrite !app_length. cbn [length]. destruct (fr_b f'); rewrite ?app_length; cbn [length]; lia.
    + apply plug_repr. split.
      * unfold tn. eapply repr_rehandle; [exact Hrs| |].
        -- rewrite Hfr4 by (intros Hi; apply Hph; right; apply in_or_app; auto).
           rewrite Hn3, upd_other by auto. cbn. apply upd_same.
        -- intros x Hx. rewrite Hfr4 by (intros Hi; eapply nodup_app_disj; eauto).
           apply Hframe3; intros ->; [apply Hph; right|apply Hh'; right; right|apply Hsib];
             apply in_or_app; auto.
      * unfold tn. rewrite rehandle_handle, rehandle_exp. exact Hcr4.
    + apply plug_wft. split; [exact Hcw|]. unfold tn. split; [apply rehandle_wft; exact Hws|].
      apply (leaves_forall (fun l => caccepts c' (lf_key l)) sib); auto.
      symmetry. apply rehandle_leaves.
    + split; [rewrite Hsd4, Hsd3; cbn; exact Hsd1|]. split.
      * intros x Hx.
        assert (HxU : forall y, In y (h' :: ph :: thandle sib :: tsub sib ++ chandles c') -> y <> x).
        { intros y Hy ->. pose proof (al_nodup _ _ _ Ha) as HH. apply nodup_app_l in HH.
          eapply nodup_app_disj; [exact HH| |exact Hx]. eapply Permutation_in; [symmetry; exact HP|exact Hy]. }
        rewrite Hfr4.
        -- apply Hframe3; intros ->; eapply HxU; try reflexivity; cbn; auto.
        -- intros Hi. apply (HxU x); auto. right. right. right. apply in_or_app. auto.
      * split.
        -- cbn [removed]. split; [reflexivity|].
           exists (map snd (cbefore c') ++ (if fr_b f' then map snd (tleaves sib) else [])),
             ((if fr_b f' then [] else map snd (tleaves sib)) ++ map snd (cafter c')).
           rewrite Hlv, Hlv0. rewrite <- !app_assoc. split; [reflexivity|].
           destruct (fr_b f'); reflexivity.
        -- unfold avail. rewrite Hbp4, Hbp3. cbn [a2 set_node a_bump length]. rewrite Hbp1. lia.
Qed.
