(** Extremes, earliest expiry, iteration and in-place leaf updates of order trees. *)
From Coq Require Import ZArith List Bool Lia ZifyBool Permutation Sorted.
From Verif Require Import Base Nodes OrderTree BaseFacts BitFacts HeapFacts TreeRep TreeFacts TreeOps.
Import ListNotations.
Open Scope Z_scope.

(** A tree readable in an arena: enough for the read-only operations. *)
Definition readable (a : arena) (t : tree) : Prop :=
  repr (a_nodes a) t /\ forall h, In h (thandles t) -> in_bounds h = true.

Lemma readable_node a h p k t0 t1 : readable a (TNode h p k t0 t1) ->
  a_nodes a h = NInner (tinner p k t0 t1) /\ in_bounds h = true /\ readable a t0 /\ readable a t1.
Proof.
  intros [(Hn & H0 & H1) Hb]. split; [exact Hn|]. split; [apply Hb; left; reflexivity|].
  split; split; auto; intros x Hx; apply Hb; right; apply in_or_app; auto.
Qed.
Lemma readable_get a t : readable a t -> get_node_unwrap a (thandle t) = Ok (tcontent t).
Proof.
  intros [Hr Hb]. unfold get_node_unwrap, get_node. rewrite (Hb _ (thandle_in t)), (repr_content _ _ Hr).
  destruct t; reflexivity.
Qed.
Lemma readable_get_node a t : readable a t -> get_node a (thandle t) = Ok (Some (tcontent t)).
Proof.
  intros [Hr Hb]. unfold get_node. rewrite (Hb _ (thandle_in t)), (repr_content _ _ Hr).
  destruct t; reflexivity.
Qed.

Lemma tree_ok_readable a r t R F : tree_ok a r (Some t) R F -> readable a t.
Proof.
  intros H. destruct (tree_ok_facts _ _ _ _ _ H) as (Ha & Hr & _ & _ & Hin & _).
  split; [exact Hr|]. intros h Hh. eapply alloc_in_bounds; [exact Ha|apply Hin; exact Hh].
Qed.

Lemma tleaf_readable a t h l : readable a t -> In (h, l) (tleaves t) -> readable a (TLeaf h l).
Proof.
  intros [Hr Hb] Hin. split; [cbn; eapply tleaves_repr; eauto|].
  intros x [<-|[]]. apply Hb. apply (tleaves_handles t (h, l) Hin).
Qed.

(** ** Extremes *)
Definition last_error {A} (l : list A) : option A := hd_error (rev l).

Lemma hd_error_app {A} (l m : list A) : l <> [] -> hd_error (l ++ m) = hd_error l.
Proof. destruct l; [congruence|reflexivity]. Qed.
Lemma last_error_app {A} (l m : list A) : m <> [] -> last_error (l ++ m) = last_error m.
Proof.
  intros H. unfold last_error. rewrite rev_app_distr. apply hd_error_app.
  intros E. apply H. rewrite <- (rev_involutive m), E. reflexivity.
Qed.

Lemma leaf_min_max_loop_spec fuel : forall a mx t, readable a t -> (tdepth t <= fuel)%nat ->
  leaf_min_max_loop fuel a mx (thandle t) = Ok (if mx then last_error (tleaves t) else hd_error (tleaves t)).
Proof.
  induction fuel as [|fuel IH]; intros a mx t Hr Hd; [destruct t; cbn in Hd; lia|].
  cbn [leaf_min_max_loop]. rewrite (readable_get_node a t Hr). cbn [bind].
  destruct t as [h l|h p k t0 t1]; cbn [tcontent].
  - destruct mx; reflexivity.
  - destruct (readable_node _ _ _ _ _ _ Hr) as (_ & _ & H0 & H1). cbn [tdepth] in Hd.
    cbn [tleaves]. destruct mx.
    + rewrite last_error_app by apply tleaves_nonempty. apply (IH a true t1 H1). lia.
    + rewrite hd_error_app by apply tleaves_nonempty. apply (IH a false t0 H0). lia.
Qed.

Lemma leaf_min_max_spec a r o R F mx : tree_ok a r o R F ->
  leaf_min_max a mx r = Ok (if mx then last_error (oitems o) else hd_error (oitems o)).
Proof.
  intros H. unfold leaf_min_max. destruct o as [t|].
  - rewrite (root_handle_some r t (tk_root _ _ _ _ _ H)).
    destruct (tree_ok_facts _ _ _ _ _ H) as (_ & _ & _ & _ & _ & Hd & _).
    apply leaf_min_max_loop_spec; [eapply tree_ok_readable; eauto|]. rewrite tree_fuel_eq. lia.
  - rewrite (root_handle_none r (tk_root _ _ _ _ _ H)). destruct mx; reflexivity.
Qed.

(** The leaves in matching order: descending keys for bids, ascending for asks. *)
Definition dir {A} (s : side) (l : list A) : list A := match s with Bid => rev l | Ask => l end.

Lemma in_dir {A} s (l : list A) x : In x (dir s l) <-> In x l.
Proof. destruct s; cbn; [rewrite <- in_rev|]; tauto. Qed.
Lemma dir_length {A} s (l : list A) : length (dir s l) = length l.
Proof. destruct s; cbn; [apply rev_length|reflexivity]. Qed.
Lemma dir_map {A B} (f : A -> B) s l : dir s (map f l) = map f (dir s l).
Proof. destruct s; cbn; [symmetry; apply map_rev|reflexivity]. Qed.

Lemma last_error_dir {A} s (l : list A) : last_error (dir s l) = match s with Bid => hd_error l | Ask => last_error l end.
Proof. destruct s; cbn; [unfold last_error; rewrite rev_involutive|]; reflexivity. Qed.

Lemma find_worst_spec a r o R F : tree_ok a r o R F ->
  find_worst a r = Ok (last_error (dir (a_side a) (oitems o))).
Proof.
  intros H. unfold find_worst. rewrite last_error_dir.
  destruct (a_side a); rewrite (leaf_min_max_spec _ _ _ _ _ _ H); reflexivity.
Qed.

(** ** Earliest expiry *)
Lemma texp_min t x : In x (tleaves t) -> texp t <= leaf_expiry (snd x).
Proof.
  induction t as [h l|h p k t0 IH0 t1 IH1]; cbn [tleaves texp]; intros H.
  - destruct H as [<-|[]]. cbn. lia.
  - apply in_app_or in H as [H|H]; [apply IH0 in H|apply IH1 in H]; lia.
Qed.

Lemma find_earliest_loop_spec fuel : forall a t, readable a t -> (tdepth t <= fuel)%nat ->
  exists h l, find_earliest_loop fuel a (thandle t) = Ok (h, texp t) /\
    In (h, l) (tleaves t) /\ leaf_expiry l = texp t.
Proof.
  induction fuel as [|fuel IH]; intros a t Hr Hd; [destruct t; cbn in Hd; lia|].
  cbn [find_earliest_loop]. rewrite (readable_get a t Hr). cbn [bind].
  destruct t as [h l|h p k t0 t1]; cbn [tcontent].
  - exists h, l. cbn. auto.
  - destruct (readable_node _ _ _ _ _ _ Hr) as (_ & _ & H0 & H1). cbn [tdepth] in Hd.
    change (in_e1 (tinner p k t0 t1)) with (texp t1). change (in_e0 (tinner p k t0 t1)) with (texp t0).
    cbn [tleaves texp].
    destruct (Z.ltb_spec (texp t1) (texp t0)) as [Hlt|Hge].
    + change (in_child (tinner p k t0 t1) true) with (thandle t1).
      destruct (IH a t1 H1) as (h' & l' & He & Hi & Hx); [lia|].
      exists h', l'. rewrite He, Hx, Z.min_r by lia. split; [reflexivity|].
      split; [apply in_or_app; auto|reflexivity].
    + change (in_child (tinner p k t0 t1) false) with (thandle t0).
      destruct (IH a t0 H0) as (h' & l' & He & Hi & Hx); [lia|].
      exists h', l'. rewrite He, Hx, Z.min_l by lia. split; [reflexivity|].
      split; [apply in_or_app; auto|reflexivity].
Qed.

Lemma find_earliest_expiry_spec a r o R F : tree_ok a r o R F ->
  match o with
  | None => find_earliest_expiry a r = Ok None
  | Some t => exists h l, find_earliest_expiry a r = Ok (Some (h, texp t)) /\
      In (h, l) (tleaves t) /\ leaf_expiry l = texp t
  end.
Proof.
  intros H. unfold find_earliest_expiry. destruct o as [t|].
  - rewrite (root_handle_some r t (tk_root _ _ _ _ _ H)).
    destruct (tree_ok_facts _ _ _ _ _ H) as (_ & _ & _ & _ & _ & Hd & _).
    destruct (find_earliest_loop_spec tree_fuel a t) as (h & l & He & Hi & Hx);
      [eapply tree_ok_readable; eauto|rewrite tree_fuel_eq; lia|].
    exists h, l. rewrite He. auto.
  - rewrite (root_handle_none r (tk_root _ _ _ _ _ H)). reflexivity.
Qed.

(** Keys are pairwise different in a sorted list. *)
Lemma keys_sorted_unique L x y : keys_sorted L -> In x L -> In y L ->
  lf_key (snd x) = lf_key (snd y) -> x = y.
Proof.
  unfold keys_sorted. induction L as [|z L IH]; cbn; intros Hs Hx Hy He; [contradiction|].
  inversion Hs; subst. rewrite Forall_forall in H2.
  destruct Hx as [<-|Hx], Hy as [<-|Hy]; auto.
  - apply H2 in Hy. lia.
  - apply H2 in Hx. lia.
Qed.

Theorem tree_remove_one_expired_spec a r o R F now :
  tree_ok a r o R F ->
  exists a' r' old o' F', tree_remove_one_expired a r now = Ok (a', r', old) /\ tree_ok a' r' o' R F' /\
    a_side a' = a_side a /\ (forall x, In x R -> a_nodes a' x = a_nodes a x) /\
    match old with
    | None => oleaves o' = oleaves o /\ forall l, In l (oleaves o) -> now <= leaf_expiry l
    | Some x => leaf_expiry x < now /\ (forall l, In l (oleaves o) -> leaf_expiry x <= leaf_expiry l) /\
        exists A B, oleaves o = A ++ x :: B /\ oleaves o' = A ++ B
    end /\ avail a' F' >= avail a F.
Proof.
  intros Hok. unfold tree_remove_one_expired. pose proof (find_earliest_expiry_spec a r o R F Hok) as Hf.
  destruct o as [t|].
  - destruct Hf as (h & l & He & Hi & Hx). rewrite He. cbn [bind].
    destruct (Z.ltb_spec (texp t) now) as [Hlt|Hge].
    + pose proof (tree_ok_readable _ _ _ _ _ Hok) as Hrd.
      pose proof (readable_get_node a (TLeaf h l) (tleaf_readable _ _ _ _ Hrd Hi)) as Hg.
      cbn [thandle] in Hg. rewrite Hg.
      cbn [bind tcontent node_key].
      destruct (remove_by_key_spec a r (Some t) R F (lf_key l) Hok)
        as (a' & r' & old & o' & F' & He' & Hok' & Hsd & Hfr & Hrm & Hav).
      exists a', r', old, o', F'. split; [exact He'|]. split; [exact Hok'|]. split; [exact Hsd|].
      split; [exact Hfr|].
      assert (Hil : In l (oleaves (Some t))) by (apply in_oleaves; exists h; exact Hi).
      destruct old as [x|].
      * cbn [removed] in Hrm. destruct Hrm as (Hkx & A & B & HL & HL').
        split; [|destruct o'; lia].
        assert (Hxl : In x (oleaves (Some t))) by (rewrite HL; apply in_elt).
        apply in_oleaves in Hxl as (hx & Hxi).
        assert (E : (hx, x) = (h, l)).
        { eapply keys_sorted_unique; [eapply oleaves_sorted; exact Hok| | |]; eauto. }
        injection E as _ ->. split; [lia|]. split; [|eauto].
        intros l' Hl'. apply in_oleaves in Hl' as (h' & Hl'). apply texp_min in Hl'. cbn in Hl'. lia.
      * cbn [removed] in Hrm. exfalso. destruct Hrm as (_ & Hn). apply (Hn l Hil). reflexivity.
    + exists a, r, None, (Some t), F. split; [reflexivity|]. split; [exact Hok|].
      split; [reflexivity|]. split; [auto|]. split; [|lia]. split; [reflexivity|].
      intros l' Hl'. apply in_oleaves in Hl' as (h' & Hl'). apply texp_min in Hl'. cbn in Hl'. lia.
  - rewrite Hf. cbn [bind]. exists a, r, None, None, F. split; [reflexivity|]. split; [exact Hok|].
    split; [reflexivity|]. split; [auto|]. split; [|lia]. split; [reflexivity|]. intros l [].
Qed.

Theorem tree_remove_worst_spec a r o R F :
  tree_ok a r o R F ->
  exists a' r' old o' F', tree_remove_worst a r = Ok (a', r', old) /\ tree_ok a' r' o' R F' /\
    a_side a' = a_side a /\ (forall x, In x R -> a_nodes a' x = a_nodes a x) /\
    match old with
    | None => oleaves o = [] /\ oleaves o' = []
    | Some x => dir (a_side a) (oleaves o) = dir (a_side a) (oleaves o') ++ [x]
    end /\ 
    avail a' F' = avail a F + (match old, o' with None, _ => 0 | Some _, None => 1 | Some _, Some _ => 2 end).
Proof.
  intros Hok. unfold tree_remove_worst. rewrite (find_worst_spec _ _ _ _ _ Hok). cbn [bind].
  destruct (last_error (dir (a_side a) (oitems o))) as [[h l]|] eqn:El.
  - unfold last_error in El.
    assert (Hd : exists L, dir (a_side a) (oitems o) = L ++ [(h, l)]).
    { destruct (rev (dir (a_side a) (oitems o))) as [|y L] eqn:E; [discriminate|].
      cbn in El. injection El as ->. exists (rev L).
      rewrite <- (rev_involutive (dir (a_side a) (oitems o))), E. reflexivity. }
    destruct Hd as (L & Hd).
    destruct (remove_by_key_spec a r o R F (lf_key l) Hok)
        as (a' & r' & old & o' & F' & He' & Hok' & Hsd & Hfr & Hrm & Hav).
    exists a', r', old, o', F'. split; [exact He'|]. split; [exact Hok'|]. split; [exact Hsd|].
    split; [exact Hfr|]. split; [|exact Hav].
    assert (Hi : In (h, l) (oitems o)).
    { apply (in_dir (a_side a)). rewrite Hd. apply in_or_app. right. left. reflexivity. }
    destruct old as [x|]; cbn [removed] in Hrm.
    + destruct Hrm as (Hkx & A & B & HL & HL').
      assert (Hxl : In x (oleaves o)) by (rewrite HL; apply in_elt).
      apply in_oleaves in Hxl as (hx & Hxi).
      pose proof (oleaves_sorted _ _ _ _ _ Hok) as Hso.
      assert (E : (hx, x) = (h, l)) by (eapply keys_sorted_unique; eauto).
      injection E as -> ->.
      (* the split at l is unique *)
      assert (HdL : dir (a_side a) (oleaves o) = map snd L ++ [l]).
      { unfold oleaves. rewrite dir_map, Hd, map_app. reflexivity. }
      assert (Hnd : NoDup (oleaves o)).
      { unfold oleaves. clear - Hso. unfold keys_sorted in Hso. induction Hso as [|y M HM IH Hf]; cbn; constructor; auto.
        intros Hin. apply in_map_iff in Hin as (z & Hz & Hin). rewrite Forall_forall in Hf. apply Hf in Hin.
        rewrite Hz in Hin. lia. }
      rewrite HL' . rewrite HL in HdL, Hnd |- *. apply NoDup_remove_2 in Hnd.
      destruct (a_side a); cbn [dir] in *.
      * assert (HA : A = []).
        { destruct A as [|z A]; [reflexivity|exfalso]. cbn [app rev] in HdL.
          apply app_inj_tail in HdL as [_ ->]. apply Hnd. left. reflexivity. }
        subst A. cbn [app rev]. reflexivity.
      * assert (HB : B = []).
        { destruct B as [|z0 B0]; [reflexivity|exfalso].
          destruct (exists_last (l := z0 :: B0)) as (B' & z & HB); [discriminate|].
          rewrite HB in HdL, Hnd. rewrite app_comm_cons, app_assoc in HdL.
          apply app_inj_tail in HdL as [_ ->]. apply Hnd. apply in_or_app. right.
          apply in_or_app. right. left. reflexivity. }
        subst B. rewrite app_nil_r. reflexivity.
    + exfalso. destruct Hrm as (_ & Hn). apply (Hn l); [|reflexivity]. apply in_oleaves. eauto.
  - exists a, r, None, o, F. split; [reflexivity|]. split; [exact Hok|].
    split; [reflexivity|]. split; [auto|]. split; [|lia].
    assert (Hnil : oitems o = []).
    { unfold last_error in El. destruct (rev (dir (a_side a) (oitems o))) as [|y L] eqn:E; [|discriminate].
      assert (E' : dir (a_side a) (oitems o) = []) by (rewrite <- (rev_involutive (dir _ _)), E; reflexivity).
      destruct (oitems o) as [|z M]; [reflexivity|].
      assert (H : length (dir (a_side a) (z :: M)) = 0%nat) by (rewrite E'; reflexivity).
      rewrite dir_length in H. discriminate. }
    unfold oleaves. rewrite Hnil. split; reflexivity.
Qed.

(** ** Iteration *)
Fixpoint pend_ok (a : arena) (st : list inner) (ps : list tree) : Prop :=
  match st, ps with
  | [], [] => True
  | i :: st', p :: ps' =>
      in_child i (negb (left_of (a_side a))) = thandle p /\ readable a p /\ (tdepth p <= 1024)%nat /\
      pend_ok a st' ps'
  | _, _ => False
  end.

Definition pend_items (s : side) (ps : list tree) : list (Z * leaf) :=
  concat (map (fun p => dir s (tleaves p)) ps).

Lemma dir_tnode s h p k t0 t1 :
  dir s (tleaves (TNode h p k t0 t1)) =
  dir s (tleaves (if left_of s then t1 else t0)) ++ dir s (tleaves (if left_of s then t0 else t1)).
Proof. destruct s; cbn; [apply rev_app_distr|reflexivity]. Qed.

Lemma find_leftmost_spec fuel : forall a t st ps, readable a t -> (tdepth t <= fuel)%nat ->
  (tdepth t <= 1024)%nat -> pend_ok a st ps ->
  exists st' ps' x, find_leftmost fuel a (thandle t) st = Ok (st', x) /\ pend_ok a st' ps' /\
    x :: pend_items (a_side a) ps' = dir (a_side a) (tleaves t) ++ pend_items (a_side a) ps.
Proof.
  induction fuel as [|fuel IH]; intros a t st ps Hr Hd Hd' Hp; [destruct t; cbn in Hd; lia|].
  cbn [find_leftmost]. rewrite (readable_get a t Hr). cbn [bind].
  destruct t as [h l|h p k t0 t1]; cbn [tcontent].
  - exists st, ps, (h, l). split; [reflexivity|]. split; [exact Hp|].
    destruct (a_side a); reflexivity.
  - destruct (readable_node _ _ _ _ _ _ Hr) as (_ & _ & H0 & H1). cbn [tdepth] in Hd, Hd'.
    set (s := a_side a) in *.
    destruct (IH a (if left_of s then t1 else t0) (tinner p k t0 t1 :: st) ((if left_of s then t0 else t1) :: ps))
      as (st' & ps' & x & He & Hp' & Hx).
    + destruct s; assumption.
    + destruct s; cbn [left_of]; lia.
    + destruct s; cbn [left_of]; lia.
    + cbn [pend_ok]. fold s. split; [destruct s; reflexivity|].
      split; [destruct s; assumption|]. split; [destruct s; cbn [left_of]; lia|exact Hp].
    + exists st', ps', x. split; [|split; [exact Hp'|]].
      * rewrite <- He. destruct s; reflexivity.
      * fold s in Hx. rewrite Hx. rewrite dir_tnode. unfold pend_items. cbn [map concat]. fold s.
        rewrite <- app_assoc. reflexivity.
Qed.

(** An iterator that will return [items]. *)
Definition iter_inv (a : arena) (it : tree_iter) (items : list (Z * leaf)) : Prop :=
  match it_next it with
  | None => it_stack it = [] /\ items = []
  | Some x => exists ps, pend_ok a (it_stack it) ps /\ items = x :: pend_items (a_side a) ps
  end.

Lemma iter_inv_peek a it items : iter_inv a it items -> tree_iter_peek it = hd_error items.
Proof.
  unfold iter_inv, tree_iter_peek. destruct (it_next it) as [x|].
  - intros (ps & _ & ->). reflexivity.
  - intros (_ & ->). reflexivity.
Qed.

Lemma iter_inv_next a it items : iter_inv a it items ->
  exists it', tree_iter_next a it = Ok (hd_error items, it') /\ iter_inv a it' (tl items).
Proof.
  unfold iter_inv, tree_iter_next. destruct (it_next it) as [x|] eqn:En.
  - intros (ps & Hp & ->). destruct (it_stack it) as [|i st] eqn:Es.
    + destruct ps; [|contradiction]. exists (mkIter [] None). cbn. auto.
    + destruct ps as [|p ps]; [contradiction|]. cbn [pend_ok] in Hp. destruct Hp as (Hc & Hr & Hd & Hp).
      rewrite Hc.
      destruct (find_leftmost_spec tree_fuel a p st ps Hr) as (st' & ps' & y & He & Hp' & Hy); auto.
      { rewrite tree_fuel_eq. lia. }
      rewrite He. cbn [bind]. exists (mkIter st' (Some y)). split; [reflexivity|].
      cbn [it_next it_stack tl]. exists ps'. split; [exact Hp'|]. rewrite Hy. reflexivity.
  - intros (Hs & ->). exists it. cbn. rewrite En. auto.
Qed.

Lemma tree_iter_new_spec a r o R F : tree_ok a r o R F ->
  exists it, tree_iter_new a r = Ok it /\ iter_inv a it (dir (a_side a) (oitems o)).
Proof.
  intros H. unfold tree_iter_new. destruct o as [t|].
  - rewrite (root_handle_some r t (tk_root _ _ _ _ _ H)).
    destruct (tree_ok_facts _ _ _ _ _ H) as (_ & _ & _ & _ & _ & Hd & _).
    destruct (find_leftmost_spec tree_fuel a t [] []) as (st' & ps' & x & He & Hp & Hx).
    + eapply tree_ok_readable; eauto.
    + rewrite tree_fuel_eq. lia.
    + exact Hd.
    + exact I.
    + rewrite He. cbn [bind]. exists (mkIter st' (Some x)). split; [reflexivity|].
      unfold iter_inv. cbn [it_next it_stack oitems]. exists ps'. split; [exact Hp|].
      rewrite Hx. cbn. rewrite app_nil_r. reflexivity.
  - rewrite (root_handle_none r (tk_root _ _ _ _ _ H)). exists (mkIter [] None). split; [reflexivity|].
    cbn. destruct (a_side a); auto.
Qed.

Lemma tree_iter_collect_spec items : forall fuel a it, iter_inv a it items ->
  (length items < fuel)%nat -> tree_iter_collect fuel a it = Ok items.
Proof.
  induction items as [|x items IH]; intros fuel a it Hi Hl; (destruct fuel as [|fuel]; [lia|]);
    cbn [tree_iter_collect]; destruct (iter_inv_next a it _ Hi) as (it' & He & Hi'); rewrite He; cbn [bind hd_error].
  - reflexivity.
  - cbn [tl] in Hi'. rewrite (IH fuel a it' Hi') by (cbn in Hl; lia). reflexivity.
Qed.

Theorem tree_iter_all_spec a r o R F : tree_ok a r o R F ->
  tree_iter_all a r = Ok (dir (a_side a) (oitems o)).
Proof.
  intros H. unfold tree_iter_all. destruct (tree_iter_new_spec a r o R F H) as (it & He & Hi).
  rewrite He. cbn [bind]. apply tree_iter_collect_spec; [exact Hi|]. rewrite dir_length, tree_fuel_eq.
  destruct o as [t|]; cbn [oitems length]; [|lia].
  destruct (tree_ok_facts _ _ _ _ _ H) as (_ & _ & _ & _ & _ & _ & Hl). lia.
Qed.

(** ** Changing a leaf in place *)
Fixpoint tset (t : tree) (h : Z) (l : leaf) : tree :=
  match t with
  | TLeaf h' l' => if h' =? h then TLeaf h l else TLeaf h' l'
  | TNode h' p k t0 t1 => TNode h' p k (tset t0 h l) (tset t1 h l)
  end.
Definition set_item (h : Z) (l : leaf) (x : Z * leaf) : Z * leaf := if fst x =? h then (h, l) else x.

Lemma tset_leaves t h l : tleaves (tset t h l) = map (set_item h l) (tleaves t).
Proof.
  induction t as [h' l'|h' p k t0 IH0 t1 IH1]; cbn [tset tleaves map].
  - unfold set_item. cbn [fst]. destruct (h' =? h); reflexivity.
  - rewrite map_app, IH0, IH1. reflexivity.
Qed.
Lemma tset_handle t h l : thandle (tset t h l) = thandle t.
Proof. destruct t; cbn; [|reflexivity]. destruct (Z.eqb_spec h0 h); cbn; congruence. Qed.
Lemma tset_handles t h l : thandles (tset t h l) = thandles t.
Proof.
  induction t as [h' l'|h' p k t0 IH0 t1 IH1]; cbn.
  - destruct (Z.eqb_spec h' h); cbn; congruence.
  - rewrite IH0, IH1. reflexivity.
Qed.
Definition same_place (l l' : leaf) : Prop := lf_key l = lf_key l' /\ leaf_expiry l = leaf_expiry l'.
Lemma tset_exp t h l : (forall x, In x (tleaves t) -> fst x = h -> same_place (snd x) l) ->
  texp (tset t h l) = texp t.
Proof.
  induction t as [h' l'|h' p k t0 IH0 t1 IH1]; cbn; intros H.
  - destruct (Z.eqb_spec h' h) as [E|]; [|reflexivity]. cbn.
    destruct (H (h', l') (or_introl eq_refl) E) as [_ He]. symmetry. exact He.
  - rewrite IH0, IH1; [reflexivity| |]; intros x Hx; apply H; apply in_or_app; auto.
Qed.
Lemma tset_repr nd t h l :
  (forall x, In x (tleaves t) -> fst x = h -> same_place (snd x) l) ->
  (forall x, In x (thandles t) -> x = h -> exists l0, In (h, l0) (tleaves t)) ->
  NoDup (thandles t) ->
  repr nd t -> repr (upd nd h (NLeaf l)) (tset t h l).
Proof.
  induction t as [h' l'|h' p k t0 IH0 t1 IH1]; intros Hs Hl Hnd Hr.
  - cbn [tset]. destruct (Z.eqb_spec h' h) as [E|E]; cbn [repr].
    + apply upd_same.
    + rewrite upd_other by auto. exact Hr.
  - cbn [tset repr]. cbn [repr] in Hr. destruct Hr as (Hn & H0 & H1).
    cbn [thandles] in Hnd. inversion Hnd as [|? ? Hni Hnd']; subst.
    assert (Hne : h' <> h).
    { intros E. destruct (Hl h' (or_introl eq_refl) E) as (l0 & Hi). apply Hni.
      rewrite E. cbn [tleaves] in Hi. apply in_app_or in Hi. apply in_or_app.
      destruct Hi as [Hi|Hi]; [left|right]; apply (tleaves_handles _ _ Hi). }
    assert (Hs0 : forall x, In x (tleaves t0) -> fst x = h -> same_place (snd x) l)
      by (intros x Hx; apply Hs; cbn; apply in_or_app; auto).
    assert (Hs1 : forall x, In x (tleaves t1) -> fst x = h -> same_place (snd x) l)
      by (intros x Hx; apply Hs; cbn; apply in_or_app; auto).
    split; [|split].
    + rewrite upd_other by auto. rewrite Hn. unfold tinner. rewrite !tset_handle, !tset_exp by auto. reflexivity.
    + apply IH0; auto; [|eapply nodup_app_l; eauto].
      intros x Hx ->. destruct (Hl h) as (l0 & Hi); auto.
      { cbn. right. apply in_or_app. auto. }
      cbn in Hi. apply in_app_or in Hi as [Hi|Hi]; [eauto|].
      exfalso. eapply nodup_app_disj; [exact Hnd'|exact Hx|]. apply (tleaves_handles _ _ Hi).
    + apply IH1; auto; [|eapply nodup_app_r; eauto].
      intros x Hx ->. destruct (Hl h) as (l0 & Hi); auto.
      { cbn. right. apply in_or_app. auto. }
      cbn in Hi. apply in_app_or in Hi as [Hi|Hi]; [|eauto].
      exfalso. eapply nodup_app_disj; [exact Hnd'| |exact Hx]. apply (tleaves_handles _ _ Hi).
Qed.
Lemma tset_wft t h l :
  (forall x, In x (tleaves t) -> fst x = h -> same_place (snd x) l) ->
  wft t -> wft (tset t h l).
Proof.
  induction t as [h' l'|h' p k t0 IH0 t1 IH1]; cbn [tset wft]; intros Hs Hw.
  - destruct (Z.eqb_spec h' h) as [E|]; [|exact Hw]. cbn [wft].
    destruct (Hs (h', l') (or_introl eq_refl) E) as [<- _]. exact Hw.
  - destruct Hw as (Hp & Hk & H0 & H1 & Hl0 & Hl1).
    assert (Hs0 : forall x, In x (tleaves t0) -> fst x = h -> same_place (snd x) l)
      by (intros x Hx; apply Hs; cbn; apply in_or_app; auto).
    assert (Hs1 : forall x, In x (tleaves t1) -> fst x = h -> same_place (snd x) l)
      by (intros x Hx; apply Hs; cbn; apply in_or_app; auto).
    refine (conj Hp (conj Hk (conj (IH0 Hs0 H0) (conj (IH1 Hs1 H1) (conj _ _))))).
    + intros x Hx. rewrite tset_leaves in Hx. apply in_map_iff in Hx as (y & <- & Hy).
      unfold set_item. destruct (Z.eqb_spec (fst y) h) as [E|]; [|auto].
      cbn [snd]. destruct (Hs0 y Hy E) as [<- _]. auto.
    + intros x Hx. rewrite tset_leaves in Hx. apply in_map_iff in Hx as (y & <- & Hy).
      unfold set_item. destruct (Z.eqb_spec (fst y) h) as [E|]; [|auto].
      cbn [snd]. destruct (Hs1 y Hy E) as [<- _]. auto.
Qed.

Definition oset (o : option tree) (h : Z) (l : leaf) : option tree :=
  match o with None => None | Some t => Some (tset t h l) end.
Lemma oset_items o h l : oitems (oset o h l) = map (set_item h l) (oitems o).
Proof. destruct o; cbn; [apply tset_leaves|reflexivity]. Qed.
Lemma oset_handles o h l : ohandles (oset o h l) = ohandles o.
Proof. destruct o; cbn; [apply tset_handles|reflexivity]. Qed.

Lemma items_handles o x : In x (oitems o) -> In (fst x) (ohandles o).
Proof. destruct o; cbn; [apply tleaves_handles|auto]. Qed.

Lemma tleaves_fst_nodup t : NoDup (thandles t) -> NoDup (map fst (tleaves t)).
Proof.
  induction t as [h l|h p k t0 IH0 t1 IH1]; cbn; intros H; [constructor; [intros []|constructor]|].
  inversion H as [|? ? Hni Hnd]; subst. rewrite map_app.
  assert (Hd : forall x, In x (map fst (tleaves t0)) -> In x (map fst (tleaves t1)) -> False).
  { intros x H0 H1. apply in_map_iff in H0 as (y & <- & H0). apply in_map_iff in H1 as (z & Hz & H1).
    apply tleaves_handles in H0. apply tleaves_handles in H1. rewrite Hz in H1.
    eapply nodup_app_disj; eauto. }
  pose proof (IH0 (nodup_app_l _ _ Hnd)) as Hn0. pose proof (IH1 (nodup_app_r _ _ Hnd)) as Hn1.
  clear - Hd Hn0 Hn1. induction (map fst (tleaves t0)) as [|y L IH]; cbn; [exact Hn1|].
  inversion Hn0; subst. constructor.
  - intros Hi. apply in_app_or in Hi as [Hi|Hi]; [auto|]. apply (Hd y); [left; reflexivity|exact Hi].
  - apply IH; auto. intros x Hx. apply Hd. right. exact Hx.
Qed.

Lemma tree_ok_fst_nodup a r o R F : tree_ok a r o R F -> NoDup (map fst (oitems o)).
Proof.
  intros H. destruct o as [t|]; cbn; [|constructor]. apply tleaves_fst_nodup.
  eapply tree_ok_facts; eauto.
Qed.

Lemma nodup_fst_inj {A B} (L : list (A * B)) x y : NoDup (map fst L) -> In x L -> In y L ->
  fst x = fst y -> x = y.
Proof.
  induction L as [|z L IH]; cbn; intros Hn Hx Hy He; [contradiction|]. inversion Hn; subst.
  destruct Hx as [<-|Hx], Hy as [<-|Hy]; auto.
  - exfalso. apply H1. rewrite He. apply in_map. exact Hy.
  - exfalso. apply H1. rewrite <- He. apply in_map. exact Hx.
Qed.

(** Writing a leaf with the same key and expiry over an existing one. *)
Theorem set_leaf_spec a r o R F h l l' :
  tree_ok a r o R F -> In (h, l) (oitems o) -> same_place l l' ->
  tree_ok (set_node a h (NLeaf l')) r (oset o h l') R F /\
  (forall x, In x R -> a_nodes (set_node a h (NLeaf l')) x = a_nodes a x).
Proof.
  intros Hok Hin Hsp. destruct o as [t|]; [|contradiction].
  destruct (tree_ok_facts _ _ _ _ _ Hok) as (Ha & Hr & Hw & Hnd & Hincl & _).
  assert (Hh : In h (thandles t)) by apply (tleaves_handles t (h, l) Hin).
  assert (Hs : forall x, In x (tleaves t) -> fst x = h -> same_place (snd x) l').
  { intros x Hx E. assert (Ex : x = (h, l)).
    { eapply nodup_fst_inj; [apply tleaves_fst_nodup; exact Hnd| | |]; eauto. }
    subst x. exact Hsp. }
  split.
  - constructor.
    + cbn [oset ohandles]. rewrite tset_handles. apply alloc_set; [exact Ha|]. apply Hincl. exact Hh.
    + destruct (tk_root _ _ _ _ _ Hok) as [H1 H2]. cbn [oset root_rep].
      rewrite tset_handle, tset_leaves, map_length. auto.
    + cbn [oset orepr]. split; [|apply tset_wft; auto]. cbn [set_node a_nodes].
      apply tset_repr; auto. intros x Hx ->. exists l. exact Hin.
  - intros x Hx. cbn. apply upd_other. intros ->.
    pose proof (al_nodup _ _ _ Ha) as HH. apply nodup_app_l in HH. eapply nodup_app_disj; eauto.
Qed.
