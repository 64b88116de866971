(** Abstract trees, their representation in the node arena, and the arena's free list. *)
From Coq Require Import ZArith List Bool Lia ZifyBool Permutation Sorted.
From Verif Require Import Base Nodes OrderTree BaseFacts BitFacts HeapFacts.
Import ListNotations.
Open Scope Z_scope.

Inductive tree : Type :=
| TLeaf (h : Z) (l : leaf)
| TNode (h p k : Z) (t0 t1 : tree).

Definition thandle (t : tree) : Z := match t with TLeaf h _ => h | TNode h _ _ _ _ => h end.

Fixpoint thandles (t : tree) : list Z :=
  match t with
  | TLeaf h _ => [h]
  | TNode h _ _ t0 t1 => h :: thandles t0 ++ thandles t1
  end.

(** The leaves with their handles, in key order. *)
Fixpoint tleaves (t : tree) : list (Z * leaf) :=
  match t with
  | TLeaf h l => [(h, l)]
  | TNode _ _ _ t0 t1 => tleaves t0 ++ tleaves t1
  end.

Fixpoint texp (t : tree) : Z :=
  match t with
  | TLeaf _ l => leaf_expiry l
  | TNode _ _ _ t0 t1 => Z.min (texp t0) (texp t1)
  end.

Definition tinner (p k : Z) (t0 t1 : tree) : inner :=
  mkInner p k (thandle t0) (thandle t1) (texp t0) (texp t1).

Definition tcontent (t : tree) : node :=
  match t with
  | TLeaf _ l => NLeaf l
  | TNode _ p k t0 t1 => NInner (tinner p k t0 t1)
  end.

Fixpoint repr (nd : Z -> node) (t : tree) : Prop :=
  match t with
  | TLeaf h l => nd h = NLeaf l
  | TNode h p k t0 t1 => nd h = NInner (tinner p k t0 t1) /\ repr nd t0 /\ repr nd t1
  end.

(** Keys below the two children of an inner node with prefix length [p] and key [k]. *)
Definition on_side (p k : Z) (b : bool) (key : Z) : Prop :=
  key / 2 ^ (127 - p) = 2 * (k / 2 ^ (128 - p)) + Z.b2z b.

Fixpoint wft (t : tree) : Prop :=
  match t with
  | TLeaf _ l => 0 <= lf_key l < two128
  | TNode _ p k t0 t1 =>
      0 <= p <= 127 /\ 0 <= k < two128 /\ wft t0 /\ wft t1 /\
      (forall x, In x (tleaves t0) -> on_side p k false (lf_key (snd x))) /\
      (forall x, In x (tleaves t1) -> on_side p k true (lf_key (snd x)))
  end.

Lemma repr_content nd t : repr nd t -> nd (thandle t) = tcontent t.
Proof. destruct t; cbn; tauto. Qed.

Lemma repr_frame nd nd' t :
  (forall h, In h (thandles t) -> nd' h = nd h) -> repr nd t -> repr nd' t.
Proof.
  induction t as [h l|h p k t0 IH0 t1 IH1]; cbn; intros Hf H.
  - rewrite Hf by auto. exact H.
  - destruct H as (H & H0 & H1). rewrite Hf by auto. split; [exact H|].
    split; [apply IH0|apply IH1]; auto; intros x Hx; apply Hf; right; apply in_or_app; auto.
Qed.

Lemma thandle_in t : In (thandle t) (thandles t).
Proof. destruct t; left; reflexivity. Qed.

Lemma tleaves_nonempty t : tleaves t <> [].
Proof.
  induction t as [h l|h p k t0 IH0 t1 IH1]; cbn; [discriminate|].
  intros H. apply app_eq_nil in H as [H _]. auto.
Qed.

Lemma tleaves_handles t x : In x (tleaves t) -> In (fst x) (thandles t).
Proof.
  induction t as [h l|h p k t0 IH0 t1 IH1]; cbn; intros H.
  - destruct H as [<-|[]]. left. reflexivity.
  - right. apply in_app_or in H. apply in_or_app. tauto.
Qed.

Lemma tleaves_repr nd t h l : repr nd t -> In (h, l) (tleaves t) -> nd h = NLeaf l.
Proof.
  induction t as [h' l'|h' p k t0 IH0 t1 IH1]; cbn; intros H Hin.
  - destruct Hin as [Hin|[]]. injection Hin as -> ->. exact H.
  - destruct H as (_ & H0 & H1). apply in_app_or in Hin as [Hin|Hin]; auto.
Qed.

Lemma wft_keys t x : wft t -> In x (tleaves t) -> 0 <= lf_key (snd x) < two128.
Proof.
  induction t as [h' l'|h' p k t0 IH0 t1 IH1]; cbn [wft tleaves]; intros H Hin.
  - destruct Hin as [<-|[]]. exact H.
  - destruct H as (_ & _ & H0 & H1 & _). apply in_app_or in Hin as [Hin|Hin]; auto.
Qed.

(** Keys of two lists of leaves, all of the first below all of the second. *)
Definition keys_lt (a b : list (Z * leaf)) : Prop :=
  forall x y, In x a -> In y b -> lf_key (snd x) < lf_key (snd y).

Definition keys_sorted (l : list (Z * leaf)) : Prop :=
  StronglySorted (fun x y => lf_key (snd x) < lf_key (snd y)) l.

Lemma keys_sorted_app a b : keys_sorted a -> keys_sorted b -> keys_lt a b -> keys_sorted (a ++ b).
Proof.
  unfold keys_sorted, keys_lt. induction a as [|x a IH]; cbn; intros Ha Hb Hlt; [exact Hb|].
  inversion Ha; subst. constructor.
  - apply IH; auto.
  - apply Forall_app. split; [assumption|]. apply Forall_forall. intros y Hy. apply Hlt; auto.
Qed.

Lemma keys_sorted_app_inv a b : keys_sorted (a ++ b) ->
  keys_sorted a /\ keys_sorted b /\ keys_lt a b.
Proof.
  unfold keys_sorted, keys_lt. induction a as [|x a IH]; cbn; intros H.
  - split; [constructor|]. split; [exact H|]. intros ? ? [].
  - inversion H; subst. destruct (IH H2) as (Ha & Hb & Hlt).
    rewrite Forall_app in H3. destruct H3 as [H3 H4]. rewrite Forall_forall in H4.
    split; [constructor; auto|]. split; [exact Hb|]. intros y z [<-|Hy] Hz; auto.
Qed.

Lemma on_side_lt p k x y : 0 <= p <= 127 -> on_side p k false x -> on_side p k true y -> x < y.
Proof.
  unfold on_side. intros Hp Hx Hy. apply (div_pow2_lt x y (127 - p)); [lia|].
  rewrite Hx, Hy. cbn [Z.b2z]. lia.
Qed.

Lemma wft_sorted t : wft t -> keys_sorted (tleaves t).
Proof.
  induction t as [h l|h p k t0 IH0 t1 IH1]; cbn [wft tleaves]; intros H.
  - constructor; constructor.
  - destruct H as (Hp & Hk & H0 & H1 & Hl & Hr). apply keys_sorted_app; auto.
    intros x y Hx Hy. apply (on_side_lt p k); auto.
Qed.

Lemma on_side_bit p k b key : 0 <= p <= 127 -> on_side p k b key ->
  Z.testbit key (127 - p) = b /\ key / 2 ^ (128 - p) = k / 2 ^ (128 - p).
Proof.
  unfold on_side. intros Hp H. pose proof (div_pow2_S key (127 - p) ltac:(lia)) as Hd.
  replace (127 - p + 1) with (128 - p) in Hd by lia.
  destruct b, (Z.testbit key (127 - p)); cbn [Z.b2z] in *; split; try reflexivity; lia.
Qed.

Lemma on_side_intro p k b key : 0 <= p <= 127 -> Z.testbit key (127 - p) = b ->
  key / 2 ^ (128 - p) = k / 2 ^ (128 - p) -> on_side p k b key.
Proof.
  unfold on_side. intros Hp Hb Hk. rewrite (div_pow2_S key (127 - p)) by lia.
  replace (127 - p + 1) with (128 - p) by lia. rewrite Hk, Hb. reflexivity.
Qed.

(** All keys below a node agree with its key above the critical bit. *)
Lemma wft_prefix t x : wft t -> In x (tleaves t) ->
  match t with
  | TLeaf _ l => lf_key (snd x) = lf_key l
  | TNode _ p k _ _ => lf_key (snd x) / 2 ^ (128 - p) = k / 2 ^ (128 - p)
  end.
Proof.
  destruct t as [h l|h p k t0 t1]; cbn [wft tleaves]; intros H Hin.
  - destruct Hin as [<-|[]]. reflexivity.
  - destruct H as (Hp & _ & _ & _ & Hl & Hr). apply in_app_or in Hin as [Hin|Hin].
    + apply (on_side_bit p k false); auto.
    + apply (on_side_bit p k true); auto.
Qed.

Fixpoint tdepth (t : tree) : nat :=
  match t with TLeaf _ _ => 1%nat | TNode _ _ _ t0 t1 => S (Nat.max (tdepth t0) (tdepth t1)) end.

Lemma tdepth_le t : (tdepth t <= length (thandles t))%nat.
Proof.
  induction t as [h l|h p k t0 IH0 t1 IH1]; cbn; [lia|]. rewrite app_length. lia.
Qed.

Lemma thandles_leaves_count t : length (thandles t) = (2 * length (tleaves t) - 1)%nat /\
  (1 <= length (tleaves t))%nat.
Proof.
  induction t as [h l|h p k t0 IH0 t1 IH1]; cbn [thandles tleaves length]; [lia|].
  rewrite !app_length. lia.
Qed.

(** ** Contexts: the path from a subtree up to the root, nearest frame first. *)
Record frame : Type := mkFrame { fr_h : Z; fr_p : Z; fr_k : Z; fr_b : bool; fr_sib : tree }.

Definition plug1 (f : frame) (t : tree) : tree :=
  if fr_b f then TNode (fr_h f) (fr_p f) (fr_k f) (fr_sib f) t
  else TNode (fr_h f) (fr_p f) (fr_k f) t (fr_sib f).

Fixpoint plug (c : list frame) (t : tree) : tree :=
  match c with [] => t | f :: r => plug r (plug1 f t) end.

Definition cstack (c : list frame) : list (Z * bool) := map (fun f => (fr_h f, fr_b f)) c.

Fixpoint chandles (c : list frame) : list Z :=
  match c with [] => [] | f :: r => fr_h f :: thandles (fr_sib f) ++ chandles r end.

Definition finner (f : frame) (hh he : Z) : inner :=
  if fr_b f then mkInner (fr_p f) (fr_k f) (thandle (fr_sib f)) hh (texp (fr_sib f)) he
  else mkInner (fr_p f) (fr_k f) hh (thandle (fr_sib f)) he (texp (fr_sib f)).

(** The frames are stored for a subtree with handle [hh] and earliest expiry [he]. *)
Fixpoint crepr (nd : Z -> node) (c : list frame) (hh he : Z) : Prop :=
  match c with
  | [] => True
  | f :: r =>
      nd (fr_h f) = NInner (finner f hh he) /\ repr nd (fr_sib f) /\
      crepr nd r (fr_h f) (Z.min he (texp (fr_sib f)))
  end.

Lemma crepr_frame nd nd' c hh he :
  (forall h, In h (chandles c) -> nd' h = nd h) -> crepr nd c hh he -> crepr nd' c hh he.
Proof.
  revert hh he; induction c as [|f r IH]; cbn; intros hh he Hf H; [exact I|].
  destruct H as (H1 & H2 & H3). rewrite Hf by auto. split; [exact H1|]. split.
  - eapply repr_frame; [|exact H2]. intros x Hx. apply Hf. right. apply in_or_app. auto.
  - apply IH; auto. intros x Hx. apply Hf. right. apply in_or_app. auto.
Qed.

Lemma plug1_handle f t : thandle (plug1 f t) = fr_h f.
Proof. unfold plug1. destruct (fr_b f); reflexivity. Qed.
Lemma plug1_exp f t : texp (plug1 f t) = Z.min (texp t) (texp (fr_sib f)).
Proof. unfold plug1. destruct (fr_b f); cbn [texp]; lia. Qed.
Lemma plug1_repr nd f t : repr nd (plug1 f t) <->
  nd (fr_h f) = NInner (finner f (thandle t) (texp t)) /\ repr nd (fr_sib f) /\ repr nd t.
Proof. unfold plug1, finner, tinner. destruct (fr_b f); cbn; tauto. Qed.

Lemma plug_repr nd c t : repr nd (plug c t) <-> repr nd t /\ crepr nd c (thandle t) (texp t).
Proof.
  revert t; induction c as [|f r IH]; intros t; cbn [plug crepr]; [tauto|].
  rewrite IH, plug1_repr, plug1_handle, plug1_exp. tauto.
Qed.

Lemma plug1_handles f t : Permutation (thandles (plug1 f t)) (thandles t ++ fr_h f :: thandles (fr_sib f)).
Proof.
  unfold plug1. destruct (fr_b f); cbn [thandles].
  - etransitivity; [|apply Permutation_middle]. constructor. apply Permutation_app_comm.
  - etransitivity; [|apply Permutation_middle]. reflexivity.
Qed.

Lemma plug_handles c t : Permutation (thandles (plug c t)) (thandles t ++ chandles c).
Proof.
  revert t; induction c as [|f r IH]; intros t; cbn [plug chandles].
  - rewrite app_nil_r. reflexivity.
  - rewrite IH, plug1_handles. rewrite <- app_assoc. reflexivity.
Qed.

(** The leaves before and after the hole. *)
Fixpoint cbefore (c : list frame) : list (Z * leaf) :=
  match c with
  | [] => []
  | f :: r => cbefore r ++ (if fr_b f then tleaves (fr_sib f) else [])
  end.
Fixpoint cafter (c : list frame) : list (Z * leaf) :=
  match c with
  | [] => []
  | f :: r => (if fr_b f then [] else tleaves (fr_sib f)) ++ cafter r
  end.

Lemma plug_leaves c t : tleaves (plug c t) = cbefore c ++ tleaves t ++ cafter c.
Proof.
  revert t; induction c as [|f r IH]; intros t; cbn [plug cbefore cafter].
  - rewrite app_nil_r. reflexivity.
  - rewrite IH. unfold plug1. destruct (fr_b f); cbn [tleaves]; rewrite <- ?app_assoc; reflexivity.
Qed.

(** The context accepts a subtree whose keys satisfy the side conditions of all frames. *)
Fixpoint cwf (c : list frame) : Prop :=
  match c with
  | [] => True
  | f :: r =>
      0 <= fr_p f <= 127 /\ 0 <= fr_k f < two128 /\ wft (fr_sib f) /\
      (forall x, In x (tleaves (fr_sib f)) -> on_side (fr_p f) (fr_k f) (negb (fr_b f)) (lf_key (snd x))) /\
      (forall x, In x (tleaves (fr_sib f)) -> Forall (fun g => on_side (fr_p g) (fr_k g) (fr_b g) (lf_key (snd x))) r) /\
      cwf r
  end.
Definition caccepts (c : list frame) (key : Z) : Prop :=
  Forall (fun g => on_side (fr_p g) (fr_k g) (fr_b g) key) c.

Lemma plug_wft c t : wft (plug c t) <->
  cwf c /\ wft t /\ (forall x, In x (tleaves t) -> caccepts c (lf_key (snd x))).
Proof.
  revert t; induction c as [|f r IH]; intros t; cbn [plug cwf].
  - split; [|tauto]. intros H. repeat split; auto. intros; constructor.
  - rewrite IH. unfold caccepts.
    assert (Hw : wft (plug1 f t) <->
       0 <= fr_p f <= 127 /\ 0 <= fr_k f < two128 /\ wft (fr_sib f) /\ wft t /\
       (forall x, In x (tleaves (fr_sib f)) -> on_side (fr_p f) (fr_k f) (negb (fr_b f)) (lf_key (snd x))) /\
       (forall x, In x (tleaves t) -> on_side (fr_p f) (fr_k f) (fr_b f) (lf_key (snd x)))).
    { unfold plug1. destruct (fr_b f); cbn [wft negb]; tauto. }
    assert (Hl : (forall x, In x (tleaves (plug1 f t)) -> Forall (fun g => on_side (fr_p g) (fr_k g) (fr_b g) (lf_key (snd x))) r) <->
       (forall x, In x (tleaves (fr_sib f)) -> Forall (fun g => on_side (fr_p g) (fr_k g) (fr_b g) (lf_key (snd x))) r) /\
       (forall x, In x (tleaves t) -> Forall (fun g => on_side (fr_p g) (fr_k g) (fr_b g) (lf_key (snd x))) r)).
    { unfold plug1. split.
      - intros H. split; intros x Hx; apply H; destruct (fr_b f); cbn [tleaves]; apply in_or_app; auto.
      - intros [H1 H2] x Hx. destruct (fr_b f); cbn [tleaves] in Hx; apply in_app_or in Hx as [Hx|Hx]; auto. }
    rewrite Hw, Hl. split.
    + intros (Hc & (H1 & H2 & H3 & H4 & H5 & H6) & H7 & H8).
      refine (conj (conj H1 (conj H2 (conj H3 (conj H5 (conj H7 Hc))))) (conj H4 _)).
      intros x Hx. constructor; auto.
    + intros ((H1 & H2 & H3 & H4 & H5 & H6) & H7 & H8).
      refine (conj H6 (conj (conj H1 (conj H2 (conj H3 (conj H7 (conj H4 _))))) (conj H5 _))).
      * intros x Hx. apply H8 in Hx. inversion Hx; auto.
      * intros x Hx. apply H8 in Hx. inversion Hx; auto.
Qed.

(** ** The allocator *)

(** Chain of free nodes: [NFree] all along, [NLastFree] at the end. *)
Fixpoint fchain (nd : Z -> node) (head : Z) (F : list Z) : Prop :=
  match F with
  | [] => True
  | h :: r =>
      head = h /\
      match r with
      | [] => exists n, nd h = NLastFree n
      | _ => exists n, nd h = NFree n /\ fchain nd n r
      end
  end.

Record alloc (a : arena) (U F : list Z) : Prop := mkAlloc {
  al_nodup : NoDup (U ++ F);
  al_range : forall h, In h (U ++ F) -> 0 <= h < a_bump a;
  al_total : Z.of_nat (length (U ++ F)) = a_bump a;
  al_bump : a_bump a <= 1024;
  al_flen : a_flen a = Z.of_nat (length F);
  al_chain : fchain (a_nodes a) (a_fhead a) F }.

Lemma fchain_frame nd nd' hd F :
  (forall h, In h F -> nd' h = nd h) -> fchain nd hd F -> fchain nd' hd F.
Proof.
  revert hd; induction F as [|h r IH]; cbn; intros hd Hf H; [exact I|].
  destruct H as [-> H]. split; [reflexivity|]. rewrite Hf by auto.
  destruct r as [|h' r]; [exact H|]. destruct H as (n & Hn & H). exists n. split; [exact Hn|].
  apply IH; auto.
Qed.

Lemma alloc_perm a U U' F : Permutation U U' -> alloc a U F -> alloc a U' F.
Proof.
  intros Hp [H1 H2 H3 H4 H5 H6].
  assert (HP : Permutation (U ++ F) (U' ++ F)) by (apply Permutation_app_tail; exact Hp).
  constructor; auto.
  - eapply Permutation_NoDup; eauto.
  - intros h Hh. apply H2. eapply Permutation_in; [symmetry; exact HP|exact Hh].
  - rewrite <- H3. f_equal. symmetry. apply Permutation_length. exact HP.
Qed.

Lemma alloc_in_bounds a U F h : alloc a U F -> In h U -> in_bounds h = true.
Proof.
  intros H Hin. pose proof (al_range _ _ _ H h (in_or_app _ _ _ (or_introl Hin))).
  pose proof (al_bump _ _ _ H). unfold in_bounds, MAX_NODES. lia.
Qed.

Lemma alloc_len a U F : alloc a U F -> (length U <= 1024)%nat.
Proof.
  intros H. pose proof (al_total _ _ _ H). pose proof (al_bump _ _ _ H).
  rewrite app_length in *. lia.
Qed.

(** Writing to used nodes keeps the allocator. *)
Lemma alloc_set a U F h n : alloc a U F -> In h U -> alloc (set_node a h n) U F.
Proof.
  intros H Hin. destruct H as [H1 H2 H3 H4 H5 H6]. constructor; auto.
  cbn. eapply fchain_frame; [|exact H6]. intros x Hx. apply upd_other.
  intros ->. eapply nodup_app_disj; eauto.
Qed.

Lemma get_node_repr a U F h n : alloc a U F -> In h U -> a_nodes a h = n ->
  (exists i, n = NInner i) \/ (exists l, n = NLeaf l) -> get_node_unwrap a h = Ok n.
Proof.
  intros Ha Hin Hn Hk. unfold get_node_unwrap, get_node.
  rewrite (alloc_in_bounds _ _ _ _ Ha Hin), Hn.
  destruct Hk as [(i & ->)|(l & ->)]; reflexivity.
Qed.

Lemma tcontent_kind t : (exists i, tcontent t = NInner i) \/ (exists l, tcontent t = NLeaf l).
Proof. destruct t; cbn; eauto. Qed.

Lemma tree_insert_spec a U F v : alloc a U F ->
  (F <> [] \/ a_bump a < 1024) ->
  exists a' h F', tree_insert a v = Ok (a', h) /\ ~ In h U /\ alloc a' (h :: U) F' /\
    a_side a' = a_side a /\ a_nodes a' = upd (a_nodes a) h v /\
    (Z.of_nat (length F') + (1024 - a_bump a') = Z.of_nat (length F) + (1024 - a_bump a) - 1).
Proof.
  intros H Hsp. unfold tree_insert. pose proof (al_flen _ _ _ H) as Hfl.
  destruct F as [|h F'].
  - destruct Hsp as [Hsp|Hsp]; [congruence|]. cbn in Hfl. rewrite Hfl.
    change (0 =? 0) with true. cbv iota. unfold MAX_NODES, u32_max.
    replace ((a_bump a <? 1024) && (a_bump a <? 4294967295)) with true by lia.
    cbn [require bind]. exists (mkArena (a_side a) (a_bump a + 1) 0 (a_fhead a) (upd (a_nodes a) (a_bump a) v)), (a_bump a), [].
    split; [reflexivity|].
    assert (Hn : ~ In (a_bump a) U).
    { intros Hin. pose proof (al_range _ _ _ H (a_bump a) (in_or_app _ _ _ (or_introl Hin))). lia. }
    split; [exact Hn|]. destruct H as [H1 H2 H3 H4 H5 H6]. rewrite app_nil_r in *.
    split; [|cbn [a_side a_nodes a_bump length]; split; [reflexivity|split; [reflexivity|lia]]].
    constructor; cbn [a_bump a_flen a_nodes a_fhead]; rewrite ?app_nil_r.
    + constructor; auto.
    + intros x [<-|Hx]; [|apply H2 in Hx]; lia.
    + cbn [length]. lia.
    + lia.
    + reflexivity.
    + exact I.
  - replace (a_flen a =? 0) with false by (cbn [length] in Hfl; lia).
    destruct H as [H1 H2 H3 H4 H5 H6]. cbn [fchain] in H6. destruct H6 as [Hh H6].
    assert (Hr : 0 <= h < a_bump a) by (apply H2; apply in_or_app; right; left; reflexivity).
    rewrite Hh. unfold in_bounds, MAX_NODES, massert.
    replace ((0 <=? h) && (h <? 1024)) with true by lia. cbn [require bind].
    pose proof (NoDup_remove_2 _ _ _ H1) as Hns. pose proof (NoDup_remove_1 _ _ _ H1) as Hnd.
    assert (HU : ~ In h U) by (intros Hi; apply Hns, in_or_app; auto).
    assert (HF : ~ In h F') by (intros Hi; apply Hns, in_or_app; auto).
    assert (Hgo : exists next,
      match a_nodes a h with
      | NFree next => _ <- require (1 <? a_flen a) Panic;; Ok (mkArena (a_side a) (a_bump a) (a_flen a - 1) next (upd (a_nodes a) h v), h)
      | NLastFree next => _ <- require (a_flen a =? 1) Panic;; Ok (mkArena (a_side a) (a_bump a) (a_flen a - 1) next (upd (a_nodes a) h v), h)
      | _ => Err Panic
      end = Ok (mkArena (a_side a) (a_bump a) (a_flen a - 1) next (upd (a_nodes a) h v), h)
      /\ fchain (a_nodes a) next F').
    { destruct F' as [|h' F'].
      - destruct H6 as (n & ->). exists n. replace (a_flen a =? 1) with true by (cbn in Hfl; lia).
        cbn [require bind]. split; [reflexivity|exact I].
      - destruct H6 as (n & -> & H6). exists n. replace (1 <? a_flen a) with true by (cbn [length] in Hfl; lia).
        cbn [require bind]. split; [reflexivity|exact H6]. }
    destruct Hgo as (next & Hgo & Hch).
    exists (mkArena (a_side a) (a_bump a) (a_flen a - 1) next (upd (a_nodes a) h v)), h, F'.
    split; [exact Hgo|]. split; [exact HU|].
    split; [|cbn [a_side a_nodes a_bump length]; split; [reflexivity|split; [reflexivity|lia]]].
    constructor; cbn [a_bump a_flen a_nodes a_fhead].
    + cbn. constructor; auto.
    + intros x [<-|Hx]; [lia|]. apply H2. apply in_app_or in Hx. apply in_or_app. cbn. tauto.
    + rewrite <- H3. cbn [app length]. rewrite !app_length. cbn [length]. lia.
    + lia.
    + rewrite Hfl. cbn [length]. lia.
    + eapply fchain_frame; [|exact Hch]. intros x Hx. apply upd_other. congruence.
Qed.

Lemma tree_insert_inv a U F v a' h : alloc a U F -> tree_insert a v = Ok (a', h) ->
  exists F', ~ In h U /\ alloc a' (h :: U) F' /\
    a_side a' = a_side a /\ a_nodes a' = upd (a_nodes a) h v.
Proof.
  intros H Hi.
  assert (Hsp : F <> [] \/ a_bump a < 1024).
  { destruct F; [right|left; discriminate]. unfold tree_insert in Hi.
    rewrite (al_flen _ _ _ H) in Hi. cbn [length Z.of_nat Z.eqb] in Hi. ok_inv1 Hi. ok_inv1 E.
    unfold MAX_NODES in E. lia. }
  destruct (tree_insert_spec a U F v H Hsp) as (a2 & h2 & F' & Hi2 & H1 & H2 & H3 & H4 & _).
  rewrite Hi in Hi2. injection Hi2 as <- <-. exists F'. auto.
Qed.

Lemma tree_remove_spec a U F h n : alloc a (h :: U) F -> a_nodes a h = n ->
  (exists i, n = NInner i) \/ (exists l, n = NLeaf l) ->
  exists a' fr, tree_remove_unwrap a h = Ok (a', n) /\ alloc a' U (h :: F) /\
    a_side a' = a_side a /\ a_nodes a' = upd (a_nodes a) h fr /\ a_bump a' = a_bump a.
Proof.
  intros H Hn Hk. unfold tree_remove_unwrap, tree_remove, get_node.
  rewrite (alloc_in_bounds _ _ _ h H (or_introl eq_refl)), Hn.
  set (fr := if a_flen a =? 0 then NLastFree (a_fhead a) else NFree (a_fhead a)).
  exists (mkArena (a_side a) (a_bump a) (a_flen a + 1) h (upd (a_nodes a) h fr)), fr.
  split; [destruct Hk as [(i & ->)|(l & ->)]; reflexivity|].
  split; [|cbn; auto].
  destruct H as [H1 H2 H3 H4 H5 H6].
  assert (HP : Permutation ((h :: U) ++ F) (U ++ h :: F)) by (cbn; apply Permutation_middle).
  constructor; cbn [a_bump a_flen a_nodes a_fhead]; auto.
  - eapply Permutation_NoDup; eauto.
  - intros x Hx. apply H2. eapply Permutation_in; [symmetry; exact HP|exact Hx].
  - rewrite <- H3. f_equal. symmetry. apply Permutation_length. exact HP.
  - rewrite H5. cbn [length]. lia.
  - assert (HhF : ~ In h F).
    { inversion H1; subst. intros Hi. apply H7. apply in_or_app. auto. }
    cbn [fchain]. split; [reflexivity|]. rewrite upd_same. unfold fr. rewrite H5.
    destruct F as [|h' F']; cbn [length].
    + exists (a_fhead a). reflexivity.
    + exists (a_fhead a). split; [reflexivity|].
      eapply fchain_frame; [|exact H6]. intros x Hx. apply upd_other. congruence.
Qed.
