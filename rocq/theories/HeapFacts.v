(** The event heap refines a queue whose elements sit in fixed slots. *)
From Coq Require Import ZArith List Bool Lia ZifyBool Permutation FinFun.
From Verif Require Import Base Nodes Heap BaseFacts.
Import ListNotations.
Open Scope Z_scope.

Definition nodemap : Type := Z -> hnode.

(** A doubly linked chain through the slots [l], with predecessor [p] and successor [n]. *)
Fixpoint dl (nd : nodemap) (p : Z) (l : list Z) (n : Z) : Prop :=
  match l with
  | [] => True
  | s :: r => hn_prev (nd s) = p /\ hn_next (nd s) = hd n r /\ dl nd s r n
  end.

(** A singly linked chain of free slots. *)
Fixpoint fl (nd : nodemap) (start : Z) (l : list Z) : Prop :=
  match l with
  | [] => start = NO_NODE
  | s :: r => start = s /\ hn_prev (nd s) = NO_NODE /\ fl nd (hn_next (nd s)) r
  end.

Record heap_rep (h : heap) (L : list (event * Z)) (F : list Z) : Prop := mkHeapRep {
  hr_nodup : NoDup (map snd L ++ F);
  hr_range : forall s, In s (map snd L ++ F) -> 0 <= s < 600;
  hr_total : length (map snd L ++ F) = 600%nat;
  hr_count : h_count h = Z.of_nat (length L);
  hr_used : h_used h = hd NO_NODE (map snd L);
  hr_ring : dl (h_nodes h) (last (map snd L) NO_NODE) (map snd L) (hd NO_NODE (map snd L));
  hr_ev : forall e s, In (e, s) L -> hn_event (h_nodes h s) = e;
  hr_fl : fl (h_nodes h) (h_free h) F }.

Definition heap_ok (h : heap) (L : list (event * Z)) : Prop := exists F, heap_rep h L F.

Lemma dl_frame nd nd' p l n :
  (forall s, In s l -> hn_prev (nd' s) = hn_prev (nd s) /\ hn_next (nd' s) = hn_next (nd s)) ->
  dl nd p l n -> dl nd' p l n.
Proof.
  revert p; induction l as [|s r IH]; intros p Hf H; cbn in *; [exact I|].
  destruct H as (H1 & H2 & H3). destruct (Hf s (or_introl eq_refl)) as [-> ->].
  repeat split; auto.
Qed.

Lemma fl_frame nd nd' st l :
  (forall s, In s l -> hn_prev (nd' s) = hn_prev (nd s) /\ hn_next (nd' s) = hn_next (nd s)) ->
  fl nd st l -> fl nd' st l.
Proof.
  revert st; induction l as [|s r IH]; intros st Hf H; cbn in *; [exact H|].
  destruct H as (H1 & H2 & H3). destruct (Hf s (or_introl eq_refl)) as [-> ->].
  repeat split; auto.
Qed.

Lemma dl_app nd p l1 l2 n :
  dl nd p (l1 ++ l2) n <-> dl nd p l1 (hd n l2) /\ dl nd (last l1 p) l2 n.
Proof.
  revert p; induction l1 as [|s r IH]; intros p.
  - cbn. tauto.
  - cbn [app dl]. rewrite IH.
    replace (last (s :: r) p) with (last r s).
    2:{ clear. revert s p. induction r as [|x r IH]; intros s p; [reflexivity|].
        change (last (s :: x :: r) p) with (last (x :: r) p).
        rewrite <- (IH x p). change (last (x :: r) s) with (last (x :: r) s).
        rewrite (IH x s). reflexivity. }
    replace (hd n (r ++ l2)) with (hd (hd n l2) r) by (destruct r; reflexivity).
    tauto.
Qed.

Lemma last_default {A} (l : list A) d d' : l <> [] -> last l d = last l d'.
Proof.
  induction l as [|x [|y r] IH]; intros H; [congruence|reflexivity|].
  change (last (y :: r) d = last (y :: r) d'). apply IH. congruence.
Qed.
Lemma last_snoc {A} (l : list A) x d : last (l ++ [x]) d = x.
Proof. apply last_last. Qed.
Lemma last_in {A} (l : list A) d : l <> [] -> In (last l d) l.
Proof.
  intros H. destruct (exists_last H) as (l' & a & ->). rewrite last_last.
  apply in_or_app. right. left. reflexivity.
Qed.
Lemma last_app_ne {A} (l1 l2 : list A) d : l2 <> [] -> last (l1 ++ l2) d = last l2 d.
Proof.
  intros H. destruct (exists_last H) as (l' & a & ->). rewrite app_assoc, !last_last. reflexivity.
Qed.

(** Redirecting the [next] of the last element and the [prev] of the first. *)
Lemma dl_redirect_next nd p l n m :
  l <> [] -> NoDup l -> dl nd p l n ->
  dl (upd nd (last l p) (set_next (nd (last l p)) m)) p l m.
Proof.
  intros Hne Hnd H. destruct (exists_last Hne) as (l' & a & ->).
  rewrite last_last. apply dl_app in H as [H1 H2]. apply dl_app. split.
  - cbn [hd] in *. eapply dl_frame; [|exact H1]. intros s Hs.
    rewrite upd_other; [auto|]. intros ->. apply NoDup_remove_2 in Hnd. rewrite app_nil_r in Hnd. auto.
  - cbn in *. rewrite upd_same. cbn. tauto.
Qed.
Lemma dl_redirect_prev nd p s r n m :
  NoDup (s :: r) -> dl nd p (s :: r) n ->
  dl (upd nd s (set_prev (nd s) m)) m (s :: r) n.
Proof.
  intros Hnd (H1 & H2 & H3). inversion Hnd; subst. cbn. rewrite upd_same. cbn.
  repeat split; auto. eapply dl_frame; [|exact H3]. intros x Hx.
  rewrite upd_other; [auto|]. congruence.
Qed.

Lemma nodup_app_l {A} (l1 l2 : list A) : NoDup (l1 ++ l2) -> NoDup l1.
Proof.
  induction l1 as [|x l IH]; cbn; intros H; [constructor|]. inversion H; subst.
  constructor; auto. intros Hi. apply H2. apply in_or_app. auto.
Qed.
Lemma nodup_app_r {A} (l1 l2 : list A) : NoDup (l1 ++ l2) -> NoDup l2.
Proof. induction l1; cbn; auto. intros H. inversion H; auto. Qed.
Lemma nodup_app_disj {A} (l1 l2 : list A) x : NoDup (l1 ++ l2) -> In x l1 -> In x l2 -> False.
Proof.
  induction l1 as [|y l IH]; cbn; intros H H1 H2; [auto|]. inversion H; subst.
  destruct H1 as [->|H1]; [|eauto]. apply H4. apply in_or_app. auto.
Qed.

Lemma heap_init_fl n nd :
  (forall i, 0 <= i < 600 -> hn_prev (nd i) = NO_NODE /\
     hn_next (nd i) = if i =? 599 then NO_NODE else i + 1) ->
  (n <= 600)%nat ->
  fl nd (if Z.of_nat n =? 0 then NO_NODE else 600 - Z.of_nat n)
     (map (fun i => 600 - Z.of_nat n + Z.of_nat i) (seq 0 n)).
Proof.
  intros Hnd. induction n as [|n IH]; intros Hn.
  - cbn. reflexivity.
  - replace (Z.of_nat (S n) =? 0) with false by lia.
    cbn [seq map fl]. split; [lia|].
    replace (600 - Z.of_nat (S n) + Z.of_nat 0) with (600 - Z.of_nat (S n)) by lia.
    destruct (Hnd (600 - Z.of_nat (S n)) ltac:(lia)) as [H1 H2].
    split; [exact H1|]. rewrite H2.
    assert (IH' := IH ltac:(lia)).
    replace (map (fun i => 600 - Z.of_nat (S n) + Z.of_nat i) (seq 1 n))
      with (map (fun i => 600 - Z.of_nat n + Z.of_nat i) (seq 0 n)).
    2:{ rewrite <- seq_shift, map_map. apply map_ext. intros a. lia. }
    replace (if 600 - Z.of_nat (S n) =? 599 then NO_NODE else 600 - Z.of_nat (S n) + 1)
      with (if Z.of_nat n =? 0 then NO_NODE else 600 - Z.of_nat n); [exact IH'|].
    destruct (Z.eqb_spec (Z.of_nat n) 0); destruct (Z.eqb_spec (600 - Z.of_nat (S n)) 599); lia.
Qed.

Lemma heap_init_ok : heap_ok heap_init [].
Proof.
  exists (map (fun i => 600 - Z.of_nat 600 + Z.of_nat i) (seq 0 600)).
  constructor; cbn [map app].
  - apply FinFun.Injective_map_NoDup; [|apply seq_NoDup]. intros a b H. lia.
  - intros s H. apply in_map_iff in H as (i & <- & Hi). apply in_seq in Hi. lia.
  - rewrite map_length, seq_length. reflexivity.
  - reflexivity.
  - reflexivity.
  - exact I.
  - intros e s [].
  - assert (H := heap_init_fl 600 (h_nodes heap_init)).
    apply H; [|lia]. intros i Hi. split; reflexivity.
Qed.

Lemma heap_idx_in i : 0 <= i < 600 -> heap_idx i = Ok tt.
Proof.
  intros H. unfold heap_idx, massert, require, MAX_EVENTS.
  replace (_ && _) with true by lia. reflexivity.
Qed.

Lemma heap_rep_len h L F : heap_rep h L F -> (length L <= 600)%nat.
Proof. intros H. pose proof (hr_total _ _ _ H) as Ht. rewrite app_length, map_length in Ht. lia. Qed.

(** A slot is in use exactly when it is listed. *)
Lemma heap_slot_free h L F s : heap_rep h L F -> 0 <= s < 600 ->
  hn_is_free (h_nodes h s) = true <-> In s F.
Proof.
  intros H Hs. unfold hn_is_free. rewrite Z.eqb_eq. split.
  - intros Hp.
    assert (Hin : In s (map snd L ++ F)).
    { assert (Hincl : incl (map (fun i => Z.of_nat i) (seq 0 600)) (map snd L ++ F)).
      { apply NoDup_length_incl.
        - apply (hr_nodup _ _ _ H).
        - rewrite (hr_total _ _ _ H), map_length, seq_length. lia.
        - intros x Hx. apply (hr_range _ _ _ H) in Hx. apply in_map_iff.
          exists (Z.to_nat x). split; [lia|]. apply in_seq. lia. }
      apply Hincl. apply in_map_iff. exists (Z.to_nat s). split; [lia|]. apply in_seq. lia. }
    apply in_app_or in Hin as [Hin|Hin]; [exfalso|exact Hin].
    pose proof (hr_ring _ _ _ H) as Hr. pose proof (hr_range _ _ _ H) as Hrg.
    apply in_split in Hin as (l1 & l2 & Heq). rewrite Heq in Hr, Hrg.
    apply dl_app in Hr as [_ Hr]. cbn in Hr. destruct Hr as (Hr & _). rewrite Hp in Hr.
    assert (In NO_NODE ((l1 ++ s :: l2) ++ F)).
    { rewrite Hr. apply in_or_app. left. destruct l1 as [|x l1].
      - cbn [app last]. apply (last_in (s :: l2)). discriminate.
      - apply in_or_app. left. apply last_in. discriminate. }
    apply Hrg in H0. unfold NO_NODE in H0. lia.
  - intros Hin. pose proof (hr_fl _ _ _ H) as Hf. revert Hin Hf. generalize (h_free h).
    clear. induction F as [|x r IH]; cbn; intros st Hin Hf; [tauto|].
    destruct Hf as (H1 & H2 & H3). destruct Hin as [->|Hin]; eauto.
Qed.

Lemma at_slot_rep h L F s : heap_rep h L F -> 0 <= s ->
  at_slot h s = match find (fun p => snd p =? s) L with Some p => Some (fst p) | None => None end.
Proof.
  intros H Hs. unfold at_slot, MAX_EVENTS. replace (s <? 0) with false by lia. cbn [orb].
  destruct (find _ L) as [[e s']|] eqn:Ef.
  - apply find_some in Ef as [Hin Heq]. cbn in Heq. assert (s' = s) by lia. subst s'.
    assert (Hin' : In s (map snd L)) by (apply in_map_iff; exists (e, s); auto).
    assert (Hr : 0 <= s < 600) by (apply (hr_range _ _ _ H); apply in_or_app; auto).
    replace (600 <=? s) with false by lia. cbn [orb].
    destruct (hn_is_free _) eqn:Efree.
    + apply (heap_slot_free _ _ _ _ H Hr) in Efree. exfalso.
      eapply nodup_app_disj; [apply (hr_nodup _ _ _ H)| |]; eauto.
    + cbn. f_equal. apply (hr_ev _ _ _ H). exact Hin.
  - destruct (600 <=? s) eqn:E6; cbn [orb]; [reflexivity|].
    assert (Hr : 0 <= s < 600) by lia.
    destruct (hn_is_free _) eqn:Efree; [reflexivity|exfalso].
    assert (Hnf : ~ In s F). { intros Hin. apply (heap_slot_free _ _ _ _ H Hr) in Hin. congruence. }
    assert (Hin : In s (map snd L ++ F)).
    { assert (Hincl : incl (map (fun i => Z.of_nat i) (seq 0 600)) (map snd L ++ F)).
      { apply NoDup_length_incl.
        - apply (hr_nodup _ _ _ H).
        - rewrite (hr_total _ _ _ H), map_length, seq_length. lia.
        - intros x Hx. apply (hr_range _ _ _ H) in Hx. apply in_map_iff.
          exists (Z.to_nat x). split; [lia|]. apply in_seq. lia. }
      apply Hincl. apply in_map_iff. exists (Z.to_nat s). split; [lia|]. apply in_seq. lia. }
    apply in_app_or in Hin as [Hin|Hin]; [|auto].
    apply in_map_iff in Hin as ((e & s') & Heq & Hin). cbn in Heq. subst s'.
    apply find_none with (x := (e, s)) in Ef; [|exact Hin]. cbn in Ef. lia.
Qed.

Lemma at_slot_nonneg h s e : at_slot h s = Some e -> 0 <= s.
Proof. unfold at_slot. destruct (s <? 0) eqn:E; [discriminate|lia]. Qed.

Lemma push_back_rep h L F e h' : heap_rep h L F -> push_back h e = Ok h' ->
  exists s F', F = s :: F' /\ s = h_free h /\ heap_rep h' (L ++ [(e, s)]) F' /\ h_seq h' = h_seq h + 1.
Proof.
  intros H Hp. unfold push_back in Hp. ok_inv1 Hp. ok_inv1 E.
  unfold heap_is_full, MAX_EVENTS in E.
  pose proof (hr_count _ _ _ H) as Hc. pose proof (heap_rep_len _ _ _ H) as Hlen.
  pose proof (hr_total _ _ _ H) as Ht. rewrite app_length, map_length in Ht.
  destruct F as [|s F']; [cbn in Ht; lia|].
  pose proof (hr_fl _ _ _ H) as Hf. cbn in Hf. destruct Hf as (Hfs & Hfp & Hfn).
  exists s, F'. split; [reflexivity|]. split; [auto|].
  rewrite Hfs in Hp. ok_inv1 Hp. clear E0 x0.
  pose proof (hr_nodup _ _ _ H) as Hnd.
  pose proof (NoDup_remove_2 _ _ _ Hnd) as Hns.
  pose proof (NoDup_remove_1 _ _ _ Hnd) as Hnd'.
  assert (HsL : ~ In s (map snd L)) by (intros Hi; apply Hns; apply in_or_app; auto).
  assert (HsF : ~ In s F') by (intros Hi; apply Hns; apply in_or_app; auto).
  ok_inv1 Hp. destruct x0 as [[[used' nn] np] nodes'].
  ok_inv1 Hp. ok_inv1 E1. injection Hp as <-. subst x0.
  split; [|reflexivity].
  assert (Hsplit : NoDup (map snd (L ++ [(e, s)]) ++ F')).
  { rewrite map_app, <- app_assoc. cbn. exact Hnd. }
  unfold heap_is_empty in E0. rewrite Hc in E0.
  destruct L as [|[e0 s0] L0].
  - cbn [length Z.of_nat Z.eqb] in E0. injection E0 as <- <- <- <-.
    constructor; cbn [h_nodes h_count h_used h_free map snd app length] in *.
    + exact Hsplit.
    + intros x0 Hx. apply (hr_range _ _ _ H). exact Hx.
    + pose proof (hr_total _ _ _ H) as Ht'. cbn in Ht'. exact Ht'.
    + lia.
    + reflexivity.
    + cbn. rewrite upd_same. cbn. auto.
    + intros e1 s1 [Hin|[]]. injection Hin as <- <-. rewrite upd_same. reflexivity.
    + eapply fl_frame; [|exact Hfn]. intros x0 Hx. rewrite upd_other; [auto|congruence].
  - replace (Z.of_nat (length ((e0, s0) :: L0)) =? 0) with false in E0 by (cbn [length]; lia).
    pose proof (hr_used _ _ _ H) as Hu. cbn [map hd snd] in Hu. rewrite Hu in E0.
    pose proof (hr_ring _ _ _ H) as Hr.
    remember (map snd L0) as l0 eqn:Hl0.
    assert (HL : map snd ((e0, s0) :: L0) = s0 :: l0) by (cbn; rewrite Hl0; reflexivity).
    rewrite HL in *.
    assert (Hprev : hn_prev (h_nodes h s0) = last (s0 :: l0) NO_NODE).
    { cbn [dl] in Hr. apply Hr. }
    remember (last (s0 :: l0) NO_NODE) as lst eqn:Hlst.
    ok_inv1 E0. rewrite Hprev in E0. ok_inv1 E0. injection E0 as <- <- <- <-.
    assert (Hlin : In lst (s0 :: l0)) by (rewrite Hlst; apply last_in; discriminate).
    assert (Hnd0 : NoDup (s0 :: l0)) by (eapply nodup_app_l; exact Hnd').
    set (n1 := upd (h_nodes h) lst (set_next (h_nodes h lst) s)).
    set (n2 := upd n1 s0 (set_prev (n1 s0) s)).
    assert (Hd1 : dl n1 lst (s0 :: l0) s).
    { unfold n1. pose proof (dl_redirect_next (h_nodes h) lst (s0 :: l0) s0 s) as Hx.
      replace (last (s0 :: l0) lst) with lst in Hx
        by (rewrite Hlst; apply last_default; discriminate).
      apply Hx; [discriminate|auto|]. exact Hr. }
    assert (Hd2 : dl n2 s (s0 :: l0) s).
    { unfold n2. eapply dl_redirect_prev; eauto. }
    assert (Hev : forall x, hn_event (n2 x) = hn_event (h_nodes h x)).
    { intros y. unfold n2, upd. destruct (Z.eqb_spec y s0) as [->|]; cbn.
      - unfold n1, upd. destruct (Z.eqb_spec s0 lst) as [<-|]; cbn; reflexivity.
      - unfold n1, upd. destruct (Z.eqb_spec y lst) as [->|]; cbn; reflexivity. }
    constructor; cbn [h_nodes h_count h_used h_free]; rewrite ?map_app, ?HL.
    + rewrite <- app_assoc. exact Hnd.
    + intros y Hy. apply (hr_range _ _ _ H). rewrite HL, <- app_assoc in *. exact Hy.
    + rewrite <- app_assoc. pose proof (hr_total _ _ _ H) as Ht'. rewrite HL in Ht'. exact Ht'.
    + rewrite app_length, Hc. cbn [length]. lia.
    + reflexivity.
    + cbn [map snd]. rewrite last_snoc. change (hd NO_NODE ((s0 :: l0) ++ [s])) with s0.
      apply dl_app. cbn [hd]. split.
      * eapply dl_frame; [|exact Hd2]. intros y Hy. rewrite upd_other; [auto|]. intros ->. exact (HsL Hy).
      * replace (last (s0 :: l0) s) with lst
          by (rewrite Hlst; apply last_default; discriminate).
        cbn. rewrite upd_same. cbn. auto.
    + intros e1 s1 Hin. apply in_app_or in Hin as [Hin|[Hin|[]]].
      * rewrite upd_other.
        -- rewrite Hev. apply (hr_ev _ _ _ H). exact Hin.
        -- intros ->. apply HsL. rewrite <- HL. apply in_map_iff. exists (e1, s). auto.
      * injection Hin as <- <-. rewrite upd_same. reflexivity.
    + eapply fl_frame; [|exact Hfn]. intros y Hy.
      assert (y <> s) by congruence.
      assert (~ In y (s0 :: l0)).
      { intros Hi. eapply (nodup_app_disj (s0 :: l0) F'); [|exact Hi|exact Hy].
        exact Hnd'. }
      rewrite upd_other by auto. unfold n2, n1.
      rewrite !upd_other; auto; intros ->; cbn in H1; tauto.
Qed.

Lemma push_back_succeeds h L e : heap_ok h L -> (length L < 600)%nat ->
  h_seq h < 18446744073709551615 -> 0 <= h_seq h -> exists h', push_back h e = Ok h'.
Proof.
  intros (F & H) Hlt Hs0 Hs1. unfold push_back, heap_is_full, heap_is_empty, MAX_EVENTS.
  pose proof (hr_count _ _ _ H) as Hc. pose proof (hr_total _ _ _ H) as Ht.
  rewrite app_length, map_length in Ht.
  replace (h_count h =? 600) with false by lia. cbn [negb massert require bind].
  destruct F as [|s F']; [cbn in Ht; lia|].
  pose proof (hr_fl _ _ _ H) as (Hfs & _ & _). pose proof (hr_range _ _ _ H) as Hrg.
  rewrite heap_idx_in by (rewrite Hfs; apply Hrg; apply in_or_app; right; left; reflexivity).
  cbn [bind].
  destruct (h_count h =? 0) eqn:E0; cbn [bind].
  - rewrite chk_u64_in by lia. cbn [bind]. eauto.
  - destruct L as [|[e0 s0] L0]; [cbn in Hc; lia|].
    pose proof (hr_used _ _ _ H) as Hu. cbn [map hd snd] in Hu. rewrite Hu.
    rewrite heap_idx_in by (apply Hrg; left; reflexivity). cbn [bind].
    pose proof (hr_ring _ _ _ H) as Hr. cbn [map dl snd] in Hr. destruct Hr as (Hp & _).
    rewrite Hp. rewrite heap_idx_in.
    + cbn [bind]. rewrite chk_u64_in by lia. cbn [bind]. eauto.
    + apply Hrg. apply in_or_app. left. apply (last_in (s0 :: map snd L0)). discriminate.
Qed.

(** Deleting the slot between [l1] and [l2] of a ring. *)
Lemma dl_delete nd x l1 l2 :
  NoDup (l1 ++ x :: l2) ->
  dl nd (last (l1 ++ x :: l2) NO_NODE) (l1 ++ x :: l2) (hd NO_NODE (l1 ++ x :: l2)) ->
  let ps := hn_prev (nd x) in
  let ns := hn_next (nd x) in
  let n1 := upd nd ps (set_next (nd ps) ns) in
  let n2 := upd n1 ns (set_prev (n1 ns) ps) in
  In ps (l1 ++ x :: l2) /\ In ns (l1 ++ x :: l2) /\
  dl n2 (last (l1 ++ l2) NO_NODE) (l1 ++ l2) (hd NO_NODE (l1 ++ l2)) /\
  (l1 = [] -> l2 <> [] -> ns = hd NO_NODE l2).
Proof.
  intros Hnd H. cbv zeta.
  pose proof (NoDup_remove_2 _ _ _ Hnd) as Hx. pose proof (NoDup_remove_1 _ _ _ Hnd) as Hnd'.
  assert (Hnd1 : NoDup l1) by (eapply nodup_app_l; exact Hnd').
  assert (Hnd2 : NoDup l2) by (eapply nodup_app_r; exact Hnd').
  assert (Hx1 : ~ In x l1) by (intros Hi; apply Hx, in_or_app; auto).
  assert (Hx2 : ~ In x l2) by (intros Hi; apply Hx, in_or_app; auto).
  assert (Hdisj : forall y, In y l1 -> In y l2 -> False) by (intros y; eapply nodup_app_disj; eauto).
  apply dl_app in H as [H1 H2]. cbn [hd dl] in H1, H2. destruct H2 as (Hp & Hn & H2).
  destruct l2 as [|y2 l2]; [destruct l1 as [|y1 l1]|].
  - (* only element *)
    cbn in *. rewrite Hp, Hn. repeat split; auto. congruence.
  - (* last element *)
    rewrite app_nil_r in *. rewrite last_snoc in *.
    change (hd NO_NODE ((y1 :: l1) ++ [x])) with y1 in *. cbn [hd] in Hn.
    assert (Hlast : last (y1 :: l1) x = last (y1 :: l1) NO_NODE) by (apply last_default; discriminate).
    rewrite Hlast in Hp. rewrite Hp, Hn.
    set (lst := last (y1 :: l1) NO_NODE) in *.
    assert (Hlin : In lst (y1 :: l1)) by (apply last_in; discriminate).
    split; [apply in_or_app; auto|]. split; [left; reflexivity|]. split; [|intros HH; discriminate HH].
    set (n1 := upd nd lst (set_next (nd lst) y1)).
    assert (Hd1 : dl n1 x (y1 :: l1) y1).
    { unfold n1. pose proof (dl_redirect_next nd x (y1 :: l1) x y1) as Hd.
      rewrite Hlast in Hd. apply Hd; [discriminate|auto|exact H1]. }
    pose proof (dl_redirect_prev n1 x y1 l1 y1 lst Hnd1 Hd1) as Hd2. exact Hd2.
  - (* something after *)
    cbn [hd] in Hn. rewrite Hn.
    destruct l1 as [|y1 l1].
    + (* first element *)
      cbn [app last] in *. change (last (x :: y2 :: l2) NO_NODE) with (last (y2 :: l2) NO_NODE) in *.
      set (lst := last (y2 :: l2) NO_NODE) in *. rewrite Hp.
      assert (Hlin : In lst (y2 :: l2)) by (apply last_in; discriminate).
      split; [right; exact Hlin|]. split; [right; left; reflexivity|]. split; [|intros _ _; reflexivity].
      cbn [hd].
      set (n1 := upd nd lst (set_next (nd lst) y2)).
      assert (Hd1 : dl n1 x (y2 :: l2) y2).
      { unfold n1. pose proof (dl_redirect_next nd x (y2 :: l2) x y2) as Hd.
        replace (last (y2 :: l2) x) with lst in Hd by (apply last_default; discriminate).
        apply Hd; [discriminate|auto|exact H2]. }
      apply (dl_redirect_prev n1 x y2 l2 y2 lst Hnd2 Hd1).
    + (* middle *)
      set (p := last ((y1 :: l1) ++ x :: y2 :: l2) NO_NODE) in *.
      change (hd NO_NODE ((y1 :: l1) ++ x :: y2 :: l2)) with y1 in *.
      set (a := last (y1 :: l1) p) in *. rewrite Hp.
      assert (Ha : In a (y1 :: l1)) by (apply last_in; discriminate).
      split; [apply in_or_app; auto|].
      split; [apply in_or_app; right; right; left; reflexivity|].
      split; [|intros HH; discriminate HH].
      assert (Hpp : last ((y1 :: l1) ++ y2 :: l2) NO_NODE = p).
      { unfold p. rewrite (last_app_ne (y1 :: l1) (y2 :: l2)) by discriminate.
        rewrite (last_app_ne (y1 :: l1) (x :: y2 :: l2)) by discriminate. reflexivity. }
      rewrite Hpp. change (hd NO_NODE ((y1 :: l1) ++ y2 :: l2)) with y1.
      set (n1 := upd nd a (set_next (nd a) y2)).
      assert (Hd1 : dl n1 p (y1 :: l1) y2).
      { unfold n1. apply (dl_redirect_next nd p (y1 :: l1) x y2); [discriminate|auto|exact H1]. }
      assert (Hd2 : dl n1 x (y2 :: l2) y1).
      { eapply dl_frame; [|exact H2]. intros s Hs. unfold n1. rewrite upd_other; [auto|].
        intros ->. eapply Hdisj; eauto. }
      apply dl_app. cbn [hd]. fold a. split.
      * eapply dl_frame; [|exact Hd1]. intros s Hs. rewrite upd_other; [auto|].
        intros ->. eapply Hdisj; [exact Hs|left; reflexivity].
      * apply (dl_redirect_prev n1 x y2 l2 y1 a Hnd2 Hd2).
Qed.

Lemma map_snd_split (L : list (event * Z)) s :
  In s (map snd L) -> exists L1 e L2, L = L1 ++ (e, s) :: L2.
Proof.
  intros H. apply in_map_iff in H as ([e s'] & Heq & Hin). cbn in Heq. subst s'.
  apply in_split in Hin as (L1 & L2 & ->). eauto.
Qed.

Lemma delete_slot_rep h L1 e s L2 F : heap_rep h (L1 ++ (e, s) :: L2) F ->
  exists h', delete_slot h s = Ok (h', e) /\ heap_rep h' (L1 ++ L2) (s :: F) /\ h_seq h' = h_seq h.
Proof.
  intros H. pose proof (hr_count _ _ _ H) as Hc.
  set (l1 := map snd L1). set (l2 := map snd L2).
  assert (HL : map snd (L1 ++ (e, s) :: L2) = l1 ++ s :: l2) by (rewrite map_app; reflexivity).
  pose proof (hr_nodup _ _ _ H) as Hnd0. pose proof (hr_range _ _ _ H) as Hrg.
  pose proof (hr_ring _ _ _ H) as Hr. pose proof (hr_total _ _ _ H) as Ht.
  pose proof (hr_used _ _ _ H) as Hu.
  rewrite HL in Hnd0, Hrg, Hr, Ht, Hu.
  assert (Hs : 0 <= s < 600).
  { apply Hrg. apply in_or_app. left. apply in_or_app. right. left. reflexivity. }
  assert (Hnf : hn_is_free (h_nodes h s) = false).
  { destruct (hn_is_free _) eqn:Ef; [exfalso|reflexivity].
    apply (heap_slot_free _ _ _ _ H Hs) in Ef.
    eapply nodup_app_disj; [exact Hnd0| |exact Ef]. apply in_or_app. right. left. reflexivity. }
  assert (Hnd : NoDup (l1 ++ s :: l2)) by (eapply nodup_app_l; exact Hnd0).
  destruct (dl_delete (h_nodes h) s l1 l2 Hnd Hr) as (Hps & Hns & Hdl & Hhd).
  assert (Hps' : 0 <= hn_prev (h_nodes h s) < 600) by (apply Hrg; apply in_or_app; auto).
  assert (Hns' : 0 <= hn_next (h_nodes h s) < 600) by (apply Hrg; apply in_or_app; auto).
  unfold delete_slot, MAX_EVENTS, heap_is_empty.
  replace (600 <=? s) with false by lia.
  rewrite app_length in Hc. cbn [length] in Hc.
  replace (h_count h =? 0) with false by lia. rewrite Hnf. cbn [orb]. cbv zeta.
  rewrite (heap_idx_in _ Hps'), (heap_idx_in _ Hns'). cbn [bind].
  set (ps := hn_prev (h_nodes h s)) in *. set (ns := hn_next (h_nodes h s)) in *.
  set (n1 := upd (h_nodes h) ps (set_next (h_nodes h ps) ns)) in *.
  set (n2 := upd n1 ns (set_prev (n1 ns) ps)) in *.
  assert (Hev : forall x, hn_event (n2 x) = hn_event (h_nodes h x)).
  { intros y. unfold n2, upd. destruct (Z.eqb_spec y ns) as [->|]; cbn.
    - unfold n1, upd. destruct (Z.eqb_spec ns ps) as [<-|]; cbn; reflexivity.
    - unfold n1, upd. destruct (Z.eqb_spec y ps) as [->|]; cbn; reflexivity. }
  eexists. split; [f_equal; f_equal; rewrite Hev; apply (hr_ev _ _ _ H);
                   apply in_or_app; right; left; reflexivity|].
  split; [|reflexivity].
  assert (HL' : map snd (L1 ++ L2) = l1 ++ l2) by (rewrite map_app; reflexivity).
  pose proof (NoDup_remove_2 _ _ _ Hnd) as Hxs.
  assert (Hperm : forall y, In y ((l1 ++ l2) ++ s :: F) <-> In y ((l1 ++ s :: l2) ++ F)).
  { intros y. rewrite !in_app_iff. cbn [In]. tauto. }
  constructor; cbn [h_nodes h_count h_used h_free]; rewrite ?HL'.
  - apply (Permutation.Permutation_NoDup (l := (l1 ++ s :: l2) ++ F)); [|exact Hnd0].
    rewrite <- !app_assoc. cbn. apply Permutation.Permutation_app_head.
    apply Permutation.Permutation_middle.
  - intros y Hy. apply Hrg. apply Hperm. exact Hy.
  - rewrite !app_length in *. cbn [length] in *. lia.
  - rewrite app_length. lia.
  - rewrite Hu. unfold l1, l2 in *. clear Hdl Hr.
    destruct L1 as [|[e1 s1] L1]; cbn [map app hd snd] in *.
    + rewrite Z.eqb_refl. destruct L2 as [|[e2 s2] L2]; cbn [map app hd snd length] in *.
      * replace (h_count h =? 1) with true by lia. reflexivity.
      * replace (h_count h =? 1) with false by lia. apply Hhd; [reflexivity|discriminate].
    + replace (h_count h =? 1) with false by (cbn [length] in Hc; lia).
      destruct (Z.eqb_spec s1 s) as [->|]; [|reflexivity].
      exfalso. apply Hxs. left. reflexivity.
  - eapply dl_frame; [|exact Hdl]. intros y Hy. rewrite upd_other; [auto|].
    intros ->. apply Hxs. exact Hy.
  - intros e1 s1 Hin. rewrite upd_other.
    + rewrite Hev. apply (hr_ev _ _ _ H). apply in_app_or in Hin. apply in_or_app. cbn. tauto.
    + intros ->. apply Hxs. rewrite <- HL'. apply in_map_iff. exists (e1, s). auto.
  - cbn [fl]. rewrite upd_same. cbn. repeat split.
    eapply fl_frame; [|apply (hr_fl _ _ _ H)]. intros y Hy.
    assert (Hy' : ~ In y (l1 ++ s :: l2)) by (intros Hi; exact (nodup_app_disj _ _ _ Hnd0 Hi Hy)).
    assert (y <> s) by (intros ->; apply Hy'; apply in_or_app; right; left; reflexivity).
    rewrite upd_other by auto. unfold n2, n1.
    rewrite !upd_other; auto; intros ->; apply Hy'; assumption.
Qed.

Lemma delete_slot_ok h L s h' e : heap_ok h L -> 0 <= s -> delete_slot h s = Ok (h', e) ->
  exists L1 L2, L = L1 ++ (e, s) :: L2 /\ heap_ok h' (L1 ++ L2).
Proof.
  intros (F & H) Hs Hd.
  destruct (at_slot h s) as [ev|] eqn:Ea.
  - rewrite (at_slot_rep _ _ _ _ H Hs) in Ea.
    destruct (find _ L) as [[ev' s']|] eqn:Ef; [|discriminate].
    apply find_some in Ef as [Hin Heq]. cbn in Heq. assert (s' = s) by lia. subst s'.
    apply in_split in Hin as (L1 & L2 & ->).
    destruct (delete_slot_rep _ _ _ _ _ _ H) as (h2 & Hd2 & Hr & _).
    rewrite Hd in Hd2. injection Hd2 as <- <-. exists L1, L2. split; [reflexivity|]. eexists; eauto.
  - exfalso. unfold at_slot in Ea. replace (s <? 0) with false in Ea by lia. cbn [orb] in Ea. unfold delete_slot in Hd.
    destruct (MAX_EVENTS <=? s); [discriminate|].
    destruct (hn_is_free _); [|discriminate].
    cbn [orb] in *. rewrite orb_true_r in Hd. discriminate.
Qed.

Lemma heap_iter_loop_dl h l n p :
  (forall s, In s l -> 0 <= s < 600) -> dl (h_nodes h) p l n ->
  heap_iter_loop (length l) h (hd n l) = Ok (map (fun s => (hn_event (h_nodes h s), s)) l).
Proof.
  revert p. induction l as [|s r IH]; intros p Hrg H; [reflexivity|].
  cbn [length heap_iter_loop hd]. rewrite heap_idx_in by (apply Hrg; left; reflexivity).
  cbn [bind]. cbn [dl] in H. destruct H as (_ & -> & H).
  rewrite (IH s); [reflexivity| |exact H]. intros y Hy. apply Hrg. right. exact Hy.
Qed.

Lemma heap_iter_rep h L : heap_ok h L -> heap_iter h = Ok L.
Proof.
  intros (F & H). unfold heap_iter. rewrite (hr_count _ _ _ H), Nat2Z.id, (hr_used _ _ _ H).
  rewrite <- (map_length snd L).
  pose proof (hr_ring _ _ _ H) as Hr.
  destruct L as [|[e0 s0] L0] eqn:EL; [reflexivity|]. rewrite <- EL in *.
  assert (Hne : map snd L <> []) by (rewrite EL; discriminate).
  replace (hd NO_NODE (map snd L)) with (hd (hd NO_NODE (map snd L)) (map snd L))
    by (destruct (map snd L); [congruence|reflexivity]).
  erewrite heap_iter_loop_dl; [| |exact Hr].
  - f_equal. rewrite map_map. rewrite <- (map_id L) at 2. apply map_ext_in.
    intros [e s] Hin. cbn. f_equal. apply (hr_ev _ _ _ H). exact Hin.
  - intros s Hs. apply (hr_range _ _ _ H). apply in_or_app. auto.
Qed.

Lemma heap_front_rep h L : heap_ok h L ->
  heap_front h = Ok (match L with [] => None | (e, _) :: _ => Some e end).
Proof.
  intros (F & H). unfold heap_front, heap_is_empty. rewrite (hr_count _ _ _ H).
  destruct L as [|[e s] L]; [reflexivity|].
  replace (Z.of_nat (length ((e, s) :: L)) =? 0) with false by (cbn [length]; lia).
  rewrite (hr_used _ _ _ H). cbn [map hd snd].
  rewrite heap_idx_in by (apply (hr_range _ _ _ H); left; reflexivity). cbn [bind].
  do 2 f_equal. apply (hr_ev _ _ _ H). left. reflexivity.
Qed.

Lemma pop_front_rep h e s L : heap_ok h ((e, s) :: L) ->
  exists h', pop_front h = Ok (h', e) /\ heap_ok h' L.
Proof.
  intros (F & H). unfold pop_front. rewrite (hr_used _ _ _ H). cbn [map hd snd].
  destruct (delete_slot_rep h [] e s L F H) as (h' & Hd & Hr & _).
  exists h'. split; [exact Hd|]. eexists; exact Hr.
Qed.
