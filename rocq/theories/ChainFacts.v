(** Facts about the client's cache of accounts. *)
From Coq Require Import ZArith List Bool Lia ZifyBool.
From Verif Require Import Base BaseFacts ChainData SpecChain.
Import ListNotations.
Open Scope Z_scope.

(** ** Maps *)
Lemma map_get_set {A} k (a : A) k' m : map_get k' (map_set k a m) = if k =? k' then Some a else map_get k' m.
Proof.
  induction m as [|[j b] m IH]; cbn [map_set map_get]; [reflexivity|].
  destruct (Z.eqb_spec j k) as [->|Hj]; cbn [map_get].
  - destruct (Z.eqb_spec k k'); reflexivity.
  - rewrite IH. destruct (Z.eqb_spec j k'), (Z.eqb_spec k k'); try reflexivity. lia.
Qed.
Lemma map_get_filter {A} (f : Z -> bool) k (m : list (Z * A)) :
  map_get k (filter (fun x => f (fst x)) m) = if f k then map_get k m else None.
Proof.
  induction m as [|[j b] m IH]; cbn [filter map_get fst]; [destruct (f k); reflexivity|].
  destruct (f j) eqn:E; cbn [map_get]; rewrite IH; destruct (Z.eqb_spec j k) as [->|]; try reflexivity; rewrite E; reflexivity.
Qed.
Lemma map_get_in {A} k (a : A) m : map_get k m = Some a -> In (k, a) m.
Proof.
  induction m as [|[j b] m IH]; cbn [map_get]; [discriminate|].
  destruct (Z.eqb_spec j k) as [->|]; intros H; [injection H as ->; left; reflexivity|right; auto].
Qed.
Lemma map_set_keys {A} k (a : A) m : NoDup (map fst m) -> NoDup (map fst (map_set k a m)) /\
  forall j, In j (map fst (map_set k a m)) <-> j = k \/ In j (map fst m).
Proof.
  induction m as [|[j b] m IH]; intros Hn; cbn [map_set map fst].
  - split; [constructor; [intros []|constructor]|]. cbn. intuition.
  - cbn [map fst] in Hn. inversion Hn as [|x l Hx Hl]; subst. destruct (Z.eqb_spec j k) as [->|Hj]; cbn [map fst].
    + split; [exact Hn|]. cbn. intuition.
    + destruct (IH Hl) as [H1 H2]. split.
      * constructor; [|exact H1]. rewrite H2. intuition.
      * intros i. cbn. rewrite H2. intuition.
Qed.

(** ** The list of writes *)
Fixpoint ins (w : write) (l : list write) : list write :=
  match l with
  | [] => [w]
  | x :: r => if wr_slot x <=? wr_slot w then x :: ins w r else w :: x :: r
  end.
Inductive ascending : list write -> Prop :=
| asc_nil : ascending []
| asc_cons x l : (forall y, In y l -> wr_slot x <= wr_slot y) -> ascending l -> ascending (x :: l).

Lemma ins_in w l x : In x (ins w l) <-> x = w \/ In x l.
Proof.
  induction l as [|y l IH]; cbn [ins]; [cbn; intuition|].
  destruct (wr_slot y <=? wr_slot w); cbn [In]; [rewrite IH|]; intuition.
Qed.
Lemma ins_ascending w l : ascending l -> ascending (ins w l).
Proof.
  induction 1 as [|x l Hx Hl IH]; cbn [ins]; [constructor; [intros y []|constructor]|].
  destruct (Z.leb_spec (wr_slot x) (wr_slot w)).
  - constructor; [|exact IH]. intros y Hy. apply ins_in in Hy as [->|Hy]; auto.
  - constructor; [|constructor; assumption]. intros y [<-|Hy]; [lia|]. specialize (Hx y Hy). lia.
Qed.

Lemma ascending_split l1 l2 : ascending (l1 ++ l2) -> ascending l1 /\ ascending l2 /\
  forall x y, In x l1 -> In y l2 -> wr_slot x <= wr_slot y.
Proof.
  induction l1 as [|x l1 IH]; cbn [app]; intros H.
  - split; [constructor|]. split; [exact H|]. intros x y [].
  - inversion H as [|x' l' Hx Hl]; subst. destruct (IH Hl) as (H1 & H2 & H3). split; [|split; [exact H2|]].
    + constructor; [|exact H1]. intros y Hy. apply Hx. apply in_or_app. left. exact Hy.
    + intros a b [<-|Ha] Hb; [apply Hx, in_or_app; right; exact Hb|exact (H3 a b Ha Hb)].
Qed.
Lemma ascending_app l1 l2 : ascending l1 -> ascending l2 -> (forall x y, In x l1 -> In y l2 -> wr_slot x <= wr_slot y) ->
  ascending (l1 ++ l2).
Proof.
  induction 1 as [|x l Hx Hl IH]; intros H2 H3; cbn [app]; [exact H2|]. constructor.
  - intros y Hy. apply in_app_or in Hy as [Hy|Hy]; [auto|]. apply H3; [left; reflexivity|exact Hy].
  - apply IH; [exact H2|]. intros a b Ha Hb. apply H3; [right; exact Ha|exact Hb].
Qed.

(** Where a write goes: after the last one with a slot that is not larger. *)
Lemma position_split {A} (p : A -> bool) l : match position p l with
  | Some n => exists l1 x l2, l = l1 ++ x :: l2 /\ length l1 = n /\ p x = true /\ forall y, In y l1 -> p y = false
  | None => forall y, In y l -> p y = false
  end.
Proof.
  induction l as [|x l IH]; cbn [position]; [intros y []|]. destruct (p x) eqn:E.
  - exists [], x, l. repeat split; auto. intros y [].
  - destruct (position p l) as [n|]; cbn [option_map].
    + destruct IH as (l1 & y & l2 & -> & Hn & Hy & Hl). exists (x :: l1), y, l2. repeat split; auto; [cbn; lia|].
      intros z [<-|Hz]; auto.
    + intros y [<-|Hy]; auto.
Qed.
Lemma ins_split w l1 l2 : (forall x, In x l1 -> wr_slot x <= wr_slot w) -> (forall x, In x l2 -> wr_slot w < wr_slot x) ->
  ins w (l1 ++ l2) = l1 ++ w :: l2.
Proof.
  induction l1 as [|x l1 IH]; intros H1 H2; cbn [app ins].
  - destruct l2 as [|y l2]; [reflexivity|]. cbn [ins]. specialize (H2 y (or_introl eq_refl)).
    destruct (Z.leb_spec (wr_slot y) (wr_slot w)); [lia|reflexivity].
  - pose proof (H1 x (or_introl eq_refl)). destruct (Z.leb_spec (wr_slot x) (wr_slot w)); [|lia].
    f_equal. apply IH; [|exact H2]. intros y Hy. apply H1. right. exact Hy.
Qed.
Lemma insert_write_is l w : ascending l -> insert_write l w = ins w l.
Proof.
  intros Ha. unfold insert_write. pose proof (position_split (fun d => wr_slot d <=? wr_slot w) (rev l)) as Hp.
  assert (G : exists l1 l2, l = l1 ++ l2 /\
    Nat.sub (length l) (match position (fun d => wr_slot d <=? wr_slot w) (rev l) with Some n => n | None => length l end) = length l1 /\
    (forall x, In x l1 -> wr_slot x <= wr_slot w) /\ (forall x, In x l2 -> wr_slot w < wr_slot x)).
  { destruct (position _ (rev l)) as [n|].
    - destruct Hp as (r1 & x & r2 & E & Hn & Hx & Hr). exists (rev (x :: r2)), (rev r1).
      assert (El : l = rev (x :: r2) ++ rev r1) by (rewrite <- rev_app_distr, <- E, rev_involutive; reflexivity).
      split; [exact El|]. split.
      { rewrite El at 1. rewrite app_length, !rev_length. lia. }
      split.
      + rewrite El in Ha. cbn [rev] in *. rewrite <- app_assoc in Ha. apply ascending_split in Ha as (_ & _ & Ha).
        intros y Hy. apply in_app_or in Hy as [Hy|[<-|[]]]; [|lia].
        specialize (Ha y x Hy (or_introl eq_refl)). lia.
      + intros y Hy. rewrite <- in_rev in Hy. specialize (Hr y Hy). lia.
    - exists [], l. split; [reflexivity|]. split; [cbn; lia|]. split; [intros x []|].
      intros x Hx. rewrite in_rev in Hx. specialize (Hp x Hx). lia. }
  destruct G as (l1 & l2 & El & -> & H1 & H2). rewrite (f_equal (ins w) El), ins_split by assumption. subst l.
  assert (F : firstn (length l1) (l1 ++ l2) = l1) by (rewrite firstn_app, Nat.sub_diag, firstn_all, app_nil_r; reflexivity).
  assert (S0 : skipn (length l1) (l1 ++ l2) = l2) by (rewrite skipn_app, Nat.sub_diag, skipn_all; reflexivity).
  rewrite F, S0. destruct (nth_error (l1 ++ l2) (length l1)) as [d|] eqn:E; [|reflexivity].
  rewrite nth_error_app2, Nat.sub_diag in E by lia. destruct l2 as [|y l2]; [discriminate|]. injection E as <-.
  specialize (H2 y (or_introl eq_refl)). destruct (Z.eqb_spec (wr_slot y) (wr_slot w)); [lia|reflexivity].
Qed.

(** The stored list, from the writes in the order received. *)
Definition stored (K : list write) : list write := fold_left (fun l w => ins w l) K [].
Lemma stored_snoc K w : stored (K ++ [w]) = ins w (stored K).
Proof. unfold stored. rewrite fold_left_app. reflexivity. Qed.
Lemma stored_ascending K : ascending (stored K).
Proof. induction K as [|w K IH] using rev_ind; [constructor|]. rewrite stored_snoc. apply ins_ascending. exact IH. Qed.
Lemma stored_in K w : In w (stored K) <-> In w K.
Proof.
  induction K as [|x K IH] using rev_ind; [reflexivity|]. rewrite stored_snoc, ins_in, IH, in_app_iff. cbn. intuition.
Qed.
Lemma filter_ins p w l : ascending l -> filter p (ins w l) = if p w then ins w (filter p l) else filter p l.
Proof.
  induction 1 as [|x l Hx Hl IH]; cbn [ins filter]; [reflexivity|].
  destruct (Z.leb_spec (wr_slot x) (wr_slot w)); cbn [filter].
  - rewrite IH. destruct (p x), (p w); try reflexivity. cbn [ins]. destruct (Z.leb_spec (wr_slot x) (wr_slot w)); [reflexivity|lia].
  - destruct (p x) eqn:Ex, (p w) eqn:Ew; try reflexivity.
    + cbn [ins]. destruct (Z.leb_spec (wr_slot x) (wr_slot w)); [lia|reflexivity].
    + rewrite <- (app_nil_l (filter p l)) at 2. rewrite ins_split; [reflexivity|intros y []|].
      intros y Hy. apply filter_In in Hy as [Hy _]. specialize (Hx y Hy). lia.
Qed.
Lemma filter_stored p K : filter p (stored K) = stored (filter p K).
Proof.
  induction K as [|w K IH] using rev_ind; [reflexivity|]. rewrite stored_snoc, filter_ins by apply stored_ascending.
  rewrite filter_app. cbn [filter]. destruct (p w); [rewrite stored_snoc, IH; reflexivity|rewrite app_nil_r; exact IH].
Qed.

(** Reading the last one with a property. *)
Lemma find_rev_app {A} (p : A -> bool) l x : find p (rev (l ++ [x])) = if p x then Some x else find p (rev l).
Proof. rewrite rev_unit. reflexivity. Qed.
Lemma find_none_iff {A} (p : A -> bool) l : find p l = None <-> forall x, In x l -> p x = false.
Proof.
  split; [intros H x; apply find_none; exact H|]. induction l as [|x l IH]; intros H; cbn [find]; [reflexivity|].
  rewrite (H x (or_introl eq_refl)). apply IH. intros y Hy. apply H. right. exact Hy.
Qed.
Lemma find_last_split {A} (p : A -> bool) l w : find p (rev l) = Some w ->
  p w = true /\ exists l1 l2, l = l1 ++ w :: l2 /\ forall x, In x l2 -> p x = false.
Proof.
  induction l as [|x l IH] using rev_ind; [discriminate|]. rewrite find_rev_app. destruct (p x) eqn:E; intros H.
  - injection H as <-. split; [exact E|]. exists l, []. split; [reflexivity|intros y []].
  - destruct (IH H) as (Hp & l1 & l2 & -> & Hl). split; [exact Hp|]. exists l1, (l2 ++ [x]).
    split; [rewrite <- app_assoc; reflexivity|]. intros y Hy. apply in_app_or in Hy as [Hy|[<-|[]]]; auto.
Qed.
Lemma find_last_iff {A} (p : A -> bool) l w : p w = true -> forall l1 l2, l = l1 ++ w :: l2 ->
  (forall x, In x l2 -> p x = false) -> find p (rev l) = Some w.
Proof.
  intros Hp l1 l2 -> H. replace (l1 ++ w :: l2) with ((l1 ++ [w]) ++ l2) by (rewrite <- app_assoc; reflexivity).
  rewrite rev_app_distr, rev_unit.
  assert (G : forall r, (forall x, In x r -> p x = false) -> forall t, find p (r ++ t) = find p t).
  { induction r as [|x r IH]; intros Hr t; cbn [app find]; [reflexivity|]. rewrite (Hr x (or_introl eq_refl)).
    apply IH. intros y Hy. apply Hr. right. exact Hy. }
  rewrite G; [cbn [find]; rewrite Hp; reflexivity|]. intros x Hx. rewrite <- in_rev in Hx. auto.
Qed.

(** The last live entry of the stored list is the newest live write received. *)
Lemma find_stored p K :
  match find p (rev (stored K)) with
  | Some w => newest (fun x => p x = true) K w
  | None => forall w, In w K -> p w = false
  end.
Proof.
  induction K as [|w K IH] using rev_ind; [intros w []|].
  rewrite stored_snoc. pose proof (stored_ascending K) as Ha.
  destruct (find p (rev (stored K))) as [b|] eqn:Eb.
  - destruct (find_last_split _ _ _ Eb) as (Hb & m1 & m2 & Em & Hm2).
    destruct IH as (_ & l1 & l2 & EK & HL1 & HL2).
    destruct (p w) eqn:Ew.
    + destruct (Z.leb_spec (wr_slot b) (wr_slot w)) as [Hle|Hgt].
      * (* the new write wins *)
        assert (E : find p (rev (ins w (stored K))) = Some w).
        { assert (G : exists a1 a2, stored K = a1 ++ a2 /\ (forall x, In x a1 -> wr_slot x <= wr_slot w) /\ (forall x, In x a2 -> wr_slot w < wr_slot x)).
          { clear - Ha. induction Ha as [|x l Hx Hl IHl]; [exists [], []; repeat split; intros ? []|].
            destruct (Z.leb_spec (wr_slot x) (wr_slot w)) as [L|L].
            - destruct IHl as (a1 & a2 & -> & H1 & H2). exists (x :: a1), a2. split; [reflexivity|]. split; [|exact H2].
              intros y [<-|Hy]; auto.
            - exists [], (x :: l). split; [reflexivity|]. split; [intros ? []|]. intros y [<-|Hy]; [exact L|]. specialize (Hx y Hy). lia. }
          destruct G as (a1 & a2 & Es & H1 & H2). rewrite Es, ins_split by assumption.
          eapply find_last_iff; [exact Ew|reflexivity|]. intros x Hx. destruct (p x) eqn:Ex; [|reflexivity]. exfalso.
          assert (Hin : In x (stored K)) by (rewrite Es; apply in_or_app; right; exact Hx).
          assert (wr_slot x <= wr_slot b).
          { rewrite Em in Hin, Ha. apply in_app_or in Hin as [Hin|[<-|Hin]]; [|lia|].
            - apply ascending_split in Ha as (_ & _ & Ha). apply Ha; [exact Hin|left; reflexivity].
            - rewrite (Hm2 x Hin) in Ex. discriminate. }
          specialize (H2 x Hx). lia. }
        rewrite E. split; [exact Ew|]. exists K, []. split; [reflexivity|]. split; [|intros x []].
        intros x Hx Px. rewrite EK in Hx. apply in_app_or in Hx as [Hx|[<-|Hx]]; [specialize (HL1 x Hx Px)| |specialize (HL2 x Hx Px)]; lia.
      * (* an older slot *)
        assert (E : find p (rev (ins w (stored K))) = Some b).
        { assert (G : ins w (stored K) = ins w m1 ++ b :: m2).
          { rewrite Em. clear - Hgt. induction m1 as [|x m1 IHm]; cbn [app ins].
            - destruct (Z.leb_spec (wr_slot b) (wr_slot w)); [lia|reflexivity].
            - destruct (wr_slot x <=? wr_slot w); [rewrite IHm; reflexivity|reflexivity]. }
          rewrite G. eapply find_last_iff; [exact Hb|reflexivity|exact Hm2]. }
        rewrite E. split; [exact Hb|]. exists l1, (l2 ++ [w]). split; [rewrite EK, <- app_assoc; reflexivity|]. split; [exact HL1|].
        intros x Hx Px. apply in_app_or in Hx as [Hx|[<-|[]]]; [exact (HL2 x Hx Px)|lia].
    + assert (E : find p (rev (ins w (stored K))) = Some b).
      { rewrite Em. assert (G : exists a1 a2, ins w (m1 ++ b :: m2) = a1 ++ b :: a2 /\ forall x, In x a2 -> p x = false).
        { clear - Ew Hm2. induction m1 as [|x m1 IHm]; cbn [app ins].
          - destruct (wr_slot b <=? wr_slot w); [exists [], (ins w m2)|exists [w], m2].
            + split; [reflexivity|]. intros x Hx. apply ins_in in Hx as [->|Hx]; auto.
            + split; [reflexivity|exact Hm2].
          - destruct (wr_slot x <=? wr_slot w).
            + destruct IHm as (a1 & a2 & -> & H). exists (x :: a1), a2. auto.
            + exists (w :: x :: m1), m2. auto. }
        destruct G as (a1 & a2 & -> & H). eapply find_last_iff; [exact Hb|reflexivity|exact H]. }
      rewrite E. split; [exact Hb|]. exists l1, (l2 ++ [w]). split; [rewrite EK, <- app_assoc; reflexivity|]. split; [exact HL1|].
      intros x Hx Px. apply in_app_or in Hx as [Hx|[<-|[]]]; [exact (HL2 x Hx Px)|congruence].
  - rewrite find_none_iff in Eb. destruct (p w) eqn:Ew.
    + assert (E : find p (rev (ins w (stored K))) = Some w).
      { assert (G : exists a1 a2, ins w (stored K) = a1 ++ w :: a2 /\ forall x, In x a2 -> In x (stored K)).
        { generalize (stored K). induction l as [|x l IHl]; cbn [ins]; [exists [], []; split; [reflexivity|intros ? []]|].
          destruct (wr_slot x <=? wr_slot w).
          - destruct IHl as (a1 & a2 & -> & H). exists (x :: a1), a2. split; [reflexivity|]. intros y Hy. right. auto.
          - exists [], (x :: l). auto. }
        destruct G as (a1 & a2 & -> & H). eapply find_last_iff; [exact Ew|reflexivity|].
        intros x Hx. apply Eb. rewrite <- in_rev. auto. }
      rewrite E. split; [exact Ew|]. exists K, []. split; [reflexivity|]. split; [|intros x []].
      intros x Hx Px. exfalso. rewrite (IH x Hx) in Px. discriminate.
    + assert (E : find p (rev (ins w (stored K))) = None).
      { apply find_none_iff. intros x Hx. rewrite <- in_rev, ins_in in Hx. destruct Hx as [->|Hx]; [exact Ew|]. apply Eb. rewrite <- in_rev. exact Hx. }
      rewrite E. intros x Hx. apply in_app_or in Hx as [Hx|[<-|[]]]; auto.
Qed.
