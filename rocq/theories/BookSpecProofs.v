(** Proofs of the book side properties stated in SpecBook's vocabulary. *)
From Coq Require Import ZArith List Bool Lia ZifyBool Permutation Sorted.
From Verif Require Import Base Nodes OrderTree BookSide BaseFacts NodesFacts BitFacts HeapFacts
  TreeRep TreeFacts TreeOps TreeIter BookSideFacts BookSideOrder SpecBook.
Import ListNotations.
Open Scope Z_scope.

Lemma pow64 : 2 ^ 64 = 18446744073709551616.
Proof. reflexivity. Qed.
Lemma pow63 : 2 ^ 63 = 9223372036854775808.
Proof. reflexivity. Qed.

(** ** C01, C02 *)
Lemma key_order s d1 n1 d2 n2 : is_u64 n1 -> is_u64 n2 ->
  better_id s (new_node_key s d1 n1) (new_node_key s d2 n2) <-> better_order s d1 n1 d2 n2.
Proof.
  unfold is_u64. rewrite pow64. intros H1 H2. rewrite !new_node_key_eq by lia.
  unfold key_low, better_id, better_order. destruct s; lia.
Qed.

Lemma fixed_key_order s p1 n1 d1 p2 n2 d2 :
  is_i64 p1 -> is_i64 p2 -> is_u64 n1 -> is_u64 n2 ->
  fixed_price_data p1 = Ok d1 -> fixed_price_data p2 = Ok d2 ->
  better_id s (new_node_key s d1 n1) (new_node_key s d2 n2) <-> better_order s p1 n1 p2 n2.
Proof.
  unfold is_i64. rewrite pow63. intros Hp1 Hp2 Hn1 Hn2 E1 E2.
  apply fixed_price_data_ok in E1 as [_ ->]; [|lia]. apply fixed_price_data_ok in E2 as [_ ->]; [|lia].
  apply key_order; assumption.
Qed.

Lemma pegged_key_order s oracle o1 n1 o2 n2 :
  is_i64 o1 -> is_i64 o2 -> is_u64 n1 -> is_u64 n2 ->
  better_id s (new_node_key s (oracle_pegged_price_data o1) n1)
              (new_node_key s (oracle_pegged_price_data o2) n2)
  <-> better_order s (oracle + o1) n1 (oracle + o2) n2.
Proof.
  unfold is_i64. rewrite pow63. intros Hp1 Hp2 Hn1 Hn2.
  rewrite !oracle_pegged_price_data_eq by lia. rewrite key_order by assumption.
  unfold better_order. destruct s; lia.
Qed.

Lemma fixed_round_trip s p n : is_i64 p -> is_u64 n -> 1 <= p ->
  exists d, fixed_price_data p = Ok d /\
    forall l, lf_key l = new_node_key s d n -> fixed_price_lots (leaf_price_data l) = Ok p.
Proof.
  unfold is_i64, is_u64. rewrite pow63, pow64. intros Hp Hn H1. exists p. split.
  - unfold fixed_price_data, require. replace (1 <=? p) with true by lia. cbn [bind]. rewrite as_u64_id by lia. reflexivity.
  - intros l Hl. rewrite (leaf_price_data_key l s p n) by (assumption || lia). apply fixed_price_lots_eq. lia.
Qed.

Lemma fixed_reject p : p < 1 -> exists e, fixed_price_data p = Err e.
Proof.
  intros H. unfold fixed_price_data, require. replace (1 <=? p) with false by lia. cbn. eauto.
Qed.

Lemma pegged_round_trip s off n : is_i64 off -> is_u64 n ->
  forall l, lf_key l = new_node_key s (oracle_pegged_price_data off) n ->
    oracle_pegged_price_offset (leaf_price_data l) = off.
Proof.
  unfold is_i64, is_u64. rewrite pow63, pow64. intros Ho Hn l Hl.
  rewrite oracle_pegged_price_data_eq in Hl by lia.
  rewrite (leaf_price_data_key l s (off + 9223372036854775808) n) by (assumption || lia).
  rewrite oracle_pegged_price_offset_eq by lia. lia.
Qed.

Lemma pegged_mono o1 o2 : is_i64 o1 -> is_i64 o2 ->
  (o1 < o2 <-> oracle_pegged_price_data o1 < oracle_pegged_price_data o2).
Proof.
  unfold is_i64. rewrite pow63. intros. rewrite !oracle_pegged_price_data_eq by lia. lia.
Qed.

(** ** C03 *)
Definition maps_to (m : spec_book) (T : trees) : Prop :=
  forall t k l, m t k = Some l <-> In l (oleaves (T t)) /\ lf_key l = k.

Lemma leaves_key_unique bs T t l l' : bs_ok bs T -> In l (oleaves (T t)) -> In l' (oleaves (T t)) ->
  lf_key l = lf_key l' -> l = l'.
Proof.
  intros Hb H1 H2 Hk. apply in_oleaves in H1 as (h & H1). eapply in_unique_key; eauto.
Qed.

Lemma bs_rep_nodup_keys bs T t A x B : bs_ok bs T -> oleaves (T t) = A ++ x :: B ->
  forall l, In l (A ++ B) -> lf_key l <> lf_key x.
Proof.
  intros (F & Hb) HA l Hl Hk.
  pose proof (oleaves_sorted _ _ _ _ _ (Hb t)) as Hs.
  assert (Hs' : StronglySorted (fun a b => lf_key a < lf_key b) (oleaves (T t))).
  { unfold oleaves. clear - Hs. unfold keys_sorted in Hs. induction Hs; cbn; constructor; auto.
    apply Forall_map. exact H. }
  rewrite HA in Hs'. clear - Hs' Hl Hk.
  induction A as [|a A IH]; cbn in *.
  - inversion Hs' as [|? ? _ Hf]; subst. rewrite Forall_forall in Hf. apply Hf in Hl. lia.
  - inversion Hs' as [|? ? Hs Hf]; subst. rewrite Forall_forall in Hf. destruct Hl as [<-|Hl]; [|auto].
    assert (In x (A ++ x :: B)) by (apply in_or_app; right; left; reflexivity). apply Hf in H. lia.
Qed.

Lemma otree_eqb_eq a b : otree_eqb a b = true <-> a = b.
Proof. destruct a, b; cbn; split; congruence. Qed.
Lemma otree_eqb_refl a : otree_eqb a a = true.
Proof. destruct a; reflexivity. Qed.

Lemma spec_put_eq m t k v : spec_put m t k v t k = v.
Proof. unfold spec_put. rewrite otree_eqb_refl, Z.eqb_refl. reflexivity. Qed.
Lemma spec_put_other m t k v t' k' : t' <> t \/ k' <> k -> spec_put m t k v t' k' = m t' k'.
Proof.
  intros H. unfold spec_put. destruct (otree_eqb t' t) eqn:E; [|reflexivity].
  apply otree_eqb_eq in E. subst. cbn. destruct (Z.eqb_spec k' k); [|reflexivity]. destruct H; congruence.
Qed.

Lemma tupd_other T t o t' : t' <> t -> tupd T t o t' = T t'.
Proof. unfold tupd. destruct t, t'; cbn; congruence. Qed.

Lemma book_step_spec bs T m op bs' out :
  bs_ok bs T -> maps_to m T -> op_ok op -> book_step bs op = (bs', out) ->
  spec_out m op out /\ exists T', bs_ok bs' T' /\ bs_side bs' = bs_side bs /\ maps_to (spec_step m op out) T'.
Proof.
  intros Hb Hm Hop He. unfold maps_to in Hm |- *. destruct op as [t l|t k]; cbn [book_step spec_out] in *.
  - destruct (bs_insert_leaf bs t l) as [[[b h] old]|e] eqn:E; injection He as <- <-.
    2:{ split; [auto|]. exists T. cbn. auto. }
    destruct (bs_insert_spec _ _ _ _ _ _ _ Hb Hop E) as (o' & Hb' & Hs & _ & Hi).
    assert (Hold : m t (lf_key l) = old).
    { destruct old as [x|].
      - destruct Hi as (Hk & A & B & HA & HB). apply Hm. split; [|exact Hk]. rewrite HA. apply in_or_app. right. left. reflexivity.
      - destruct Hi as (A & B & HA & HB). destruct (m t (lf_key l)) as [y|] eqn:Ey; [|reflexivity].
        apply Hm in Ey as [Hin Hk]. exfalso.
        apply (bs_rep_nodup_keys b (tupd T t o') t A l B Hb' ltac:(rewrite tupd_same; exact HB) y); [|congruence].
        rewrite <- HA. exact Hin. }
    split; [right; congruence|]. exists (tupd T t o'). split; [exact Hb'|]. split; [exact Hs|].
    cbn [spec_step]. intros t' k' l'.
    destruct (otree_eqb t' t) eqn:Et.
    + apply otree_eqb_eq in Et. subst t'. rewrite tupd_same.
      assert (HL : exists A B, oleaves o' = A ++ l :: B /\ (forall y, In y (oleaves (T t)) -> lf_key y <> lf_key l -> In y (A ++ B)) /\
               (forall y, In y (A ++ B) -> In y (oleaves (T t)))).
      { destruct old as [x|].
        - destruct Hi as (Hk & A & B & HA & HB). exists A, B. split; [exact HB|]. rewrite HA. split.
          + intros y Hy Hne. apply in_app_iff in Hy as [Hy|[<-|Hy]]; [| congruence |]; apply in_or_app; auto.
          + intros y Hy. apply in_app_iff in Hy as [Hy|Hy]; apply in_or_app; cbn; auto.
        - destruct Hi as (A & B & HA & HB). exists A, B. split; [exact HB|]. rewrite HA. auto. }
      destruct HL as (A & B & HB & Hin1 & Hin2).
      destruct (Z.eqb_spec k' (lf_key l)) as [->|Hne].
      * rewrite spec_put_eq. split.
        -- intros E'. injection E' as <-. split; [|reflexivity]. rewrite HB. apply in_or_app. right. left. reflexivity.
        -- intros [Hin Hk]. f_equal. eapply (leaves_key_unique b (tupd T t o') t); [exact Hb'| | |].
           ++ rewrite tupd_same, HB. apply in_or_app. right. left. reflexivity.
           ++ rewrite tupd_same. exact Hin.
           ++ congruence.
      * rewrite spec_put_other by auto. rewrite Hm, HB. split.
        -- intros [Hin Hk]. split; [|exact Hk]. assert (Hx : In l' (A ++ B)) by (apply Hin1; congruence).
           apply in_app_iff in Hx as [Hx|Hx]; apply in_or_app; cbn; auto.
        -- intros [Hin Hk]. split; [|exact Hk]. apply Hin2.
           apply in_app_iff in Hin as [Hx|[<-|Hx]]; [| congruence |]; apply in_or_app; auto.
    + assert (t' <> t) by (intros ->; rewrite otree_eqb_refl in Et; discriminate).
      rewrite spec_put_other, tupd_other by auto. apply Hm.
  - destruct (bs_remove_spec _ _ t k Hb) as (b & old & o' & E & Hb' & Hs & Hr).
    rewrite E in He. injection He as <- <-.
    assert (Hold : m t k = old).
    { destruct old as [x|].
      - destruct Hr as (Hk & A & B & HA & HB). apply Hm. split; [|exact Hk]. rewrite HA. apply in_or_app. right. left. reflexivity.
      - destruct Hr as (_ & Hno). destruct (m t k) as [y|] eqn:Ey; [|reflexivity].
        apply Hm in Ey as [Hin Hk]. exfalso. eapply Hno; eauto. }
    split; [congruence|]. exists (tupd T t o'). split; [exact Hb'|]. split; [exact Hs|].
    cbn [spec_step]. intros t' k' l'.
    destruct (otree_eqb t' t) eqn:Et.
    + apply otree_eqb_eq in Et. subst t'. rewrite tupd_same. destruct old as [x|].
      * destruct Hr as (Hk & A & B & HA & HB). rewrite HB.
        destruct (Z.eqb_spec k' k) as [->|Hne].
        -- rewrite spec_put_eq. split; [discriminate|]. intros [Hin Hk']. exfalso.
           eapply (bs_rep_nodup_keys bs T t A x B Hb HA l' Hin). congruence.
        -- rewrite spec_put_other by auto. rewrite Hm, HA. split; intros [Hin Hk']; (split; [|exact Hk']).
           ++ apply in_app_iff in Hin as [Hx|[<-|Hx]]; [| congruence |]; apply in_or_app; auto.
           ++ apply in_app_iff in Hin as [Hx|Hx]; apply in_or_app; cbn; auto.
      * destruct Hr as (-> & Hno). destruct (Z.eqb_spec k' k) as [->|Hne].
        -- rewrite spec_put_eq. split; [discriminate|]. intros [Hin Hk']. exfalso. eapply Hno; eauto.
        -- rewrite spec_put_other by auto. apply Hm.
    + assert (t' <> t) by (intros ->; rewrite otree_eqb_refl in Et; discriminate).
      rewrite spec_put_other, tupd_other by auto. apply Hm.
Qed.

Lemma bs_lists bs T t : bs_ok bs T -> lists bs t (dir (bs_side bs) (oleaves (T t))).
Proof.
  intros (F & Hb). exists (dir (bs_side bs) (oitems (T t))). split.
  - exact (tree_iter_all_spec _ _ _ _ _ (Hb t)).
  - unfold oleaves. rewrite dir_map. reflexivity.
Qed.

Lemma bs_lists_sorted bs T t : bs_ok bs T ->
  StronglySorted (fun x y => better_id (bs_side bs) (lf_key x) (lf_key y)) (dir (bs_side bs) (oleaves (T t))).
Proof.
  intros (F & Hb). pose proof (oleaves_sorted _ _ _ _ _ (Hb t)) as Hs.
  assert (Hs' : StronglySorted (fun a b => lf_key a < lf_key b) (oleaves (T t))).
  { unfold oleaves. clear - Hs. unfold keys_sorted in Hs. induction Hs; cbn; constructor; auto.
    apply Forall_map. exact H. }
  destruct (bs_side bs); cbn [dir better_id]; [apply ssorted_rev in Hs'; exact Hs'|exact Hs'].
Qed.

Lemma lists_fun bs t L1 L2 : lists bs t L1 -> lists bs t L2 -> L1 = L2.
Proof. intros (i1 & E1 & <-) (i2 & E2 & <-). congruence. Qed.

Lemma book_run_spec ops : forall bs T m bs' outs,
  bs_ok bs T -> maps_to m T -> Forall op_ok ops -> book_run bs ops = (bs', outs) ->
  spec_outs m ops outs /\ exists T', bs_ok bs' T' /\ bs_side bs' = bs_side bs /\ maps_to (spec_run m ops outs) T'.
Proof.
  induction ops as [|op ops IH]; intros bs T m bs' outs Hb Hm Hok He; cbn [book_run] in He.
  - injection He as <- <-. split; [exact I|]. exists T. auto.
  - inversion Hok as [|? ? Hop Hok']; subst.
    destruct (book_step bs op) as [b1 out] eqn:E1. destruct (book_run b1 ops) as [b2 outs2] eqn:E2.
    injection He as <- <-.
    destruct (book_step_spec _ _ _ _ _ _ Hb Hm Hop E1) as (Ho & T1 & Hb1 & Hs1 & Hm1).
    destruct (IH _ _ _ _ _ Hb1 Hm1 Hok' E2) as (Hos & T2 & Hb2 & Hs2 & Hm2).
    split; [split; assumption|]. exists T2. split; [exact Hb2|]. split; [congruence|exact Hm2].
Qed.

Lemma tree_is_sorted_map s ops bs outs : Forall op_ok ops -> book_run (bookside_init s) ops = (bs, outs) ->
  spec_outs spec_empty ops outs /\
  forall t, exists L, lists bs t L /\
    StronglySorted (fun x y => better_id s (lf_key x) (lf_key y)) L /\
    forall k l, spec_run spec_empty ops outs t k = Some l <-> In l L /\ lf_key l = k.
Proof.
  intros Hok He.
  destruct (book_run_spec ops _ _ spec_empty _ _ (bs_init_ok s)
    ltac:(intros t k l; unfold spec_empty; cbn; split; [discriminate|intros [[] _]]) Hok He) as (Ho & T & Hb & Hs & Hm).
  split; [exact Ho|]. intros t. exists (dir (bs_side bs) (oleaves (T t))).
  split; [apply bs_lists; exact Hb|]. replace s with (bs_side bs) by exact Hs.
  split; [apply bs_lists_sorted; exact Hb|]. intros k l. unfold maps_to in Hm. rewrite Hm, in_dir. reflexivity.
Qed.

(** ** Reachable book sides *)
Lemma order_ok_leaf_ok t l : order_ok t l -> leaf_ok t l.
Proof.
  intros [H1 H2]. split; [exact H1|]. destruct t; [|exact I]. rewrite pow64, pow63 in H2. lia.
Qed.

Lemma leaf_ok_qty t l q : leaf_ok t l -> leaf_ok t (lf_set_qty l q).
Proof. exact (fun H => H). Qed.

Lemma leaves_ok_sub T T' : (forall t l, In l (oleaves (T' t)) -> In l (oleaves (T t))) -> leaves_ok T -> leaves_ok T'.
Proof. intros H Hl t l Hin. apply Hl. auto. Qed.

Lemma taken_out_sub t x T T' : taken_out t x T T' -> forall u l, In l (oleaves (T' u)) -> In l (oleaves (T u)).
Proof.
  intros [Hf (A & B & HA & HB)] u l Hin. assert (Hu : u = t \/ u = flip t) by (destruct t, u; auto).
  destruct Hu as [->| ->]; [|congruence]. rewrite HA. rewrite HB in Hin.
  apply in_app_iff in Hin as [?|?]; apply in_or_app; cbn; auto.
Qed.

Lemma book_reach_ok s bs : book_reach s bs -> exists T, bs_ok bs T /\ leaves_ok T /\ bs_side bs = s.
Proof.
  induction 1 as [|bs t l bs' h old Hr IH Hok He|bs t k bs' old Hr IH He|bs t now bs' old Hr IH He
                 |bs now oracle bs' old Hr IH He|bs t items h l q bs' Hr IH Hit Hin He].
  - exists (fun _ => None). split; [apply bs_init_ok|]. split; [intros t l []|reflexivity].
  - destruct IH as (T & Hb & Hl & Hs).
    destruct (bs_insert_spec _ _ _ _ _ _ _ Hb (proj1 Hok) He) as (o' & Hb' & Hs' & _ & Hi).
    exists (tupd T t o'). split; [exact Hb'|]. split; [|congruence].
    intros t' l' Hl'. destruct (otree_eqb t' t) eqn:Et.
    + apply otree_eqb_eq in Et. subst t'. rewrite tupd_same in Hl'.
      assert (Hc : l' = l \/ In l' (oleaves (T t))).
      { destruct old as [x|].
        - destruct Hi as (_ & A & B & HA & HB). rewrite HB in Hl'. rewrite HA.
          apply in_app_iff in Hl' as [?|[?|?]]; [right|left; congruence|right]; apply in_or_app; cbn; auto.
        - destruct Hi as (A & B & HA & HB). rewrite HB in Hl'. rewrite HA.
          apply in_app_iff in Hl' as [?|[?|?]]; [right|left; congruence|right]; apply in_or_app; cbn; auto. }
      destruct Hc as [->|Hc]; [apply order_ok_leaf_ok; exact Hok|apply Hl; exact Hc].
    + rewrite tupd_other in Hl' by (intros ->; rewrite otree_eqb_refl in Et; discriminate). apply Hl. exact Hl'.
  - destruct IH as (T & Hb & Hl & Hs).
    destruct (bs_remove_spec _ _ t k Hb) as (b & old' & o' & E & Hb' & Hs' & Hrm).
    rewrite E in He. injection He as <- <-. exists (tupd T t o'). split; [exact Hb'|]. split; [|congruence].
    eapply leaves_ok_sub; [|exact Hl]. intros t' l' Hl'. destruct (otree_eqb t' t) eqn:Et.
    + apply otree_eqb_eq in Et. subst t'. rewrite tupd_same in Hl'. destruct old' as [x|].
      * destruct Hrm as (_ & A & B & HA & HB). rewrite HA. rewrite HB in Hl'.
        apply in_app_iff in Hl' as [?|?]; apply in_or_app; cbn; auto.
      * destruct Hrm as (E' & _). rewrite <- E'. exact Hl'.
    + rewrite tupd_other in Hl' by (intros ->; rewrite otree_eqb_refl in Et; discriminate). exact Hl'.
  - destruct IH as (T & Hb & Hl & Hs).
    destruct (bs_remove_one_expired_spec _ _ t now Hb) as (b & old' & T' & E & Hb' & Hs' & Hm).
    rewrite E in He. injection He as <- <-. exists T'. split; [exact Hb'|]. split; [|congruence].
    eapply leaves_ok_sub; [|exact Hl]. destruct old' as [x|].
    + destruct Hm as (u & (_ & Hf & HAB) & _). eapply taken_out_sub. split; eauto.
    + destruct Hm as [Hm _]. intros t' l' Hl'. rewrite <- Hm. exact Hl'.
  - destruct IH as (T & Hb & Hl & Hs).
    destruct (bs_remove_worst_spec _ _ now oracle Hb Hl) as (b & ow & T' & E & Hb' & Hs' & Hm).
    rewrite E in He. injection He as <- <-. exists T'. split; [exact Hb'|]. split; [|congruence].
    eapply leaves_ok_sub; [|exact Hl]. destruct ow as [[x p]|].
    + destruct Hm as (u & Ht & _). eapply taken_out_sub. exact Ht.
    + destruct Hm as [Hm _]. intros t' l' Hl'. rewrite <- Hm. exact Hl'.
  - destruct IH as (T & Hb & Hl & Hs). pose proof Hb as (F & Hrep).
    pose proof (tree_iter_all_spec _ _ _ _ _ (Hrep t)) as Hi. rewrite Hit in Hi. injection Hi as ->.
    apply in_dir in Hin.
    destruct (bs_set_qty_spec _ _ t h l q Hb Hin) as (b & E & Hb' & Hs').
    rewrite E in He. injection He as <-. eexists. split; [exact Hb'|]. split; [|congruence].
    intros t' l' Hl'. destruct (otree_eqb t' t) eqn:Et.
    + apply otree_eqb_eq in Et. subst t'. rewrite tupd_same in Hl'.
      apply in_oleaves in Hl' as (h' & Hl'). rewrite oset_items in Hl'.
      apply in_map_iff in Hl' as ([h0 l0] & E0 & Hl'). unfold set_item in E0. cbn [fst] in E0.
      destruct (h0 =? h); injection E0 as <- <-.
      * apply leaf_ok_qty. apply Hl. apply (oitems_leaf _ _ Hin).
      * apply Hl. apply (oitems_leaf _ _ Hl').
    + rewrite tupd_other in Hl' by (intros ->; rewrite otree_eqb_refl in Et; discriminate). apply Hl. exact Hl'.
Qed.

(** ** C04 *)
Lemma thandles_child nd t : repr nd t -> forall h i b, In h (thandles t) -> nd h = NInner i ->
  In (in_child i b) (thandles t).
Proof.
  induction t as [h0 l|h0 p k t0 IH0 t1 IH1]; cbn [repr thandles]; intros Hr h i b Hin Hn.
  - destruct Hin as [<-|[]]. rewrite Hr in Hn. discriminate.
  - destruct Hr as (Hr & H0 & H1). destruct Hin as [<-|Hin].
    + rewrite Hr in Hn. injection Hn as <-. right. apply in_or_app.
      destruct b; cbn; [right|left]; apply thandle_in.
    + right. apply in_or_app. apply in_app_iff in Hin as [Hin|Hin]; [left; eapply IH0; eauto|right; eapply IH1; eauto].
Qed.

Lemma tree_nodes_all bs t tr : repr (a_nodes (bs_nodes bs)) tr -> tree_node bs t (thandle tr) ->
  forall h, In h (thandles tr) -> tree_node bs t h.
Proof.
  induction tr as [h0 l|h0 p k t0 IH0 t1 IH1]; cbn [repr thandles thandle]; intros Hr Hn h Hin.
  - destruct Hin as [<-|[]]. exact Hn.
  - destruct Hr as (Hr & H0 & H1). destruct Hin as [<-|Hin]; [exact Hn|].
    apply in_app_iff in Hin as [Hin|Hin]; [apply IH0|apply IH1]; auto.
    + exact (tn_child _ _ _ _ false Hn Hr).
    + exact (tn_child _ _ _ _ true Hn Hr).
Qed.

Lemma tree_node_iff bs T F t h : bs_rep bs T F -> tree_node bs t h <-> In h (ohandles (T t)).
Proof.
  intros Hb. pose proof (Hb t) as Hk. pose proof (tk_root _ _ _ _ _ Hk) as Hroot.
  pose proof (tk_repr _ _ _ _ _ Hk) as Hrep. split.
  - induction 1 as [h Hh|h i b Hn IH Hi].
    + destruct (T t) as [tr|].
      * rewrite (root_handle_some _ _ Hroot) in Hh. injection Hh as <-. apply thandle_in.
      * rewrite (root_handle_none _ Hroot) in Hh. discriminate.
    + destruct (T t) as [tr|]; [|destruct IH]. cbn [orepr ohandles] in *. eapply thandles_child; [apply Hrep|exact IH|exact Hi].
  - destruct (T t) as [tr|]; [|intros []]. cbn [orepr ohandles] in *. apply tree_nodes_all; [apply Hrep|].
    apply tn_root. apply root_handle_some. exact Hroot.
Qed.

Lemma fchain_free a h F : fchain (a_nodes a) h F -> free_chain a h F.
Proof.
  revert h. induction F as [|x r IH]; intros h; cbn; [auto|]. intros [-> H]. split; [reflexivity|].
  destruct r as [|y r]; [exact H|]. destruct H as (n & Hn & Hc). exists n. split; [exact Hn|]. apply IH. exact Hc.
Qed.


Lemma alloc_cover a U F h : alloc a U F -> 0 <= h < a_bump a -> In h (U ++ F).
Proof.
  intros Ha Hh.
  assert (Hincl : incl (map Z.of_nat (seq 0 (Z.to_nat (a_bump a)))) (U ++ F)).
  { apply NoDup_length_incl.
    - apply (al_nodup _ _ _ Ha).
    - rewrite map_length, seq_length. pose proof (al_total _ _ _ Ha). lia.
    - intros x Hx. apply (al_range _ _ _ Ha) in Hx. apply in_map_iff. exists (Z.to_nat x).
      split; [lia|]. apply in_seq. lia. }
  apply Hincl. apply in_map_iff. exists (Z.to_nat h). split; [lia|]. apply in_seq. lia.
Qed.

Lemma pool_partition s bs : book_reach s bs -> exists F,
  free_chain (bs_nodes bs) (a_fhead (bs_nodes bs)) F /\
  a_flen (bs_nodes bs) = Z.of_nat (length F) /\
  forall h, 0 <= h < 1024 ->
    one_of (tree_node bs Fixed h) (tree_node bs OraclePegged h) (In h F) (a_bump (bs_nodes bs) <= h).
Proof.
  intros Hr. apply book_reach_ok in Hr as (T & (F & Hb) & _ & _). exists F.
  pose proof (tk_alloc _ _ _ _ _ (Hb Fixed)) as Ha. cbn [flip] in Ha.
  split; [apply fchain_free; apply Ha|]. split; [apply Ha|]. intros h Hh.
  unfold one_of. rewrite !(tree_node_iff bs T F) by exact Hb.
  destruct (Z.le_gt_cases (a_bump (bs_nodes bs)) h) as [Hge|Hlt].
  - right; right; right.
    assert (Hn : ~ In h ((ohandles (T Fixed) ++ ohandles (T OraclePegged)) ++ F)).
    { intros Hin. apply (al_range _ _ _ Ha) in Hin. lia. }
    rewrite !in_app_iff in Hn. tauto.
  - pose proof (alloc_cover _ _ _ h Ha ltac:(lia)) as Hin.
    pose proof (al_nodup _ _ _ Ha) as Hnd.
    assert (D1 : In h (ohandles (T Fixed) ++ ohandles (T OraclePegged)) -> ~ In h F).
    { intros H1 H2. eapply nodup_app_disj; eauto. }
    assert (D2 : In h (ohandles (T Fixed)) -> ~ In h (ohandles (T OraclePegged))).
    { intros H1 H2. apply nodup_app_l in Hnd. eapply nodup_app_disj; eauto. }
    rewrite !in_app_iff in Hin. rewrite in_app_iff in D1.
    assert (Hb' : ~ a_bump (bs_nodes bs) <= h) by lia. tauto.
Qed.

Lemma insert_succeeds s bs t l : book_reach s bs -> is_u128 (lf_key l) -> is_full (bs_nodes bs) = false ->
  exists bs' h old, bs_insert_leaf bs t l = Ok (bs', h, old).
Proof.
  intros Hr Hk Hf. apply book_reach_ok in Hr as (T & Hb & _ & _).
  destruct (bs_insert_succeeds bs T t l Hb Hk Hf) as ([[bs' h] old] & E). eauto.
Qed.

(** ** C05 *)
Lemma gone_iff now l : is_u64 now -> leaf_expiry l < now <-> gone_before now l.
Proof.
  unfold is_u64. rewrite pow64. intros Hn. unfold leaf_expiry, gone_before, u64_max.
  destruct (Z.eqb_spec (lf_tif l) 0); lia.
Qed.

Lemma without_dir {A} s (x : A) L L' : without x L L' -> without x (dir s L) (dir s L').
Proof.
  intros (B & C & -> & ->). destruct s; cbn [dir].
  - exists (rev C), (rev B). rewrite !rev_app_distr. cbn [rev]. rewrite <- app_assoc. split; reflexivity.
  - exists B, C. split; reflexivity.
Qed.

Lemma expired_found s bs t now : book_reach s bs -> is_u64 now ->
  exists bs' old, bs_remove_one_expired bs t now = Ok (bs', old) /\
    match old with
    | Some x => exists u L L', lists bs u L /\ lists bs' u L' /\ without x L L' /\
        (forall M, lists bs (other u) M -> lists bs' (other u) M) /\
        gone_before now x /\ (forall l, In l L -> lf_tif l <> 0 -> lf_ts x + lf_tif x <= lf_ts l + lf_tif l) /\
        (u = other t -> forall M l, lists bs t M -> In l M -> ~ gone_before now l)
    | None => (forall u L, lists bs u L -> lists bs' u L) /\
        (forall u L l, lists bs u L -> In l L -> ~ gone_before now l)
    end.
Proof.
  intros Hr Hn. apply book_reach_ok in Hr as (T & Hb & Hl & Hs).
  destruct (bs_remove_one_expired_spec bs T t now Hb) as (bs' & old & T' & E & Hb' & Hs' & Hm).
  exists bs', old. split; [exact E|].
  assert (HL : forall u M, lists bs u M -> M = dir (bs_side bs) (oleaves (T u)))
    by (intros u M HM; eapply lists_fun; [exact HM|apply bs_lists; exact Hb]).
  destruct old as [x|].
  - destruct Hm as (u & (Hx & Hf & A & B & HA & HB) & Hmin & Hu).
    exists u, (dir (bs_side bs) (oleaves (T u))), (dir (bs_side bs) (oleaves (T' u))).
    split; [apply bs_lists; exact Hb|]. split; [rewrite <- Hs'; apply bs_lists; exact Hb'|].
    split; [apply without_dir; exists A, B; auto|]. split.
    + intros M HM. apply HL in HM. subst M. change (other u) with (flip u). rewrite <- Hf, <- Hs'. apply bs_lists. exact Hb'.
    + split; [apply gone_iff; assumption|]. split.
      * intros l Hin Ht. apply in_dir in Hin. specialize (Hmin l Hin). apply gone_iff in Hx; [|exact Hn].
        unfold leaf_expiry in Hmin. destruct Hx as [Hx _].
        destruct (Z.eqb_spec (lf_tif x) 0); [contradiction|]. destruct (Z.eqb_spec (lf_tif l) 0); [contradiction|]. exact Hmin.
      * intros -> M l HM Hin. apply HL in HM. subst M. apply in_dir in Hin.
        destruct Hu as [Hu|Hu]; [destruct t; discriminate|]. rewrite <- gone_iff by exact Hn. apply Hu in Hin. lia.
  - destruct Hm as [Hm Hno]. split.
    + intros u M HM. apply HL in HM. subst M. rewrite <- Hm, <- Hs'. apply bs_lists. exact Hb'.
    + intros u M l HM Hin. apply HL in HM. subst M. apply in_dir in Hin. rewrite <- gone_iff by exact Hn. apply Hno in Hin. lia.
Qed.

(** ** C06 *)
Lemma leaf_nodes nd t h l : repr nd t -> In (h, l) (tleaves t) <-> In h (thandles t) /\ nd h = NLeaf l.
Proof.
  induction t as [h0 l0|h0 p k t0 IH0 t1 IH1]; cbn [repr thandles tleaves]; intros Hr.
  - split.
    + intros [E|[]]. injection E as <- <-. split; [left; reflexivity|exact Hr].
    + intros [[<-|[]] E]. rewrite Hr in E. injection E as <-. left. reflexivity.
  - destruct Hr as (Hr & H0 & H1). rewrite in_app_iff, IH0, IH1 by assumption. split.
    + intros [[H2 H3]|[H2 H3]]; (split; [|exact H3]); right; apply in_or_app; auto.
    + intros [[<-|Hin] E]; [rewrite Hr in E; discriminate|]. apply in_app_iff in Hin. tauto.
Qed.

Lemma tree_listing s bs t : book_reach s bs -> exists L, lists bs t L /\
  StronglySorted (fun x y => better_id s (lf_key x) (lf_key y)) L /\
  Z.of_nat (length L) = r_count (bs_root bs t) /\
  forall l, In l L <-> exists h, tree_node bs t h /\ a_nodes (bs_nodes bs) h = NLeaf l.
Proof.
  intros Hr. apply book_reach_ok in Hr as (T & Hb & Hl & <-). exists (dir (bs_side bs) (oleaves (T t))).
  split; [apply bs_lists; exact Hb|]. split; [apply bs_lists_sorted; exact Hb|].
  destruct Hb as (F & Hb). pose proof (tk_root _ _ _ _ _ (Hb t)) as Hroot. pose proof (tk_repr _ _ _ _ _ (Hb t)) as Hrep.
  split.
  - rewrite dir_length. unfold oleaves. rewrite map_length. destruct (T t) as [tr|]; cbn [oitems root_rep] in *; [symmetry; apply Hroot|].
    cbn. lia.
  - intros l. rewrite in_dir, in_oleaves. split; intros (h & H); exists h; rewrite (tree_node_iff bs T F t h Hb) in *.
    + destruct (T t) as [tr|]; cbn [oitems ohandles orepr] in *; [|destruct H]. exact (proj1 (leaf_nodes _ _ _ _ (proj1 Hrep)) H).
    + destruct (T t) as [tr|]; cbn [oitems ohandles orepr] in *; [|destruct H as [[] _]]. exact (proj2 (leaf_nodes _ _ _ _ (proj1 Hrep)) H).
Qed.

(** ** C07 *)
Lemma in_range_not_skipped s op l : 0 <= lf_key l < two128 -> in_price_range op l -> skipped s op l = false.
Proof.
  intros Hk. unfold in_price_range, exact_price. rewrite pow64, pow63. intros Hp.
  unfold skipped, oracle_pegged_price. rewrite leaf_price_data_eq by exact Hk.
  rewrite oracle_pegged_price_offset_eq by (apply price_data_range; exact Hk).
  cbv zeta. unfold saturating_add_i64, i64_max, i64_min, price_of_key.
  remember (Z.max (-9223372036854775808) _) as price eqn:Hpr.
  replace ((1 <=? price) && (price <? 9223372036854775807)) with true by lia.
  destruct (negb _ && _); reflexivity.
Qed.

Definition tagged (i : item) : otree_id * leaf := (im_tree i, im_leaf i).

Lemma item_of_facts s now oracle t x i : 0 <= lf_key (snd x) < two128 ->
  item_of s now oracle t x = Some i ->
  im_tree i = t /\ im_handle i = fst x /\ im_leaf i = snd x /\
  (forall op, oracle = Some op -> im_price i = exact_price t op (snd x)) /\
  (t = Fixed -> im_price i = lf_key (snd x) / 2 ^ 64) /\
  (t = OraclePegged -> 1 <= im_price i < 2 ^ 63 - 1) /\
  (im_state i = Valid <-> live now (snd x) /\ (t = OraclePegged -> within_peg s (im_price i) (lf_peg_limit (snd x)))).
Proof.
  intros Hk. assert (Hlive : forall l, leaf_is_expired l now = false <-> live now l).
  { intros l. unfold leaf_is_expired, live. lia. }
  destruct t; cbn [item_of].
  - intros E. injection E as <-. cbn [im_tree im_handle im_leaf im_price im_state].
    split; [reflexivity|]. split; [reflexivity|]. split; [reflexivity|]. split; [intros; reflexivity|].
    split; [intros; reflexivity|]. split; [discriminate|]. rewrite <- Hlive.
    destruct (leaf_is_expired (snd x) now); split; try discriminate; try tauto; try (intros [? _]; discriminate).
    intros _. split; [reflexivity|discriminate].
  - destruct oracle as [op|]; [|discriminate]. destruct (oracle_pegged_price op (snd x) s) as [st p] eqn:Eo.
    assert (Hst : st = Skipped \/ st <> Skipped) by (destruct st; auto; right; discriminate).
    destruct Hst as [->|Hst]; [discriminate|].
    destruct (oracle_price_not_skipped _ _ _ _ _ Hk Eo Hst) as [Hp Hr].
    intros E. assert (Ei : i = mkItem OraclePegged (fst x) (snd x) p (if leaf_is_expired (snd x) now then Invalid else st)).
    { destruct st; [| |congruence]; injection E as <-; reflexivity. }
    subst i. cbn [im_tree im_handle im_leaf im_price im_state]. clear E.
    split; [reflexivity|]. split; [reflexivity|]. split; [reflexivity|]. rewrite pow63, pow64.
    split; [intros op' E'; injection E' as <-; unfold exact_price; rewrite pow63, pow64; exact Hp|].
    split; [discriminate|]. split; [intros _; lia|]. rewrite <- Hlive.
    assert (Hw : st = Valid <-> within_peg s p (lf_peg_limit (snd x))).
    { revert Eo Hst. unfold oracle_pegged_price. cbv zeta. destruct (_ && (_ <? i64_max)); [|intros E'; inversion E'; congruence].
      remember (saturating_add_i64 _ _) as pr eqn:Hpr. clear Hpr.
      destruct (negb _ && _) eqn:Ep; intros E' _; injection E' as <- <-; unfold within_peg, is_price_better in *;
        destruct s; (split; intros Hw; [try discriminate; lia|first [reflexivity|exfalso; lia]]). }
    destruct (leaf_is_expired (snd x) now).
    + split; [discriminate|intros [? _]; discriminate].
    + rewrite Hw. split; [intros H; split; [reflexivity|auto]|intros [_ H]; apply H; reflexivity].
Qed.

Lemma before_listed s now oracle t t' x y i j :
  0 <= lf_key (snd x) < two128 -> 0 <= lf_key (snd y) < two128 ->
  item_of s now oracle t x = Some i -> item_of s now oracle t' y = Some j ->
  before s i j -> listed_before s i j.
Proof.
  intros Hx Hy Hi Hj. apply item_of_facts in Hi as (_ & _ & Hil & _); [|exact Hx].
  apply item_of_facts in Hj as (_ & _ & Hjl & _); [|exact Hy].
  unfold before, rank_key, listed_before, seq_of, low_of_key. rewrite Hil, Hjl, pow64.
  pose proof (Z.mod_pos_bound (lf_key (snd x)) 18446744073709551616 ltac:(lia)).
  pose proof (Z.mod_pos_bound (lf_key (snd y)) 18446744073709551616 ltac:(lia)).
  destruct s; unfold no_worse; lia.
Qed.

Lemma ssorted_impl_in {A} (R S : A -> A -> Prop) l : (forall x y, In x l -> In y l -> R x y -> S x y) ->
  StronglySorted R l -> StronglySorted S l.
Proof.
  intros H Hs. induction Hs as [|x l Hs IH Hf]; constructor.
  - apply IH. intros; apply H; cbn; auto.
  - rewrite Forall_forall in *. intros y Hy. apply H; cbn; auto.
Qed.

Lemma merged_item bs T now oracle i : bs_ok bs T -> leaves_ok T -> In i (merged bs T now oracle) ->
  exists x, In x (oitems (T (im_tree i))) /\ item_of (bs_side bs) now oracle (im_tree i) x = Some i /\
    0 <= lf_key (snd x) < two128.
Proof.
  intros Hb Hl Hi. apply merged_in in Hi as [Hin Hi]. exists (im_handle i, im_leaf i). split; [exact Hin|].
  split; [exact Hi|]. apply oitems_leaf in Hin. apply Hl in Hin. apply Hin.
Qed.

Lemma merged_listed bs T now oracle : bs_ok bs T -> leaves_ok T ->
  StronglySorted (listed_before (bs_side bs)) (merged bs T now oracle).
Proof.
  intros Hb Hl. eapply ssorted_impl_in; [|apply merged_sorted; assumption].
  intros i j Hi Hj. apply merged_item in Hi as (x & Hx & Hi & Hkx); try assumption.
  apply merged_item in Hj as (y & Hy & Hj & Hky); try assumption.
  exact (before_listed _ _ _ _ _ x y i j Hkx Hky Hi Hj).
Qed.

Lemma tagged_all s now oracle t items : (forall x, In x items -> 0 <= lf_key (snd x) < two128) ->
  (forall x, In x items -> exists i, item_of s now oracle t x = Some i) ->
  map tagged (omap (item_of s now oracle t) items) = map (pair t) (map snd items).
Proof.
  induction items as [|x r IH]; intros Hk He; [reflexivity|]. rewrite omap_cons.
  destruct (He x (or_introl eq_refl)) as (i & Hi). rewrite Hi. cbn [map].
  rewrite IH by (intros; (apply Hk || apply He); right; assumption).
  pose proof (item_of_facts _ _ _ _ _ _ (Hk x (or_introl eq_refl)) Hi) as (E1 & _ & E2 & _).
  unfold tagged at 1. rewrite E1, E2. reflexivity.
Qed.

Lemma iteration_priority s bs now oracle : book_reach s bs ->
  (forall L l, lists bs OraclePegged L -> In l L -> in_price_range oracle l) ->
  exists items LF LP, iter_all bs now (Some oracle) = Ok items /\
    lists bs Fixed LF /\ lists bs OraclePegged LP /\
    Permutation (map (fun i => (im_tree i, im_leaf i)) items)
                (map (pair Fixed) LF ++ map (pair OraclePegged) LP) /\
    Forall (fun i => im_price i = exact_price (im_tree i) oracle (im_leaf i)) items /\
    StronglySorted (listed_before s) items.
Proof.
  intros Hr Hrange. apply book_reach_ok in Hr as (T & Hb & Hl & <-).
  exists (merged bs T now (Some oracle)), (dir (bs_side bs) (oleaves (T Fixed))), (dir (bs_side bs) (oleaves (T OraclePegged))).
  split; [apply iter_all_spec; assumption|]. split; [apply bs_lists; exact Hb|]. split; [apply bs_lists; exact Hb|].
  assert (Hk : forall t x, In x (oitems (T t)) -> 0 <= lf_key (snd x) < two128).
  { intros t x Hx. apply oitems_leaf in Hx. apply Hl in Hx. apply Hx. }
  assert (Hns : forall x, In x (oitems (T OraclePegged)) -> skipped (bs_side bs) oracle (snd x) = false).
  { intros x Hx. apply in_range_not_skipped; [eapply Hk; exact Hx|].
    eapply Hrange; [apply bs_lists; exact Hb|]. apply in_dir. apply oitems_leaf. exact Hx. }
  split.
  - eapply Permutation_trans; [apply (Permutation_map tagged); apply merged_complete; exact Hns|].
    unfold all_items. rewrite map_app. apply Permutation_app.
    + rewrite tagged_all; [|apply Hk|intros; apply fixed_item]. apply Permutation_map. symmetry. apply dir_perm.
    + rewrite tagged_all; [|apply Hk|intros; apply pegged_item; auto]. apply Permutation_map. symmetry. apply dir_perm.
  - split; [|apply merged_listed; assumption]. apply Forall_forall. intros i Hi.
    apply merged_item in Hi as (x & Hx & Hi & Hkx); try assumption.
    pose proof (item_of_facts _ _ _ _ _ _ Hkx Hi) as (_ & _ & E2 & E3 & _). rewrite E2. apply E3. reflexivity.
Qed.

(** ** C08, what holds without the range condition *)
Lemma iteration_partial s bs now oracle : book_reach s bs ->
  exists items LF LP, iter_all bs now oracle = Ok items /\
    lists bs Fixed LF /\ lists bs OraclePegged LP /\
    (forall l, In l LF -> exists i, In i items /\ im_tree i = Fixed /\ im_leaf i = l) /\
    (forall i, In i items -> In (im_leaf i) (match im_tree i with Fixed => LF | OraclePegged => LP end)) /\
    NoDup (map (fun i => (im_tree i, lf_key (im_leaf i))) items) /\
    StronglySorted (listed_before s) items.
Proof.
  intros Hr. apply book_reach_ok in Hr as (T & Hb & Hl & <-).
  exists (merged bs T now oracle), (dir (bs_side bs) (oleaves (T Fixed))), (dir (bs_side bs) (oleaves (T OraclePegged))).
  split; [apply iter_all_spec; assumption|]. split; [apply bs_lists; exact Hb|]. split; [apply bs_lists; exact Hb|].
  split.
  { intros l Hin. apply in_dir in Hin. apply in_oleaves in Hin as (h & Hin).
    destruct (merged_fixed_complete bs T now oracle _ Hin) as (i & Hi & Hm). exists i. split; [exact Hm|].
    injection Hi as <-. auto. }
  split.
  { intros i Hi. apply merged_in in Hi as [Hin _]. apply oitems_leaf in Hin. destruct (im_tree i); apply in_dir; exact Hin. }
  split; [|apply merged_listed; assumption].
  pose proof (merged_nodup bs T now oracle Hb) as Hnd.
  assert (Hin : forall i, In i (merged bs T now oracle) -> In (im_handle i, im_leaf i) (oitems (T (im_tree i))))
    by (intros i Hi; apply merged_in in Hi; apply Hi).
  destruct Hb as (F & Hb).
  induction (merged bs T now oracle) as [|i r IH]; cbn [map] in *; constructor.
  - inversion Hnd as [|? ? Hni Hnd']; subst. intros Hc. apply Hni. apply in_map_iff in Hc as (j & Hj & Hjin).
    injection Hj as Ht Hk. apply in_map_iff. exists j. split; [|exact Hjin].
    pose proof (Hin i (or_introl eq_refl)) as H1. pose proof (Hin j (or_intror Hjin)) as H2. rewrite Ht in H2.
    pose proof (keys_sorted_unique _ _ _ (oleaves_sorted _ _ _ _ _ (Hb (im_tree i))) H1 H2 (eq_sym Hk)) as E.
    injection E as E1 E2. unfold item_id. congruence.
  - apply IH; [inversion Hnd; assumption|]. intros j Hj. apply Hin. right. exact Hj.
Qed.

(** ** C09 *)
Lemma offered_pegged s bs now oracle items i : book_reach s bs ->
  iter_valid bs now (Some oracle) = Ok items -> In i items ->
  im_price i = exact_price (im_tree i) oracle (im_leaf i) /\ 1 <= im_price i < 2 ^ 63 /\ live now (im_leaf i) /\
  (im_tree i = OraclePegged -> im_price i < 2 ^ 63 - 1 /\ within_peg s (im_price i) (lf_peg_limit (im_leaf i))).
Proof.
  intros Hr He Hin. apply book_reach_ok in Hr as (T & Hb & Hl & <-).
  unfold iter_valid in He. rewrite (iter_all_spec _ _ _ _ Hb Hl) in He. cbn [bind] in He. injection He as <-.
  apply filter_In in Hin as [Hin Hv]. apply merged_item in Hin as (x & Hx & Hi & Hkx); try assumption.
  pose proof (item_of_facts _ _ _ _ _ _ Hkx Hi) as (E0 & E1 & E2 & E3 & E4 & E5 & E6). rewrite E2.
  split; [apply E3; reflexivity|].
  assert (Hst : im_state i = Valid) by (unfold is_valid in Hv; destruct (im_state i); [reflexivity|discriminate|discriminate]).
  apply E6 in Hst as [Hlv Hpg].
  split.
  { destruct (im_tree i) eqn:Et.
    - rewrite E4 by reflexivity. apply oitems_leaf in Hx. apply Hl in Hx. destruct Hx as [_ Hx]. rewrite pow63, pow64. lia.
    - specialize (E5 eq_refl). lia. }
  split; [exact Hlv|]. intros Ht. split; [apply E5; exact Ht|]. apply Hpg. exact Ht.
Qed.

(** ** Histories reach book sides *)
Definition op_good (op : book_op) : Prop :=
  match op with OpInsert t l => order_ok t l | OpRemove _ _ => True end.
Lemma book_run_reach s ops : forall bs, book_reach s bs -> Forall op_good ops ->
  book_reach s (fst (book_run bs ops)).
Proof.
  induction ops as [|op ops IH]; intros bs Hb Hok; cbn [book_run]; [exact Hb|].
  inversion Hok as [|? ? Hop Hok']; subst. destruct (book_step bs op) as [b1 o1] eqn:E.
  destruct (book_run b1 ops) as [b2 o2] eqn:E2. cbn [fst].
  assert (H1 : book_reach s b1).
  { destruct op as [t l|t k]; cbn [book_step] in E.
    - destruct (bs_insert_leaf bs t l) as [[[b h] old]|] eqn:Ei; injection E as <- _; [|exact Hb].
      eapply br_insert; eauto.
    - destruct (bs_remove_by_key bs t k) as [[b old]|] eqn:Ei; injection E as <- _; [|exact Hb].
      eapply br_remove; eauto. }
  specialize (IH b1 H1 Hok'). rewrite E2 in IH. exact IH.
Qed.

(** Sample orders: [key s t price seq] as the program makes ids. *)
Definition sample (s : side) (t : otree_id) (price seq qty : Z) : leaf :=
  mkLeaf 0 0 (new_node_key s (match t with Fixed => price | OraclePegged => oracle_pegged_price_data price end) seq)
    7 qty 100 (-1) 0.

(** Three pegged asks: 100 below, 5 below and 10 above the oracle price. *)
Definition skip_book : bookside :=
  fst (book_run (bookside_init Ask)
    [OpInsert OraclePegged (sample Ask OraclePegged (-100) 1 5);
     OpInsert OraclePegged (sample Ask OraclePegged (-5) 2 5);
     OpInsert OraclePegged (sample Ask OraclePegged 10 3 5)]).

Lemma skip_book_reach : book_reach Ask skip_book.
Proof.
  apply book_run_reach; [constructor|]. repeat constructor; vm_compute; discriminate.
Qed.

Lemma skip_misses : exists bs now oracle l items,
  book_reach Ask bs /\ (exists L, lists bs OraclePegged L /\ In l L) /\
  live now l /\ in_price_range oracle l /\ lf_peg_limit l = -1 /\
  iter_all bs now (Some oracle) = Ok items /\ forall i, In i items -> im_leaf i <> l.
Proof.
  exists skip_book, 200, 50, (sample Ask OraclePegged 10 3 5).
  exists [mkItem OraclePegged 1 (sample Ask OraclePegged (-5) 2 5) 45 Valid].
  split; [exact skip_book_reach|].
  split; [eexists; split; [eexists; split; [vm_compute; reflexivity|reflexivity]|]; vm_compute; auto|].
  split; [intros [H _]; vm_compute in H; discriminate|].
  split; [split; [vm_compute; discriminate|vm_compute; reflexivity]|].
  split; [reflexivity|]. split; [vm_compute; reflexivity|].
  intros i [<-|[]] H. apply (f_equal lf_key) in H. vm_compute in H. discriminate.
Qed.
