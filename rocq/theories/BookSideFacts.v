(** Book sides: two trees in one arena, and the merged iteration. *)
From Coq Require Import ZArith List Bool Lia ZifyBool Permutation Sorted.
From Verif Require Import Base Nodes OrderTree BookSide BaseFacts NodesFacts BitFacts HeapFacts
  TreeRep TreeFacts TreeOps TreeIter.
Import ListNotations.
Open Scope Z_scope.

Definition flip (t : otree_id) : otree_id := match t with Fixed => OraclePegged | OraclePegged => Fixed end.
Lemma flip_flip t : flip (flip t) = t.
Proof. destruct t; reflexivity. Qed.
Lemma flip_neq t : flip t <> t.
Proof. destruct t; discriminate. Qed.

Definition trees := otree_id -> option tree.
Definition tupd (T : trees) (t : otree_id) (o : option tree) : trees :=
  fun t' => if otree_eqb t' t then o else T t'.
Lemma tupd_same T t o : tupd T t o t = o.
Proof. unfold tupd. destruct t; reflexivity. Qed.
Lemma tupd_flip T t o : tupd T t o (flip t) = T (flip t).
Proof. unfold tupd. destruct t; reflexivity. Qed.

Definition bs_rep (bs : bookside) (T : trees) (F : list Z) : Prop :=
  forall t, tree_ok (bs_nodes bs) (bs_root bs t) (T t) (ohandles (T (flip t))) F.
Definition bs_ok (bs : bookside) (T : trees) : Prop := exists F, bs_rep bs T F.

Lemma bs_root_set bs t a r : bs_root (bs_set bs t a r) t = r.
Proof. destruct t; reflexivity. Qed.
Lemma bs_root_set_flip bs t a r : bs_root (bs_set bs t a r) (flip t) = bs_root bs (flip t).
Proof. destruct t; reflexivity. Qed.
Lemma bs_nodes_set bs t a r : bs_nodes (bs_set bs t a r) = a.
Proof. destruct t; reflexivity. Qed.

Lemma bs_rep_update bs T F t a r o F' :
  bs_rep bs T F -> tree_ok a r o (ohandles (T (flip t))) F' ->
  (forall x, In x (ohandles (T (flip t))) -> a_nodes a x = a_nodes (bs_nodes bs) x) ->
  bs_rep (bs_set bs t a r) (tupd T t o) F'.
Proof.
  intros Hb Hok Hfr t'.
  assert (Ht : t' = t \/ t' = flip t) by (destruct t, t'; auto).
  destruct Ht as [->| ->].
  - rewrite bs_root_set, bs_nodes_set, tupd_same, tupd_flip. exact Hok.
  - rewrite bs_root_set_flip, bs_nodes_set, tupd_flip, flip_flip, tupd_same.
    destruct (Hb (flip t)) as [Ha Hr Hp]. constructor.
    + eapply alloc_perm; [apply Permutation_app_comm|]. apply Hok.
    + exact Hr.
    + destruct (T (flip t)) as [tr|]; [|exact I]. cbn in *. destruct Hp as [Hp Hw]. split; [|exact Hw].
      eapply repr_frame; [|exact Hp]. exact Hfr.
Qed.

Lemma bs_init_ok s : bs_ok (bookside_init s) (fun _ => None).
Proof.
  exists []. intros t. constructor; [|destruct t; reflexivity|exact I].
  constructor; cbn; try lia; try exact I; try (intros h []); constructor.
Qed.

(** ** Operations *)
Lemma bs_insert_spec bs T t l bs' h old :
  bs_ok bs T -> 0 <= lf_key l < two128 -> bs_insert_leaf bs t l = Ok (bs', h, old) ->
  exists o', bs_ok bs' (tupd T t o') /\ bs_side bs' = bs_side bs /\
    In (h, l) (oitems o') /\ inserted l old (oleaves (T t)) (oleaves o').
Proof.
  intros (F & Hb) Hk He. unfold bs_insert_leaf in He.
  apply bind_ok in He as ([[[a r] h0] old0] & E & He). cbn in He. injection He as <- <- <-.
  destruct (insert_leaf_spec _ _ _ _ _ _ _ _ _ _ (Hb t) Hk E) as (o' & F' & Hok & Hsd & Hfr & Hin & Hi & _).
  exists o'. split; [exists F'; eapply bs_rep_update; eauto|].
  unfold bs_side. rewrite bs_nodes_set. auto.
Qed.

Lemma not_full_avail a U F : alloc a U F -> is_full a = false -> avail a F >= 2.
Proof.
  intros Ha Hf. unfold is_full, MAX_NODES in Hf. unfold avail. rewrite (al_flen _ _ _ Ha) in Hf. 
  pose proof (al_bump _ _ _ Ha). lia.
Qed.

Lemma bs_insert_succeeds bs T t l :
  bs_ok bs T -> 0 <= lf_key l < two128 -> is_full (bs_nodes bs) = false ->
  exists r, bs_insert_leaf bs t l = Ok r.
Proof.
  intros (F & Hb) Hk Hf. unfold bs_insert_leaf.
  destruct (insert_leaf_succeeds _ _ _ _ _ l (Hb t) Hk) as ([[[a r] h] old] & E).
  { eapply not_full_avail; [apply (tk_alloc _ _ _ _ _ (Hb t))|exact Hf]. }
  rewrite E. cbn [bind]. eauto.
Qed.

Lemma bs_remove_spec bs T t key :
  bs_ok bs T ->
  exists bs' old o', bs_remove_by_key bs t key = Ok (bs', old) /\ bs_ok bs' (tupd T t o') /\
    bs_side bs' = bs_side bs /\ removed key old (oleaves (T t)) (oleaves o').
Proof.
  intros (F & Hb). unfold bs_remove_by_key.
  destruct (remove_by_key_spec _ _ _ _ _ key (Hb t)) as (a & r & old & o' & F' & E & Hok & Hsd & Hfr & Hrm & _).
  rewrite E. cbn [bind]. exists (bs_set bs t a r), old, o'. split; [reflexivity|].
  split; [exists F'; eapply bs_rep_update; eauto|]. unfold bs_side. rewrite bs_nodes_set. auto.
Qed.

(** What [bs_remove_one_expired] leaves. *)
Definition dropped_from (now : Z) (t : otree_id) (x : leaf) (T T' : trees) : Prop :=
  leaf_expiry x < now /\ oleaves (T' (flip t)) = oleaves (T (flip t)) /\
  exists A B, oleaves (T t) = A ++ x :: B /\ oleaves (T' t) = A ++ B.

Lemma bs_remove_one_expired_spec bs T t now :
  bs_ok bs T ->
  exists bs' old T', bs_remove_one_expired bs t now = Ok (bs', old) /\ bs_ok bs' T' /\
    bs_side bs' = bs_side bs /\
    match old with
    | None => (forall u, oleaves (T' u) = oleaves (T u)) /\
              (forall u l, In l (oleaves (T u)) -> now <= leaf_expiry l)
    | Some x => exists u, dropped_from now u x T T' /\
        (forall l, In l (oleaves (T u)) -> leaf_expiry x <= leaf_expiry l) /\
        (u = t \/ forall l, In l (oleaves (T t)) -> now <= leaf_expiry l)
    end.
Proof.
  intros (F & Hb). unfold bs_remove_one_expired.
  destruct (tree_remove_one_expired_spec _ _ _ _ _ now (Hb t))
    as (a & r & old & o' & F' & E & Hok & Hsd & Hfr & Hm & _).
  rewrite E. cbn [bind].
  pose proof (bs_rep_update _ _ _ _ _ _ _ _ Hb Hok Hfr) as Hb1.
  destruct old as [x|].
  - exists (bs_set bs t a r), (Some x), (tupd T t o'). split; [reflexivity|].
    split; [exists F'; exact Hb1|]. split; [unfold bs_side; rewrite bs_nodes_set; exact Hsd|].
    exists t. destruct Hm as (Hlt & Hmin & A & B & HA & HB). split; [|auto]. split; [exact Hlt|].
    split; [rewrite tupd_flip; reflexivity|]. exists A, B. rewrite tupd_same. auto.
  - change (match t with Fixed => OraclePegged | OraclePegged => Fixed end) with (flip t).
    destruct (tree_remove_one_expired_spec _ _ _ _ _ now (Hb1 (flip t)))
      as (a2 & r2 & old2 & o2 & F2 & E2 & Hok2 & Hsd2 & Hfr2 & Hm2 & _).
    rewrite E2. cbn [bind]. rewrite bs_nodes_set in Hsd2. rewrite tupd_flip in Hm2.
    destruct Hm as [Hm Hmn].
    exists (bs_set (bs_set bs t a r) (flip t) a2 r2), old2, (tupd (tupd T t o') (flip t) o2).
    split; [reflexivity|]. split; [exists F2; eapply bs_rep_update; eauto|].
    split; [unfold bs_side; rewrite bs_nodes_set; congruence|].
    assert (Hlt : oleaves (tupd (tupd T t o') (flip t) o2 t) = oleaves (T t)).
    { pose proof (tupd_flip (tupd T t o') (flip t) o2) as Hq. rewrite flip_flip in Hq.
      rewrite Hq, tupd_same. exact Hm. }
    destruct old2 as [x|].
    + exists (flip t). destruct Hm2 as (Hl & Hmin & A & B & HA & HB). split; [|auto]. split; [exact Hl|].
      rewrite tupd_same. split; [rewrite flip_flip; exact Hlt|eauto].
    + destruct Hm2 as (Hm2 & Hmn2). split.
      * intros u. assert (Hu : u = t \/ u = flip t) by (destruct t, u; auto).
        destruct Hu as [->| ->]; [exact Hlt|]. rewrite tupd_same. exact Hm2.
      * intros u l. assert (Hu : u = t \/ u = flip t) by (destruct t, u; auto).
        destruct Hu as [->| ->]; auto.
Qed.

Lemma find_worst_in a r o R F h l : tree_ok a r o R F -> find_worst a r = Ok (Some (h, l)) ->
  In (h, l) (oitems o).
Proof.
  intros H He. rewrite (find_worst_spec _ _ _ _ _ H) in He. injection He as He.
  unfold last_error in He. apply (in_dir (a_side a)). apply in_rev.
  destruct (rev (dir (a_side a) (oitems o))) as [|y L]; [discriminate|]. cbn in He. injection He as ->.
  left. reflexivity.
Qed.

(** ** In-place quantity change *)
Lemma same_place_qty l q : same_place l (lf_set_qty l q).
Proof. split; reflexivity. Qed.

Lemma bs_set_qty_spec bs T t h l q :
  bs_ok bs T -> In (h, l) (oitems (T t)) ->
  exists bs', bs_set_qty bs h q = Ok bs' /\ bs_ok bs' (tupd T t (oset (T t) h (lf_set_qty l q))) /\
    bs_side bs' = bs_side bs.
Proof.
  intros (F & Hb) Hin. unfold bs_set_qty.
  assert (Hg : get_node_unwrap (bs_nodes bs) h = Ok (NLeaf l)).
  { pose proof (Hb t) as Hok. destruct (T t) as [tr|]; [|contradiction].
    apply (readable_get (bs_nodes bs) (TLeaf h l)). eapply tleaf_readable; [eapply tree_ok_readable; exact Hok|exact Hin]. }
  rewrite Hg. cbn [bind].
  destruct (set_leaf_spec _ _ _ _ _ _ _ _ (Hb t) Hin (same_place_qty l q)) as [Hok Hfr].
  exists (mkBookside (bs_fixed bs) (bs_pegged bs) (set_node (bs_nodes bs) h (NLeaf (lf_set_qty l q)))).
  split; [reflexivity|]. split; [|reflexivity].
  pose proof (bs_rep_update _ _ _ t _ _ _ _ Hb Hok Hfr) as Hb'.
  exists F. destruct t; exact Hb'.
Qed.

(** ** Iteration *)
Definition skipped (s : side) (op : Z) (l : leaf) : bool :=
  match fst (oracle_pegged_price op l s) with Skipped => true | _ => false end.

(** What the skip loop returns on the pending list of pegged orders. *)
Fixpoint skip2 (s : side) (op : Z) (pl : list (Z * leaf)) : option (Z * leaf) * list (Z * leaf) :=
  match pl with
  | [] => (None, [])
  | x :: r => if skipped s op (snd x) then skip2 s op r else (Some x, r)
  end.
Definition skip1 (s : side) (op : Z) (pl : list (Z * leaf)) : option (Z * leaf) * list (Z * leaf) :=
  match pl with
  | [] => (None, [])
  | x :: r => if skipped s op (snd x) then skip2 s op pl else (Some x, pl)
  end.

Lemma skip_pegged_step fuel a op h l it :
  skip_pegged (S fuel) a op (Some (h, l)) it =
  if skipped (a_side a) op l
  then bind (tree_iter_next a it) (fun x => let '(o, it') := x in skip_pegged fuel a op o it')
  else Ok (Some (h, l), it).
Proof.
  cbn [skip_pegged]. unfold skipped.
  destruct (fst (oracle_pegged_price op l (a_side a))); try reflexivity.
Qed.

Lemma skip_pegged_2 pl : forall fuel a op it, iter_inv a it pl -> (length pl + 1 < fuel)%nat ->
  forall h l, skipped (a_side a) op l = true ->
  exists it', skip_pegged fuel a op (Some (h, l)) it = Ok (fst (skip2 (a_side a) op pl), it') /\
    iter_inv a it' (snd (skip2 (a_side a) op pl)).
Proof.
  induction pl as [|x pl IH]; intros fuel a op it Hi Hf h l Hs;
    (destruct fuel as [|fuel]; [lia|]); rewrite skip_pegged_step, Hs;
    destruct (iter_inv_next a it _ Hi) as (it1 & He & Hi1); rewrite He; cbn [bind hd_error tl] in *.
  - exists it1. destruct fuel; [cbn in Hf; lia|]. cbn. auto.
  - destruct x as [h' l']. cbn [skip2 snd]. destruct (skipped (a_side a) op l') eqn:E.
    + apply IH; auto. cbn in Hf. lia.
    + destruct fuel as [|fuel]; [cbn in Hf; lia|]. rewrite skip_pegged_step, E. exists it1. auto.
Qed.

Lemma skip2_cons_true s op x r : skipped s op (snd x) = true -> skip2 s op (x :: r) = skip2 s op r.
Proof. intros H. cbn. rewrite H. reflexivity. Qed.

Lemma skip_pegged_spec a op it pl fuel : iter_inv a it pl -> (length pl + 1 < fuel)%nat ->
  exists it', skip_pegged fuel a op (tree_iter_peek it) it = Ok (fst (skip1 (a_side a) op pl), it') /\
    iter_inv a it' (snd (skip1 (a_side a) op pl)).
Proof.
  intros Hi Hf. rewrite (iter_inv_peek _ _ _ Hi). destruct pl as [|[h l] pl].
  - destruct fuel; [lia|]. cbn. exists it. auto.
  - cbn [hd_error skip1 snd]. destruct (skipped (a_side a) op l) eqn:E.
    + (* next returns the same order again *)
      destruct fuel as [|fuel]; [lia|]. rewrite skip_pegged_step, E.
      destruct (iter_inv_next a it _ Hi) as (it1 & He & Hi1). rewrite He. cbn [bind hd_error tl] in *.
      rewrite skip2_cons_true by exact E.
      apply skip_pegged_2; auto. cbn in Hf. lia.
    + destruct fuel as [|fuel]; [lia|]. rewrite skip_pegged_step, E. exists it. auto.
Qed.

(** Orders whose stored price can be decoded. *)
Definition leaf_ok (t : otree_id) (l : leaf) : Prop :=
  0 <= lf_key l < two128 /\
  match t with
  | Fixed => 1 <= lf_key l / 18446744073709551616 <= 9223372036854775807
  | OraclePegged => True
  end.

Definition price_of_key (key : Z) : Z := key / 18446744073709551616.
Definition low_of_key (key : Z) : Z := key mod 18446744073709551616.

Lemma leaf_price_data_eq l : 0 <= lf_key l < two128 -> leaf_price_data l = price_of_key (lf_key l).
Proof.
  intros H. unfold leaf_price_data, price_of_key. rewrite Z.shiftr_div_pow2 by lia.
  change (2 ^ 64) with 18446744073709551616. apply as_u64_id.
  unfold two128 in H. change (2 ^ 128) with (18446744073709551616 * 18446744073709551616) in H.
  split; [apply Z.div_pos; lia|].
  assert (lf_key l / 18446744073709551616 < 18446744073709551616); [|lia].
  apply Z.div_lt_upper_bound; lia.
Qed.

Lemma price_data_range l : 0 <= lf_key l < two128 -> 0 <= price_of_key (lf_key l) <= 18446744073709551615.
Proof.
  intros H. unfold price_of_key. unfold two128 in H.
  change (2 ^ 128) with (18446744073709551616 * 18446744073709551616) in H.
  split; [apply Z.div_pos; lia|].
  assert (lf_key l / 18446744073709551616 < 18446744073709551616); [|lia].
  apply Z.div_lt_upper_bound; lia.
Qed.

(** The price of an order at an oracle price and its state for matching; [None] when
    it is not offered (no oracle, or out of range). *)
Definition item_of (s : side) (now : Z) (oracle : option Z) (t : otree_id) (x : Z * leaf) : option item :=
  let l := snd x in
  let st0 := if leaf_is_expired l now then Invalid else Valid in
  match t with
  | Fixed => Some (mkItem Fixed (fst x) l (price_of_key (lf_key l)) st0)
  | OraclePegged =>
      match oracle with
      | None => None
      | Some op =>
          let (st, p) := oracle_pegged_price op l s in
          match st with
          | Skipped => None
          | _ => Some (mkItem OraclePegged (fst x) l p (if leaf_is_expired l now then Invalid else st))
          end
      end
  end.

Definition rank_key (i : item) : Z := im_price i * 18446744073709551616 + low_of_key (lf_key (im_leaf i)).

Definition pick (s : side) (f p : option item) : option item :=
  match f, p with
  | Some a, Some b =>
      if (match s with Bid => rank_key b <? rank_key a | Ask => rank_key a <? rank_key b end)
      then Some a else Some b
  | None, x => x
  | x, None => x
  end.

Definition oitem_of s now oracle t (o : option (Z * leaf)) : option item :=
  match o with None => None | Some x => item_of s now oracle t x end.

Lemma item_of_fixed s now oracle h l : leaf_ok Fixed l ->
  exists i, fixed_to_result (h, l) now = Ok i /\ item_of s now oracle Fixed (h, l) = Some i /\
    rank_key i = lf_key l.
Proof.
  intros [Hk Hp]. exists (mkItem Fixed h l (price_of_key (lf_key l)) (if leaf_is_expired l now then Invalid else Valid)).
  unfold fixed_to_result. rewrite leaf_price_data_eq by exact Hk.
  rewrite fixed_price_lots_eq by (unfold price_of_key; lia). split; [reflexivity|]. split; [reflexivity|].
  unfold rank_key. cbn [im_price im_leaf]. unfold price_of_key, low_of_key.
  pose proof (Z.div_mod (lf_key l) 18446744073709551616). lia.
Qed.

Lemma oracle_price_range op l s st p : oracle_pegged_price op l s = (st, p) -> 1 <= p <= 9223372036854775807.
Proof.
  unfold oracle_pegged_price, saturating_add_i64, i64_max, i64_min.
  cbv zeta. set (price := Z.max (-9223372036854775808) _). assert (price <= 9223372036854775807) by (unfold price; lia).
  clearbody price.
  destruct ((1 <=? price) && (price <? 9223372036854775807)) eqn:E;
    [destruct (negb _ && _)|]; intros H'; inversion H'; subst; lia.
Qed.

Lemma oracle_price_not_skipped op l s st p : 0 <= lf_key l < two128 ->
  oracle_pegged_price op l s = (st, p) -> st <> Skipped ->
  p = op + (price_of_key (lf_key l) - 9223372036854775808) /\ 1 <= p < 9223372036854775807.
Proof.
  intros Hk. unfold oracle_pegged_price. rewrite leaf_price_data_eq by exact Hk.
  rewrite oracle_pegged_price_offset_eq by (apply price_data_range; exact Hk).
  unfold saturating_add_i64, i64_max, i64_min.
  cbv zeta. remember (Z.max (-9223372036854775808) _) as price eqn:Hpr.
  destruct ((1 <=? price) && (price <? 9223372036854775807)) eqn:E.
  - destruct (negb _ && _); intros H' _; inversion H'; subst p; lia.
  - intros H' Hn. inversion H'. congruence.
Qed.

Lemma key_for_fixed_price_eq key p : 0 <= key < two128 -> 1 <= p <= 9223372036854775807 ->
  key_for_fixed_price key p = Ok (p * 18446744073709551616 + low_of_key key).
Proof.
  intros Hk Hp. unfold key_for_fixed_price, massert, require.
  replace (1 <=? p) with true by lia. cbn [bind].
  unfold fixed_price_data, require. replace (1 <=? p) with true by lia. cbn [bind].
  rewrite as_u64_id by lia. rewrite lor_shift64.
  - reflexivity.
  - unfold as_u64, two64. apply Z.mod_pos_bound. lia.
Qed.

(** The pegged order handed to [rank_orders] by the iterator is never out of range. *)
Definition peek_ok (s : side) (oracle : option Z) (o : option (Z * leaf)) : Prop :=
  match o, oracle with
  | Some x, Some op => skipped s op (snd x) = false
  | Some _, None => False
  | None, _ => True
  end.

Lemma rank_orders_spec s now oracle fo po :
  (forall x, fo = Some x -> leaf_ok Fixed (snd x)) ->
  (forall x, po = Some x -> leaf_ok OraclePegged (snd x)) ->
  peek_ok s oracle po ->
  rank_orders s fo po false now oracle =
    Ok (pick s (oitem_of s now oracle Fixed fo) (oitem_of s now oracle OraclePegged po)).
Proof.
  intros Hf Hp Hpk. unfold rank_orders.
  destruct po as [[ph pl]|].
  - destruct oracle as [op|]; [|contradiction]. cbn [peek_ok snd] in Hpk. unfold skipped in Hpk.
    destruct (oracle_pegged_price op pl s) as [st p] eqn:Eo. cbn [fst] in Hpk.
    assert (Hst : st <> Skipped) by (intros ->; discriminate).
    destruct (Hp _ eq_refl) as [Hpkey _]. cbn [snd] in Hpkey.
    assert (Hi : item_of s now (Some op) OraclePegged (ph, pl) = Some (pegged_to_result ph pl p st now)).
    { unfold item_of. cbn [snd fst]. rewrite Eo. destruct st; try reflexivity. congruence. }
    cbn [oitem_of]. rewrite Hi.
    destruct fo as [[fh fl]|].
    + destruct (item_of_fixed s now (Some op) fh fl (Hf _ eq_refl)) as (i & Hr & Hio & Hrk).
      cbn [oitem_of]. rewrite Hio.
      rewrite key_for_fixed_price_eq; [|exact Hpkey|eapply oracle_price_range; exact Eo]. cbn [bind snd].
      cbn [pick]. rewrite Hrk.
      change (rank_key (pegged_to_result ph pl p st now)) with (p * 18446744073709551616 + low_of_key (lf_key pl)).
      rewrite xorb_false_r. rewrite Hr. cbn [bind].
      destruct s; match goal with |- context [if ?b then _ else _] => destruct b end; reflexivity.
    + reflexivity.
  - replace (match oracle with Some _ => None | None => None end) with (@None (Z * leaf * Z * ostate))
      by (destruct oracle; reflexivity).
    destruct fo as [[fh fl]|]; [|reflexivity].
    destruct (item_of_fixed s now oracle fh fl (Hf _ eq_refl)) as (i & Hr & Hio & Hrk).
    cbn [oitem_of]. rewrite Hr, Hio. reflexivity.
Qed.

Definition skips (s : side) (oracle : option Z) (pl : list (Z * leaf)) : option (Z * leaf) * list (Z * leaf) :=
  match oracle with Some op => skip1 s op pl | None => (None, pl) end.

(** The merged iteration on lists. *)
Fixpoint miter (n : nat) (s : side) (now : Z) (oracle : option Z) (fl pl : list (Z * leaf)) : list item :=
  match n with
  | O => []
  | S n =>
      let sk := skips s oracle pl in
      match pick s (oitem_of s now oracle Fixed (hd_error fl)) (oitem_of s now oracle OraclePegged (fst sk)) with
      | None => []
      | Some i =>
          i :: (match im_tree i with
                | Fixed => miter n s now oracle (tl fl) (snd sk)
                | OraclePegged => miter n s now oracle fl (tl (snd sk))
                end)
      end
  end.

Lemma skip2_in s op pl x : fst (skip2 s op pl) = Some x -> In x pl /\ skipped s op (snd x) = false.
Proof.
  induction pl as [|y pl IH]; cbn; [discriminate|].
  destruct (skipped s op (snd y)) eqn:E; intros H.
  - destruct (IH H). auto.
  - injection H as <-. auto.
Qed.
Lemma skip1_in s op pl x : fst (skip1 s op pl) = Some x -> In x pl /\ skipped s op (snd x) = false.
Proof.
  destruct pl as [|y pl]; cbn [skip1]; [discriminate|].
  destruct (skipped s op (snd y)) eqn:E; intros H; [apply skip2_in; exact H|].
  injection H as <-. split; [left; reflexivity|exact E].
Qed.
Lemma skips_in s oracle pl x : fst (skips s oracle pl) = Some x -> In x pl /\ peek_ok s oracle (Some x).
Proof.
  unfold skips. destruct oracle as [op|]; [|discriminate]. intros H. apply skip1_in in H. exact H.
Qed.
(** The rest of the skip loop is a suffix. *)
Inductive suffix {A} : list A -> list A -> Prop :=
| suffix_refl l : suffix l l
| suffix_cons x l l' : suffix l l' -> suffix l (x :: l').
Lemma skip2_suffix s op pl : suffix (snd (skip2 s op pl)) pl.
Proof.
  induction pl as [|y pl IH]; cbn; [constructor|].
  destruct (skipped s op (snd y)); constructor; [exact IH|constructor].
Qed.
Lemma skip1_suffix s op pl : suffix (snd (skip1 s op pl)) pl.
Proof.
  destruct pl as [|y pl]; cbn [skip1]; [constructor|].
  destruct (skipped s op (snd y)); [apply skip2_suffix|constructor].
Qed.
Lemma skips_suffix s oracle pl : suffix (snd (skips s oracle pl)) pl.
Proof. destruct oracle; [apply skip1_suffix|constructor]. Qed.
Lemma suffix_trans {A} (l m n : list A) : suffix l m -> suffix m n -> suffix l n.
Proof. intros H1 H2. revert l H1. induction H2; intros; auto. constructor. auto. Qed.
Lemma suffix_tl {A} (l : list A) : suffix (tl l) l.
Proof. destruct l; constructor. constructor. Qed.
Lemma suffix_in {A} (l m : list A) x : suffix l m -> In x l -> In x m.
Proof. intros H. induction H; auto. right. auto. Qed.
Lemma suffix_length {A} (l m : list A) : suffix l m -> (length l <= length m)%nat.
Proof. induction 1; cbn; lia. Qed.
Lemma suffix_nodup {A} (l m : list A) : suffix l m -> NoDup m -> NoDup l.
Proof. induction 1; auto. intros Hn. inversion Hn; auto. Qed.
Lemma suffix_map {A B} (f : A -> B) l m : suffix l m -> suffix (map f l) (map f m).
Proof. induction 1; cbn; constructor; auto. Qed.

Lemma pick_some s f p i : pick s f p = Some i -> f = Some i \/ p = Some i.
Proof.
  unfold pick. destruct f as [a|], p as [b|]; auto.
  destruct (match s with Bid => _ | Ask => _ end); auto.
Qed.

Lemma item_of_tree s now oracle t x i : item_of s now oracle t x = Some i ->
  im_tree i = t /\ im_handle i = fst x /\ im_leaf i = snd x.
Proof.
  unfold item_of. destruct t.
  - intros H. injection H as <-. auto.
  - destruct oracle as [op|]; [|discriminate]. destruct (oracle_pegged_price op (snd x) s) as [st p].
    destruct st; intros H; try discriminate; injection H as <-; auto.
Qed.

(** Skipping wastes at least one entry per returned pegged order, so the picked pegged
    order comes from the list and what remains is shorter. *)
Lemma skips_progress s oracle pl x : fst (skips s oracle pl) = Some x ->
  (length (tl (snd (skips s oracle pl))) < length pl)%nat.
Proof.
  intros H. unfold skips in *. destruct oracle as [op|]; [|discriminate].
  destruct pl as [|y pl]; [discriminate|]. cbn [skip1] in *.
  destruct (skipped s op (snd y)) eqn:E.
  - rewrite skip2_cons_true in * by exact E. pose proof (suffix_length _ _ (skip2_suffix s op pl)) as Hl.
    destruct (snd (skip2 s op pl)); cbn in *; lia.
  - cbn. lia.
Qed.

Lemma miter_stable n : forall m s now oracle fl pl, (length fl + length pl <= n)%nat -> (n <= m)%nat ->
  miter m s now oracle fl pl = miter n s now oracle fl pl.
Proof.
  induction n as [|n IH]; intros m s now oracle fl pl Hl Hm.
  - destruct fl; [|cbn in Hl; lia]. destruct pl; [|cbn in Hl; lia].
    destruct m; [reflexivity|]. cbn. destruct oracle; reflexivity.
  - destruct m as [|m]; [lia|]. cbn [miter].
    destruct (pick s _ _) as [i|] eqn:Ep; [|reflexivity]. f_equal.
    apply pick_some in Ep as [Ep|Ep].
    + destruct fl as [|x fl]; [discriminate|]. cbn [hd_error oitem_of] in Ep.
      apply item_of_tree in Ep as (-> & _). cbn [tl].
      pose proof (suffix_length _ _ (skips_suffix s oracle pl)). cbn [length] in Hl. apply IH; lia.
    + destruct (fst (skips s oracle pl)) as [x|] eqn:Es; [|discriminate]. cbn [oitem_of] in Ep.
      apply item_of_tree in Ep as (-> & _).
      pose proof (skips_progress _ _ _ _ Es). apply IH; lia.
Qed.

Definition bitems (bs : bookside) (T : trees) (t : otree_id) : list (Z * leaf) := dir (bs_side bs) (oitems (T t)).

Definition merged (bs : bookside) (T : trees) (now : Z) (oracle : option Z) : list item :=
  miter (length (oitems (T Fixed)) + length (oitems (T OraclePegged))) (bs_side bs) now oracle
    (bitems bs T Fixed) (bitems bs T OraclePegged).

Definition leaves_ok (T : trees) : Prop := forall t l, In l (oleaves (T t)) -> leaf_ok t l.

Lemma bs_iter_collect_spec n : forall fuel bs now oracle it fl pl,
  iter_inv (bs_nodes bs) (bi_fixed it) fl -> iter_inv (bs_nodes bs) (bi_pegged it) pl ->
  (forall x, In x fl -> leaf_ok Fixed (snd x)) -> (forall x, In x pl -> leaf_ok OraclePegged (snd x)) ->
  (length fl + length pl <= n)%nat -> (n < fuel)%nat -> (length pl + 1 < tree_fuel)%nat ->
  bs_iter_collect fuel bs now oracle it = Ok (miter n (bs_side bs) now oracle fl pl).
Proof.
  induction n as [|n IH]; intros fuel bs now oracle it fl pl Hf Hp Hfl Hpl Hl Hfu Htf;
    (destruct fuel as [|fuel]; [lia|]).
  - destruct fl; [|cbn in Hl; lia]. destruct pl; [|cbn in Hl; lia].
    cbn [bs_iter_collect miter]. unfold bs_iter_next.
    assert (Hsk : exists pit, (match oracle with
       | Some op => skip_pegged tree_fuel (bs_nodes bs) op (tree_iter_peek (bi_pegged it)) (bi_pegged it)
       | None => Ok (None, bi_pegged it) end) = Ok (None, pit)).
    { destruct oracle as [op|]; [|eauto].
      destruct (skip_pegged_spec _ op _ _ tree_fuel Hp Htf) as (it' & He & _). rewrite He. cbn. eauto. }
    destruct Hsk as (pit & Hsk). rewrite Hsk. cbn [bind]. rewrite (iter_inv_peek _ _ _ Hf).
    cbn [hd_error]. unfold rank_orders. destruct oracle; reflexivity.
  - cbn [bs_iter_collect miter]. unfold bs_iter_next.
    assert (Hsk : exists pit, (match oracle with
       | Some op => skip_pegged tree_fuel (bs_nodes bs) op (tree_iter_peek (bi_pegged it)) (bi_pegged it)
       | None => Ok (None, bi_pegged it) end) = Ok (fst (skips (bs_side bs) oracle pl), pit) /\
       iter_inv (bs_nodes bs) pit (snd (skips (bs_side bs) oracle pl))).
    { destruct oracle as [op|]; [|cbn; eauto].
      destruct (skip_pegged_spec _ op _ _ tree_fuel Hp Htf) as (it' & He & Hi). exists it'. auto. }
    destruct Hsk as (pit & Hsk & Hpit). rewrite Hsk. cbn [bind].
    rewrite (iter_inv_peek _ _ _ Hf).
    assert (Hpk : peek_ok (bs_side bs) oracle (fst (skips (bs_side bs) oracle pl))).
    { destruct (fst (skips (bs_side bs) oracle pl)) as [x|] eqn:E; [|exact I].
      apply skips_in in E. apply E. }
    change (a_side (bs_nodes bs)) with (bs_side bs).
    rewrite rank_orders_spec; [|intros x Hx; apply Hfl; destruct fl; [discriminate|injection Hx as <-; left; reflexivity]
      |intros x Hx; apply Hpl; apply skips_in in Hx; apply Hx|exact Hpk].
    cbn [bind].
    destruct (pick (bs_side bs) _ _) as [i|] eqn:Ep; [|reflexivity].
    assert (Hsuf := skips_suffix (bs_side bs) oracle pl).
    assert (Hcase : (im_tree i = Fixed /\ exists x fl', fl = x :: fl') \/
                    (im_tree i = OraclePegged /\ exists x, fst (skips (bs_side bs) oracle pl) = Some x)).
    { apply pick_some in Ep as [Ep|Ep].
      - left. destruct fl as [|x fl]; [discriminate|]. cbn [hd_error oitem_of] in Ep. apply item_of_tree in Ep as (-> & _). split; [reflexivity|eauto].
      - right. destruct (fst (skips (bs_side bs) oracle pl)) as [x|] eqn:Es; [|discriminate].
        cbn [oitem_of] in Ep. apply item_of_tree in Ep as (-> & _). split; [reflexivity|eauto]. }
    destruct Hcase as [(Ht & x & fl' & ->)|(Ht & x & Hx)]; rewrite Ht.
    + destruct (iter_inv_next _ _ _ Hf) as (fit & He & Hfit). rewrite He. cbn [bind tl] in *.
      rewrite (IH fuel bs now oracle (mkBsIter fit pit) fl' (snd (skips (bs_side bs) oracle pl))); auto.
      * intros y Hy. apply Hfl. right. exact Hy.
      * intros y Hy. apply Hpl. eapply suffix_in; eauto.
      * apply suffix_length in Hsuf. cbn in Hl. lia.
      * lia.
      * apply suffix_length in Hsuf. lia.
    + destruct (iter_inv_next _ _ _ Hpit) as (pit' & He & Hpit'). rewrite He. cbn [bind] in *.
      pose proof (skips_progress _ _ _ _ Hx) as Hpr.
      rewrite (IH fuel bs now oracle (mkBsIter (bi_fixed it) pit') fl (tl (snd (skips (bs_side bs) oracle pl)))); auto.
      * intros y Hy. apply Hpl. eapply suffix_in; [exact Hsuf|]. eapply suffix_in; [apply suffix_tl|exact Hy].
      * lia.
      * lia.
      * lia.
Qed.

Lemma oitems_leaf o x : In x (oitems o) -> In (snd x) (oleaves o).
Proof. intros H. apply in_map. exact H. Qed.

Lemma bs_count bs T : bs_ok bs T -> (length (oitems (T Fixed)) + length (oitems (T OraclePegged)) <= 513)%nat.
Proof.
  intros (F & Hb). pose proof (tk_alloc _ _ _ _ _ (Hb Fixed)) as Ha. pose proof (alloc_len _ _ _ Ha) as Hl.
  rewrite app_length in Hl. cbn [flip] in Hl.
  assert (H : forall o, (2 * length (oitems o) <= length (ohandles o) + 1)%nat).
  { intros [t|]; cbn; [|lia]. pose proof (thandles_leaves_count t). lia. }
  pose proof (H (T Fixed)). pose proof (H (T OraclePegged)). lia.
Qed.

Theorem iter_all_spec bs T now oracle : bs_ok bs T -> leaves_ok T ->
  iter_all bs now oracle = Ok (merged bs T now oracle).
Proof.
  intros Hok Hl. pose proof (bs_count _ _ Hok) as Hc. destruct Hok as (F & Hb). unfold iter_all, bs_iter_new.
  destruct (tree_iter_new_spec _ _ _ _ _ (Hb Fixed)) as (fi & Hfe & Hfi).
  destruct (tree_iter_new_spec _ _ _ _ _ (Hb OraclePegged)) as (pi & Hpe & Hpi).
  cbn [bs_root] in Hfe, Hpe. rewrite Hfe, Hpe. cbn [bind].
  change (a_side (bs_nodes bs)) with (bs_side bs) in *.
  unfold merged, bitems. apply bs_iter_collect_spec.
  - exact Hfi.
  - exact Hpi.
  - intros x Hx. apply Hl. apply in_dir in Hx. apply oitems_leaf. exact Hx.
  - intros x Hx. apply Hl. apply in_dir in Hx. apply oitems_leaf. exact Hx.
  - rewrite !dir_length. lia.
  - rewrite tree_fuel_eq. lia.
  - rewrite dir_length, tree_fuel_eq. lia.
Qed.

(** ** Items of the merged iteration *)
Lemma miter_in n : forall s now oracle fl pl i, In i (miter n s now oracle fl pl) ->
  exists x, In x (match im_tree i with Fixed => fl | OraclePegged => pl end) /\
    item_of s now oracle (im_tree i) x = Some i.
Proof.
  induction n as [|n IH]; intros s now oracle fl pl i; cbn [miter]; [contradiction|].
  destruct (pick s _ _) as [j|] eqn:Ep; [|contradiction].
  assert (Hcase : (im_tree j = Fixed /\ exists x fl', fl = x :: fl' /\ item_of s now oracle Fixed x = Some j) \/
      (im_tree j = OraclePegged /\ exists x, fst (skips s oracle pl) = Some x /\ item_of s now oracle OraclePegged x = Some j)).
  { apply pick_some in Ep as [Ep|Ep].
    - left. destruct fl as [|x fl]; [discriminate|]. cbn [hd_error oitem_of] in Ep. pose proof Ep as Ep'.
      apply item_of_tree in Ep' as (-> & _). split; [reflexivity|eauto].
    - right. destruct (fst (skips s oracle pl)) as [x|] eqn:Es; [|discriminate]. cbn [oitem_of] in Ep. pose proof Ep as Ep'.
      apply item_of_tree in Ep' as (-> & _). split; [reflexivity|eauto]. }
  destruct Hcase as [(Ht & x & fl' & -> & Hx)|(Ht & x & Hs & Hx)]; rewrite Ht; intros [<-|Hin].
  - rewrite Ht. exists x. split; [left; reflexivity|exact Hx].
  - apply IH in Hin as (y & Hy & Hi). exists y. split; [|exact Hi]. cbn [tl] in Hy.
    destruct (im_tree i); [right; exact Hy|]. eapply suffix_in; [apply skips_suffix|exact Hy].
  - rewrite Ht. exists x. split; [|exact Hx]. apply skips_in in Hs. apply Hs.
  - apply IH in Hin as (y & Hy & Hi). exists y. split; [|exact Hi].
    destruct (im_tree i); [exact Hy|]. eapply suffix_in; [apply skips_suffix|].
    eapply suffix_in; [apply suffix_tl|exact Hy].
Qed.

Definition item_id (i : item) : otree_id * Z := (im_tree i, im_handle i).

Lemma skip2_notin s op pl x : NoDup (map fst pl) -> fst (skip2 s op pl) = Some x ->
  ~ In (fst x) (map fst (snd (skip2 s op pl))).
Proof.
  induction pl as [|y pl IH]; cbn; [discriminate|]. intros Hn H. inversion Hn; subst.
  destruct (skipped s op (snd y)); [auto|]. injection H as <-. assumption.
Qed.

Lemma skips_notin s oracle pl x : NoDup (map fst pl) -> fst (skips s oracle pl) = Some x ->
  ~ In (fst x) (map fst (tl (snd (skips s oracle pl)))).
Proof.
  intros Hn H. unfold skips in *. destruct oracle as [op|]; [|discriminate].
  destruct pl as [|y pl]; [discriminate|]. cbn [skip1] in *.
  destruct (skipped s op (snd y)) eqn:E.
  - intros Hi. eapply skip2_notin; eauto. eapply suffix_in; [apply suffix_map, suffix_tl|exact Hi].
  - cbn in H. injection H as <-. inversion Hn; subst. cbn. assumption.
Qed.

Lemma miter_nodup n : forall s now oracle fl pl, NoDup (map fst fl) -> NoDup (map fst pl) ->
  NoDup (map item_id (miter n s now oracle fl pl)).
Proof.
  induction n as [|n IH]; intros s now oracle fl pl Hf Hp; cbn [miter]; [constructor|].
  destruct (pick s _ _) as [j|] eqn:Ep; [|constructor].
  assert (Hps : NoDup (map fst (snd (skips s oracle pl))))
    by (eapply suffix_nodup; [apply suffix_map, skips_suffix|exact Hp]).
  assert (Hcase : (im_tree j = Fixed /\ exists x fl', fl = x :: fl' /\ item_of s now oracle Fixed x = Some j) \/
      (im_tree j = OraclePegged /\ exists x, fst (skips s oracle pl) = Some x /\ item_of s now oracle OraclePegged x = Some j)).
  { apply pick_some in Ep as [Ep|Ep].
    - left. destruct fl as [|x fl]; [discriminate|]. cbn [hd_error oitem_of] in Ep. pose proof Ep as Ep'.
      apply item_of_tree in Ep' as (-> & _). split; [reflexivity|eauto].
    - right. destruct (fst (skips s oracle pl)) as [x|] eqn:Es; [|discriminate]. cbn [oitem_of] in Ep. pose proof Ep as Ep'.
      apply item_of_tree in Ep' as (-> & _). split; [reflexivity|eauto]. }
  destruct Hcase as [(Ht & x & fl' & -> & Hx)|(Ht & x & Hs & Hx)]; rewrite Ht; cbn [map]; constructor.
  - intros Hin. apply in_map_iff in Hin as (i & Hid & Hin). apply miter_in in Hin as (y & Hy & Hi).
    apply item_of_tree in Hi as (_ & Hh & _). apply item_of_tree in Hx as (_ & Hh' & _).
    unfold item_id in Hid. injection Hid as Hti Hhi. rewrite Hti, Ht in Hy. cbn [tl] in Hy.
    inversion Hf as [|? ? Hni _]; subst. apply Hni. rewrite <- Hh', <- Hhi, Hh. apply in_map. exact Hy.
  - cbn [tl]. apply IH; [inversion Hf; assumption|exact Hps].
  - intros Hin. apply in_map_iff in Hin as (i & Hid & Hin). apply miter_in in Hin as (y & Hy & Hi).
    apply item_of_tree in Hi as (_ & Hh & _). apply item_of_tree in Hx as (_ & Hh' & _).
    unfold item_id in Hid. injection Hid as Hti Hhi. rewrite Hti, Ht in Hy.
    eapply skips_notin; [exact Hp|exact Hs|]. rewrite <- Hh', <- Hhi, Hh. apply in_map. exact Hy.
  - apply IH; [exact Hf|]. eapply suffix_nodup; [apply suffix_map, suffix_tl|exact Hps].
Qed.

Lemma dir_nodup {A} s (l : list A) : NoDup l -> NoDup (dir s l).
Proof. destruct s; cbn; [apply NoDup_rev|auto]. Qed.

Lemma bitems_nodup bs T t : bs_ok bs T -> NoDup (map fst (bitems bs T t)).
Proof.
  intros (F & Hb). unfold bitems. rewrite <- dir_map. apply dir_nodup.
  eapply tree_ok_fst_nodup; apply Hb.
Qed.

Theorem merged_nodup bs T now oracle : bs_ok bs T -> NoDup (map item_id (merged bs T now oracle)).
Proof. intros H. apply miter_nodup; eapply bitems_nodup; eauto. Qed.

(** Every item is an order of its tree with its current price and state. *)
Theorem merged_in bs T now oracle i : In i (merged bs T now oracle) ->
  In (im_handle i, im_leaf i) (oitems (T (im_tree i))) /\
  item_of (bs_side bs) now oracle (im_tree i) (im_handle i, im_leaf i) = Some i.
Proof.
  intros H. apply miter_in in H as (x & Hx & Hi).
  pose proof Hi as Hi'. apply item_of_tree in Hi' as (_ & Hh & Hl).
  rewrite Hh, Hl. replace (fst x, snd x) with x by (destruct x; reflexivity).
  split; [|exact Hi]. apply (in_dir (bs_side bs)). destruct (im_tree i); exact Hx.
Qed.
