(** Facts about what the TypeScript client reads off a book side. *)
From Coq Require Import ZArith List Bool Lia ZifyBool Permutation Sorted.
From Verif Require Import Base Nodes OrderTree BookSide Heap Market OpenOrders Order Book Instructions
  BaseFacts NodesFacts TreeRep TreeOps TreeIter BookSideFacts BookSideOrder SpecBook BookSpecProofs SpecFees SpecOrder
  OrderFacts Steps StepFacts SpecLedger SpecEvents Ledger LedgerOrder LedgerInv SpecSystem SystemFacts SpecFit FitIx SpecTs Ts.
Import ListNotations.
Open Scope Z_scope.

(** ** The walk *)
Definition hcount (ts : list tree) : nat := length (concat (map thandles ts)).
Lemma hcount_cons t ts : hcount (t :: ts) = (length (thandles t) + hcount ts)%nat.
Proof. unfold hcount. cbn [map concat]. apply app_length. Qed.

Lemma walk_spec fuel : forall a s ts, (forall t, In t ts -> TreeIter.readable a t) -> (hcount ts < fuel)%nat ->
  ts_walk fuel a s (map thandle ts) = Ok (concat (map (fun t => map snd (dir s (tleaves t))) ts)).
Proof.
  induction fuel as [|fuel IH]; intros a s ts Hr Hf; [lia|].
  destruct ts as [|t ts]; [reflexivity|]. cbn [map ts_walk concat].
  pose proof (Hr t (or_introl eq_refl)) as Ht. pose proof (proj2 Ht _ (thandle_in t)) as Hb.
  rewrite Hb, (repr_content _ _ (proj1 Ht)). rewrite hcount_cons in Hf.
  destruct t as [h l|h p k t0 t1]; cbn [tcontent].
  - rewrite IH; [|intros t Hin; apply Hr; right; exact Hin|cbn [thandles length] in Hf; lia]. cbn [bind].
    destruct s; reflexivity.
  - destruct (readable_node _ _ _ _ _ _ Ht) as (_ & _ & R0 & R1). cbn [thandles length] in Hf. rewrite app_length in Hf.
    destruct s; cbn [tinner in_c0 in_c1].
    + change (thandle t1 :: thandle t0 :: map thandle ts) with (map thandle (t1 :: t0 :: ts)). rewrite IH.
      * cbn [map concat dir tleaves]. rewrite rev_app_distr, map_app, <- app_assoc. reflexivity.
      * intros t [<-|[<-|Hin]]; [exact R1|exact R0|apply Hr; right; exact Hin].
      * rewrite !hcount_cons. lia.
    + change (thandle t0 :: thandle t1 :: map thandle ts) with (map thandle (t0 :: t1 :: ts)). rewrite IH.
      * cbn [map concat dir tleaves]. rewrite map_app, <- app_assoc. reflexivity.
      * intros t [<-|[<-|Hin]]; [exact R0|exact R1|apply Hr; right; exact Hin].
      * rewrite !hcount_cons. lia.
Qed.

Lemma leaves_spec a r o R F s : tree_ok a r o R F -> ts_leaves a s r = Ok (map snd (dir s (oitems o))).
Proof.
  intros H. unfold ts_leaves. pose proof (tk_root _ _ _ _ _ H) as Hroot. destruct o as [t|].
  - destruct Hroot as [Hn Hc]. pose proof (thandles_leaves_count t) as Hl. rewrite Hc, Hn.
    destruct (Z.eqb_spec (Z.of_nat (length (tleaves t))) 0) as [E|_]; [lia|].
    change [thandle t] with (map thandle [t]). rewrite walk_spec.
    + cbn [map concat oitems]. rewrite app_nil_r. reflexivity.
    + intros t' [<-|[]]. eapply tree_ok_readable; exact H.
    + rewrite hcount_cons. change (hcount []) with 0%nat. rewrite tree_fuel_eq.
      destruct (tree_ok_facts _ _ _ _ _ H) as (Ha & _ & _ & _ & _). pose proof (alloc_len _ _ _ Ha) as Hal.
      rewrite app_length in Hal. lia.
  - cbn in Hroot. unfold root_rep in Hroot. rewrite Hroot. destruct s; reflexivity.
Qed.

(** ** One side *)
Section Side.
Context (s : side) (bs : bookside) (T : trees) (HF : fits s bs T).

Lemma side_leaves t : ts_leaves (bs_nodes bs) s (bs_root bs t) = Ok (tree_orders bs t).
Proof using HF.
  rewrite (proj1 (fits_orders _ _ _ t HF)). destruct (ft_ok _ _ _ HF) as (F & Hb).
  rewrite (leaves_spec _ _ _ _ _ s (Hb t)). unfold oleaves. rewrite dir_map. reflexivity.
Qed.
Lemma fixed_spec clock : ts_fixed_items bs s clock = Ok (map (ts_order_of s clock) (tree_orders bs Fixed)).
Proof using HF. unfold ts_fixed_items. change (bs_fixed bs) with (bs_root bs Fixed). rewrite (side_leaves Fixed). reflexivity. Qed.
Lemma pegged_spec clock : ts_pegged_items bs s clock =
  match tree_orders bs OraclePegged with [] => Ok [] | _ => Err SomeError end.
Proof using HF. unfold ts_pegged_items. change (bs_pegged bs) with (bs_root bs OraclePegged). rewrite (side_leaves OraclePegged). reflexivity. Qed.
Lemma merge_nil f : ts_merge s f [] = f.
Proof. destruct f; reflexivity. Qed.
Lemma items_spec clock : ts_items bs s clock =
  match tree_orders bs OraclePegged with
  | [] => Ok (map (ts_order_of s clock) (tree_orders bs Fixed))
  | _ => Err SomeError
  end.
Proof using HF.
  unfold ts_items. rewrite fixed_spec, pegged_spec. cbn [bind]. destruct (tree_orders bs OraclePegged); [|reflexivity].
  cbn [bind]. rewrite merge_nil. reflexivity.
Qed.

Lemma fixed_key l : In l (tree_orders bs Fixed) -> 0 <= lf_key l < 2 ^ 128 /\ 1 <= lf_key l / 2 ^ 64 < 2 ^ 63 /\ 0 < lf_qty l.
Proof using HF.
  rewrite (proj1 (fits_orders _ _ _ Fixed HF)). intros H. apply in_dir in H.
  pose proof (ft_leaves _ _ _ HF Fixed l H) as [Hk Hp]. pose proof (ft_qty _ _ _ HF Fixed l H). cbn in Hp.
  change (2 ^ 128) with 340282366920938463463374607431768211456. change (2 ^ 64) with 18446744073709551616. change (2 ^ 63) with 9223372036854775808.
  change BitFacts.two128 with 340282366920938463463374607431768211456 in Hk. lia.
Qed.

(** What the program iterates over, without pegged orders or without an oracle. *)
Lemma miter_fixed now oracle : forall n fl pl, (length fl <= n)%nat -> pl = [] \/ oracle = None ->
  map (fun i => (im_leaf i, im_price i, im_state i)) (miter n s now oracle fl pl) =
  map (fun x => (snd x, price_of_key (lf_key (snd x)), if leaf_is_expired (snd x) now then Invalid else Valid)) fl.
Proof.
  induction n as [|n IH]; intros fl pl Hl Hc; [destruct fl; [reflexivity|cbn in Hl; lia]|].
  assert (Hs : skips s oracle pl = (None, pl)) by (destruct Hc as [-> | ->]; [destruct oracle|]; reflexivity).
  cbn [miter]. cbv zeta. rewrite Hs. cbn [fst snd oitem_of].
  destruct fl as [|x fl]; [reflexivity|]. cbn [hd_error oitem_of item_of pick im_tree tl map im_leaf im_price im_state snd].
  f_equal. apply IH; [cbn in Hl; lia|exact Hc].
Qed.
Lemma iter_fixed now oracle : tree_orders bs OraclePegged = [] \/ oracle = None ->
  exists items, iter_all bs now oracle = Ok items /\
    map (fun i => (im_leaf i, im_price i, im_state i)) items =
    map (fun l => (l, lf_key l / 2 ^ 64, if leaf_is_expired l now then Invalid else Valid)) (tree_orders bs Fixed).
Proof using HF.
  intros Hc. exists (merged bs T now oracle). split; [exact (iter_all_spec _ _ _ _ (ft_ok _ _ _ HF) (ft_leaves _ _ _ HF))|].
  unfold merged. rewrite (ft_side _ _ _ HF). rewrite miter_fixed.
  - rewrite (proj1 (fits_orders _ _ _ Fixed HF)). unfold bitems, oleaves. rewrite (ft_side _ _ _ HF), dir_map, map_map. reflexivity.
  - unfold bitems. rewrite dir_length. lia.
  - destruct Hc as [Hc| ->]; [left|right; reflexivity]. rewrite (proj1 (fits_orders _ _ _ OraclePegged HF)) in Hc.
    unfold bitems. rewrite (ft_side _ _ _ HF). unfold oleaves in Hc. rewrite dir_map in Hc.
    destruct (dir s (oitems (T OraclePegged))); [reflexivity|discriminate Hc].
Qed.

Lemma fixed_sorted : StronglySorted (fun x y => better_id s (lf_key x) (lf_key y)) (tree_orders bs Fixed).
Proof using HF.
  pose proof (bs_lists_sorted bs T Fixed (ft_ok _ _ _ HF)) as H. rewrite (ft_side _ _ _ HF) in H.
  rewrite (proj1 (fits_orders _ _ _ Fixed HF)). exact H.
Qed.

End Side.

Lemma reachable_fits s sd : reachable s -> exists T, fits sd (w_book (s_w s) sd) T.
Proof.
  intros Hr. apply reachable_inv in Hr as (cl & ct & P & HI). destruct (rp_side _ _ (iv_rep _ _ _ _ _ _ HI) sd) as (T & HT & _). eauto.
Qed.

(** ** Reading the limit orders *)
Lemma key_parts s k : 0 <= k < 2 ^ 128 ->
  let low := k mod 2 ^ 64 in let n := match s with Bid => u64_max - low | Ask => low end in
  is_u64 n /\ k = new_node_key s (k / 2 ^ 64) n.
Proof.
  intros Hk low n. assert (Hl : 0 <= low < 2 ^ 64) by (apply Z.mod_pos_bound; lia).
  assert (Hn : 0 <= n <= 18446744073709551615).
  { change (2 ^ 64) with 18446744073709551616 in Hl. unfold n, u64_max. destruct s; lia. }
  split; [unfold is_u64; change (2 ^ 64) with 18446744073709551616; lia|].
  rewrite new_node_key_eq by exact Hn. pose proof (Z.div_mod k (2 ^ 64) ltac:(lia)) as E. fold low in E.
  change 18446744073709551616 with (2 ^ 64). unfold key_low, n, u64_max. destruct s; lia.
Qed.

Theorem reads_book s sd clock : reachable s ->
  exists L, ts_fixed_items (w_book (s_w s) sd) sd clock = Ok L /\
    map to_leaf L = tree_orders (w_book (s_w s) sd) Fixed /\
    (forall o, In o L -> to_side o = sd /\ is_u64 (to_seq o) /\ lf_key (to_leaf o) = new_node_key sd (to_price o) (to_seq o)) /\
    (forall now oracle, tree_orders (w_book (s_w s) sd) OraclePegged = [] \/ oracle = None ->
      exists items, iter_all (w_book (s_w s) sd) now oracle = Ok items /\
        map (fun i => (im_leaf i, im_price i)) items = map (fun o => (to_leaf o, to_price o)) L).
Proof.
  intros Hr. destruct (reachable_fits s sd Hr) as (T & HF). eexists. split; [exact (fixed_spec _ _ _ HF clock)|].
  split; [rewrite map_map; cbn [ts_order_of to_leaf]; apply map_id|]. split.
  - intros o Ho. apply in_map_iff in Ho as (l & <- & Hl). split; [reflexivity|].
    destruct (fixed_key _ _ _ HF l Hl) as (Hk & _). exact (key_parts sd (lf_key l) Hk).
  - intros now oracle Hc. destruct (iter_fixed _ _ _ HF now oracle Hc) as (items & E & Em). exists items. split; [exact E|].
    apply (f_equal (map (fun x => (fst (fst x), snd (fst x))))) in Em. rewrite !map_map in Em. cbn [fst snd] in Em.
    rewrite map_map. cbn [ts_order_of to_leaf to_price]. exact Em.
Qed.

Theorem reads_expiry s sd clock L : run_on_chain s -> 0 <= clock < 2 ^ 64 ->
  ts_fixed_items (w_book (s_w s) sd) sd clock = Ok L ->
  exists items, iter_all (w_book (s_w s) sd) clock None = Ok items /\
    Forall2 (fun i o => im_leaf i = to_leaf o /\
      (im_state i = Invalid <-> to_expired o = true \/ lf_tif (to_leaf o) <> 0 /\ lf_ts (to_leaf o) + lf_tif (to_leaf o) = clock)) items L.
Proof.
  intros Hr Hc E. pose proof (chain_fits s Hr) as Hf. apply chain_reachable in Hr.
  destruct (reachable_fits s sd Hr) as (T & HF). rewrite (fixed_spec _ _ _ HF clock) in E. injection E as <-.
  destruct (iter_fixed _ _ _ HF clock None (or_intror eq_refl)) as (items & Ei & Em). exists items. split; [exact Ei|].
  clear Ei. change (2 ^ 64) with 18446744073709551616 in Hc.
  assert (Ht : forall l, In l (tree_orders (w_book (s_w s) sd) Fixed) -> 0 <= lf_tif l).
  { intros l Hl. assert (Hin : In (Fixed, l) (orders (s_w s) sd)) by (apply in_or_app; left; apply in_map; exact Hl).
    pose proof (lt_tif _ (af_orders _ Hf sd Fixed l Hin)) as [Ht _]. exact Ht. }
  revert items Em Ht. induction (tree_orders (w_book (s_w s) sd) Fixed) as [|l L IH]; intros items Em Ht.
  - destruct items; [constructor|discriminate Em].
  - destruct items as [|i items]; [discriminate Em|]. cbn [map] in Em. injection Em as E1 E2 E3 E4.
    constructor; [|apply IH; [exact E4|intros l' Hl'; apply Ht; right; exact Hl']].
    pose proof (Ht l (or_introl eq_refl)) as Hl. cbn [ts_order_of to_leaf to_expired]. rewrite E1, E3. split; [reflexivity|].
    unfold leaf_is_expired, u64_max. destruct (Z.eqb_spec (lf_tif l) 0) as [Hz|Hn].
    + rewrite Hz. cbn [Z.ltb Z.compare andb]. split; [intros F; discriminate F|lia].
    + destruct ((0 <? lf_tif l) && (lf_ts l + lf_tif l <=? clock)) eqn:Ex; (split; [intros F|intros F]); try discriminate F; try reflexivity; clear - F Hl Hn Ex; lia.
Qed.

(** ** Depth tables *)
Definition price_of (o : ts_order) : Z := to_price o.
Definition size_of (o : ts_order) : Z := lf_qty (to_leaf o).
Definition at_price (p : Z) (L : list ts_order) : Z := sumZ (map (fun o => if to_price o =? p then size_of o else 0) L).
Lemma at_price_cons p o L : at_price p (o :: L) = (if to_price o =? p then size_of o else 0) + at_price p L.
Proof. reflexivity. Qed.
Lemma at_price_app p L M : at_price p (L ++ M) = at_price p L + at_price p M.
Proof. unfold at_price. rewrite map_app. apply sumZ_app. Qed.

(** Not after. *)
Definition upto (sd : side) (p p' : Z) : Prop := p = p' \/ before sd p p'.
Lemma upto_trans sd p q r : upto sd p q -> upto sd q r -> upto sd p r.
Proof. unfold upto, before. destruct sd; lia. Qed.
Lemma before_upto sd p q r : before sd p q -> upto sd q r -> before sd p r.
Proof. unfold upto, before. destruct sd; lia. Qed.

(** Levels [acc] (last first) built from the orders [D], with [R] still to come. *)
Record building (sd : side) (acc : list (Z * Z)) (D R : list ts_order) : Prop := {
  bd_sorted : falling sd (map fst (rev acc));
  bd_sum : forall p q, In (p, q) acc -> 0 < q /\ q = at_price p D;
  bd_all : forall o, In o D -> In (to_price o) (map fst acc);
  bd_next : forall p o, In p (map fst acc) -> In o R -> upto sd p (to_price o) }.

Lemma falling_snoc sd l p : falling sd l -> (forall x, In x l -> before sd x p) -> falling sd (l ++ [p]).
Proof.
  induction l as [|x l IH]; intros H Hb; [split; [intros ? []|exact I]|]. cbn [app falling] in *. destruct H as [H1 H2]. split.
  - intros y Hy. apply in_app_or in Hy as [Hy|[<-|[]]]; [auto|apply Hb; left; reflexivity].
  - apply IH; [exact H2|intros y Hy; apply Hb; right; exact Hy].
Qed.
Lemma falling_last sd l p x : falling sd (l ++ [p]) -> In x l -> before sd x p.
Proof.
  induction l as [|y l IH]; intros H Hx; [destruct Hx|]. cbn [app falling] in H. destruct H as [H1 H2].
  destruct Hx as [<-|Hx]; [|auto]. apply H1. apply in_or_app. right. left. reflexivity.
Qed.

Lemma levels_spec sd depth : forall R acc D, 0 <= depth -> Z.of_nat (length acc) <= depth ->
  (forall o, In o R -> 0 < size_of o) -> StronglySorted (fun o o' => upto sd (to_price o) (to_price o')) R ->
  building sd acc D R -> (forall p, at_price p D >= 0) ->
  let levels := ts_levels depth acc R in
  Z.of_nat (length levels) <= depth /\ falling sd (map fst levels) /\
  (forall p q, In (p, q) levels -> 0 < q /\ q = at_price p (D ++ R)) /\
  (forall o, In o (D ++ R) -> In (to_price o) (map fst levels) \/
     Z.of_nat (length levels) = depth /\ forall p, In p (map fst levels) -> before sd p (to_price o)).
Proof.
  induction R as [|o R IH]; intros acc D Hd Hlen Hpos Hs HB Hnn levels.
  - subst levels. cbn [ts_levels]. rewrite app_nil_r, rev_length. split; [exact Hlen|]. split; [exact (bd_sorted _ _ _ _ HB)|]. split.
    + intros p q Hin. apply in_rev in Hin. exact (bd_sum _ _ _ _ HB p q Hin).
    + intros x Hx. left. rewrite map_rev. apply in_rev. rewrite rev_involutive. exact (bd_all _ _ _ _ HB x Hx).
  - inversion Hs as [|? ? Hs' Hf]; subst. rewrite Forall_forall in Hf. pose proof (Hpos o (or_introl eq_refl)) as Ho.
    assert (Hpos' : forall x, In x R -> 0 < size_of x) by (intros x Hx; apply Hpos; right; exact Hx).
    assert (Hnn' : forall p, at_price p (D ++ [o]) >= 0).
    { intros p. rewrite at_price_app, at_price_cons. change (at_price p []) with 0. specialize (Hnn p). destruct (to_price o =? p); lia. }
    assert (Happ : D ++ o :: R = (D ++ [o]) ++ R) by (rewrite <- app_assoc; reflexivity).
    (** a new level *)
    assert (Hnew : (forall p, In p (map fst acc) -> before sd p (to_price o)) ->
      let levels := if Z.of_nat (length acc) =? depth then rev acc else ts_levels depth ((to_price o, size_of o) :: acc) R in
      Z.of_nat (length levels) <= depth /\ falling sd (map fst levels) /\
      (forall p q, In (p, q) levels -> 0 < q /\ q = at_price p (D ++ o :: R)) /\
      (forall x, In x (D ++ o :: R) -> In (to_price x) (map fst levels) \/
         Z.of_nat (length levels) = depth /\ forall p, In p (map fst levels) -> before sd p (to_price x))).
    { intros Hb. destruct (Z.eqb_spec (Z.of_nat (length acc)) depth) as [El|Hne]; cbv zeta.
      - rewrite rev_length. split; [lia|]. split; [exact (bd_sorted _ _ _ _ HB)|]. split.
        + intros p q Hin. apply in_rev in Hin. destruct (bd_sum _ _ _ _ HB p q Hin) as (Hq & Eq). split; [exact Hq|].
          rewrite at_price_app. enough (E0 : at_price p (o :: R) = 0) by lia.
          assert (Hp : before sd p (to_price o)) by (apply Hb; apply (in_map fst) in Hin; exact Hin).
          clear - Hp Hf. rewrite at_price_cons. assert (Hno : forall x, In x R -> to_price x <> p).
          { intros x Hx E. pose proof (before_upto _ _ _ _ Hp (Hf x Hx)) as Hb. rewrite E in Hb. unfold before in Hb. destruct sd; lia. }
          replace (to_price o =? p) with false by (unfold before in Hp; destruct sd; lia). clear Hf Hp.
          induction R as [|x R IH]; [reflexivity|]. rewrite at_price_cons. pose proof (Hno x (or_introl eq_refl)).
          replace (to_price x =? p) with false by lia. apply IH. intros y Hy. apply Hno. right. exact Hy.
        + intros x Hx. apply in_app_or in Hx as [Hx|Hx].
          * left. rewrite map_rev, <- in_rev. exact (bd_all _ _ _ _ HB x Hx).
          * right. split; [lia|]. intros p Hp. rewrite map_rev, <- in_rev in Hp. destruct Hx as [<-|Hx]; [auto|].
            exact (before_upto _ _ _ _ (Hb p Hp) (Hf x Hx)).
      - rewrite Happ. apply IH; auto; [cbn [length]; lia|]. constructor.
        + cbn [rev]. rewrite map_app. cbn [map fst]. apply falling_snoc; [exact (bd_sorted _ _ _ _ HB)|].
          intros x Hx. apply Hb. rewrite map_rev, <- in_rev in Hx. exact Hx.
        + intros p q [E|Hin].
          * injection E as <- <-. split; [exact Ho|]. rewrite at_price_app, at_price_cons, Z.eqb_refl. change (at_price (to_price o) []) with 0.
            enough (E0 : at_price (to_price o) D = 0) by lia. specialize (Hnn (to_price o)).
            assert (Hno : forall x, In x D -> to_price x <> to_price o).
            { intros x Hx E. pose proof (Hb _ (bd_all _ _ _ _ HB x Hx)) as Hbx. rewrite E in Hbx. unfold before in Hbx. destruct sd; lia. }
            clear - Hno. induction D as [|x D IH]; [reflexivity|]. rewrite at_price_cons. pose proof (Hno x (or_introl eq_refl)).
            replace (to_price x =? to_price o) with false by lia. apply IH. intros y Hy. apply Hno. right. exact Hy.
          * destruct (bd_sum _ _ _ _ HB p q Hin) as (Hq & Eq). split; [exact Hq|]. rewrite at_price_app, at_price_cons.
            change (at_price p []) with 0. assert (Hp : before sd p (to_price o)) by (apply Hb; apply (in_map fst) in Hin; exact Hin).
            replace (to_price o =? p) with false by (unfold before in Hp; destruct sd; lia). lia.
        + intros x Hx. cbn [map fst]. apply in_app_or in Hx as [Hx|[<-|[]]]; [right; exact (bd_all _ _ _ _ HB x Hx)|left; reflexivity].
        + intros p x Hp Hx. cbn [map fst] in Hp. destruct Hp as [<-|Hp]; [exact (Hf x Hx)|].
          apply (upto_trans sd p (to_price o)); [right; auto|exact (Hf x Hx)]. }
    subst levels. cbn [ts_levels]. cbv zeta. destruct acc as [|[p0 q0] acc]; [apply Hnew; intros p []|].
    destruct (Z.eqb_spec p0 (to_price o)) as [E0|Hne].
    + rewrite Happ. subst p0. fold (size_of o). apply IH; auto. constructor.
      * pose proof (bd_sorted _ _ _ _ HB) as H. cbn [rev] in *. rewrite map_app in *. exact H.
      * intros p q [E|Hin].
        -- injection E as <- <-. destruct (bd_sum _ _ _ _ HB (to_price o) q0 (or_introl eq_refl)) as (Hq & Eq). split; [lia|].
           rewrite at_price_app, at_price_cons, Z.eqb_refl. change (at_price (to_price o) []) with 0. lia.
        -- destruct (bd_sum _ _ _ _ HB p q (or_intror Hin)) as (Hq & Eq). split; [exact Hq|]. rewrite at_price_app, at_price_cons.
           change (at_price p []) with 0.
           assert (Hp : before sd p (to_price o)).
           { pose proof (bd_sorted _ _ _ _ HB) as H. cbn [rev] in H. rewrite map_app in H. cbn [map fst] in H.
             apply (falling_last sd _ _ _ H). rewrite map_rev, <- in_rev. apply (in_map fst) in Hin. exact Hin. }
           replace (to_price o =? p) with false by (unfold before in Hp; destruct sd; lia). lia.
      * intros x Hx. cbn [map fst]. apply in_app_or in Hx as [Hx|[<-|[]]]; [exact (bd_all _ _ _ _ HB x Hx)|left; reflexivity].
      * intros p x Hp Hx. apply (bd_next _ _ _ _ HB p x); [exact Hp|right; exact Hx].
    + apply Hnew. intros p Hp.
      assert (H0 : before sd p0 (to_price o)).
      { pose proof (bd_next _ _ _ _ HB p0 o (or_introl eq_refl) (or_introl eq_refl)) as [H|H]; [contradiction|exact H]. }
      destruct Hp as [<-|Hp]; [exact H0|]. cbn [map fst] in Hp.
      pose proof (bd_sorted _ _ _ _ HB) as H. cbn [rev] in H. rewrite map_app in H. cbn [map fst] in H.
      assert (Hpp : before sd p p0) by (apply (falling_last sd _ _ _ H); rewrite map_rev, <- in_rev; exact Hp).
      apply (before_upto sd p p0); [exact Hpp|right; exact H0].
Qed.

Lemma sorted_prices sd clock L : StronglySorted (fun x y => better_id sd (lf_key x) (lf_key y)) L ->
  StronglySorted (fun o o' => upto sd (to_price o) (to_price o')) (map (ts_order_of sd clock) L).
Proof.
  induction 1 as [|l L H IH HF]; [constructor|]. cbn [map]. constructor; [exact IH|]. rewrite Forall_forall in *.
  intros o Ho. apply in_map_iff in Ho as (l' & <- & Hl'). cbn [ts_order_of to_price]. specialize (HF l' Hl').
  unfold better_id, upto, before in *. pose proof (Z.div_le_mono (lf_key l) (lf_key l') (2 ^ 64) ltac:(lia)).
  pose proof (Z.div_le_mono (lf_key l') (lf_key l) (2 ^ 64) ltac:(lia)). destruct sd; lia.
Qed.

Theorem l2_table s sd clock depth : reachable s -> 0 <= depth ->
  (forall t l, In (t, l) (orders (s_w s) sd) -> t = Fixed) ->
  exists levels, ts_l2 (w_book (s_w s) sd) sd clock depth = Ok levels /\ depth_table (s_w s) sd depth levels.
Proof.
  intros Hr Hd Hp. destruct (reachable_fits s sd Hr) as (T & HF).
  assert (Hn : tree_orders (w_book (s_w s) sd) OraclePegged = []).
  { destruct (tree_orders (w_book (s_w s) sd) OraclePegged) as [|l L] eqn:E; [reflexivity|].
    assert (Hin : In (OraclePegged, l) (orders (s_w s) sd)) by (unfold orders; rewrite E; apply in_or_app; right; left; reflexivity).
    discriminate (Hp _ _ Hin). }
  unfold ts_l2. rewrite (items_spec _ _ _ HF), Hn. cbn [bind].
  set (F := tree_orders (w_book (s_w s) sd) Fixed). set (R := map (ts_order_of sd clock) F).
  assert (Eo : orders (s_w s) sd = map (pair Fixed) F) by (unfold orders; rewrite Hn; apply app_nil_r).
  destruct (levels_spec sd depth R [] [] Hd ltac:(cbn; lia)) as (H1 & H2 & H3 & H4).
  - intros o Ho. apply in_map_iff in Ho as (l & <- & Hl). exact (proj2 (proj2 (fixed_key _ _ _ HF l Hl))).
  - apply sorted_prices. exact (fixed_sorted _ _ _ HF).
  - constructor; [exact I|intros p q []|intros o []|intros p o []].
  - intros p. change (at_price p []) with 0. lia.
  - exists (ts_levels depth [] R). split; [reflexivity|]. cbn [app] in H3, H4. constructor; auto.
    + intros p q Hin. destruct (H3 p q Hin) as (Hq & E). split; [exact Hq|]. rewrite E. unfold lots_at, at_price. rewrite Eo.
      unfold R. rewrite !map_map. reflexivity.
    + intros t l Hin. rewrite Eo in Hin. apply in_map_iff in Hin as (l' & E & Hl). injection E as <- <-.
      exact (H4 (ts_order_of sd clock l') (in_map _ _ _ Hl)).
Qed.

(** The order lists fail as soon as one pegged order rests on the side. *)
Theorem pegged_fails s sd clock : reachable s ->
  (forall t l, In (t, l) (orders (s_w s) sd) -> t = Fixed) \/
  ts_items (w_book (s_w s) sd) sd clock = Err SomeError /\ ts_best (w_book (s_w s) sd) sd clock = Err SomeError /\
  forall depth, ts_l2 (w_book (s_w s) sd) sd clock depth = Err SomeError.
Proof.
  intros Hr. destruct (reachable_fits s sd Hr) as (T & HF). unfold ts_best, ts_l2. rewrite (items_spec _ _ _ HF).
  destruct (tree_orders (w_book (s_w s) sd) OraclePegged) as [|l L] eqn:E; [left|right; split; [|split]; reflexivity].
  intros t l Hin. unfold orders in Hin. rewrite E, app_nil_r in Hin. apply in_map_iff in Hin as (l' & El & _). congruence.
Qed.
