(** Exactly which pegged orders the merged iteration lists. *)
From Coq Require Import ZArith List Bool Lia ZifyBool Sorted.
From Verif Require Import Base Nodes OrderTree BookSide BaseFacts NodesFacts BitFacts HeapFacts
  TreeRep TreeFacts TreeOps TreeIter BookSideFacts BookSideOrder SpecBook BookSpecProofs SpecIter.
Import ListNotations.
Open Scope Z_scope.

Lemma pegged_of_fixed i r : im_tree i = Fixed -> pegged_of (i :: r) = pegged_of r.
Proof. intros H. unfold pegged_of. cbn [filter]. rewrite H. reflexivity. Qed.
Lemma pegged_of_pegged i r : im_tree i = OraclePegged -> pegged_of (i :: r) = im_leaf i :: pegged_of r.
Proof. intros H. unfold pegged_of. cbn [filter]. rewrite H. reflexivity. Qed.

Definition outs s op (l : list (Z * leaf)) : Prop := Forall (fun x => skipped s op (snd x) = true) l.
Definition ins s op (l : list (Z * leaf)) : Prop := Forall (fun x => skipped s op (snd x) = false) l.

Lemma skip2_outs s op A r : outs s op A -> skip2 s op (A ++ r) = skip2 s op r.
Proof.
  induction 1 as [|x A Hx HA IH]; [reflexivity|]. cbn [app]. rewrite skip2_cons_true by exact Hx. exact IH.
Qed.
Lemma skip2_all s op A : outs s op A -> skip2 s op A = (None, []).
Proof. intros H. rewrite <- (app_nil_r A). rewrite skip2_outs by exact H. reflexivity. Qed.
Lemma skip1_all s op A : outs s op A -> skip1 s op A = (None, []).
Proof.
  intros H. destruct H as [|x A Hx HA]; [reflexivity|]. cbn [skip1]. rewrite Hx.
  apply skip2_all. constructor; assumption.
Qed.
Lemma skip1_in_first s op b r : skipped s op (snd b) = false -> skip1 s op (b :: r) = (Some b, b :: r).
Proof. intros H. cbn [skip1]. rewrite H. reflexivity. Qed.
Lemma skip1_front s op a A b r : outs s op (a :: A) -> skipped s op (snd b) = false ->
  skip1 s op ((a :: A) ++ b :: r) = (Some b, r).
Proof.
  intros HA Hb. cbn [skip1 app]. inversion HA as [|? ? Ha _]; subst. rewrite Ha.
  change (a :: A ++ b :: r) with ((a :: A) ++ b :: r). rewrite skip2_outs by exact HA. cbn. rewrite Hb. reflexivity.
Qed.

Lemma oitem_fixed s now oracle fl i :
  oitem_of s now oracle Fixed (hd_error fl) = Some i -> exists x r, fl = x :: r /\ item_of s now oracle Fixed x = Some i.
Proof. destruct fl as [|x r]; [discriminate|]. cbn [hd_error oitem_of]. eauto. Qed.

Section Listing.
Variables (s : side) (now op : Z).

(** Nothing out of range ahead: all pegged orders in range are listed. *)
Lemma miter_tail n : forall fl B C, ins s op B -> outs s op C -> (length fl + length (B ++ C) <= n)%nat ->
  pegged_of (miter n s now (Some op) fl (B ++ C)) = map snd B.
Proof.
  induction n as [|n IH]; intros fl B C HB HC Hl.
  - destruct B as [|b B]; [reflexivity|cbn in Hl; lia].
  - cbn [miter skips]. destruct HB as [|b B Hb HB].
    + cbn [app]. rewrite skip1_all by exact HC. cbn [fst snd oitem_of].
      destruct (pick s _ None) as [i|] eqn:Ep; [|reflexivity]. apply pick_none_r in Ep.
      apply oitem_fixed in Ep as (x & r & -> & Ei). pose proof (item_of_tree _ _ _ _ _ _ Ei) as (Et & _).
      rewrite Et, pegged_of_fixed by exact Et. cbn [tl].
      apply (IH r [] []); [constructor|constructor|]. cbn in Hl |- *. lia.
    + cbn [app]. rewrite skip1_in_first by exact Hb. cbn [fst snd].
      change (oitem_of s now (Some op) OraclePegged (Some b)) with (item_of s now (Some op) OraclePegged b).
      destruct (pegged_item s now op b Hb) as (j & Ej).
      rewrite Ej. destruct (pick s _ (Some j)) as [i|] eqn:Ep.
      * destruct (pick_some _ _ _ _ Ep) as [E|E].
        -- apply oitem_fixed in E as (x & r & -> & Ei). pose proof (item_of_tree _ _ _ _ _ _ Ei) as (Et & _).
           rewrite Et, pegged_of_fixed by exact Et. cbn [tl].
           apply (IH r (b :: B) C); [constructor; assumption|assumption|]. cbn [length app] in *. lia.
        -- injection E as ->. pose proof (item_of_tree _ _ _ _ _ _ Ej) as (Et & _ & El).
           rewrite Et, pegged_of_pegged by exact Et. cbn [tl map]. rewrite El. f_equal.
           apply IH; try assumption. cbn [length app] in *. lia.
      * exfalso. destruct (oitem_of s now (Some op) Fixed (hd_error fl)) as [a|]; [|discriminate].
        destruct (pick_best s a j) as (i' & He & _). congruence.
Qed.

(** The best limit order is ranked before the pegged order [b]. *)
Definition ahead (fl : list (Z * leaf)) (b : Z * leaf) : Prop :=
  exists f r i j, fl = f :: r /\ item_of s now (Some op) Fixed f = Some i /\
    item_of s now (Some op) OraclePegged b = Some j /\
    match s with Bid => rank_key j < rank_key i | Ask => rank_key i < rank_key j end.

Lemma miter_front n fl a A b B C : outs s op (a :: A) -> ins s op (b :: B) -> outs s op C ->
  (length fl + length ((a :: A) ++ (b :: B) ++ C) <= n)%nat ->
  (ahead fl b /\ pegged_of (miter n s now (Some op) fl ((a :: A) ++ (b :: B) ++ C)) = map snd B) \/
  (~ ahead fl b /\ pegged_of (miter n s now (Some op) fl ((a :: A) ++ (b :: B) ++ C)) = snd b :: tl (map snd B)).
Proof.
  intros HA HB HC Hl. inversion HB as [|? ? Hb HB']; subst.
  destruct n as [|n]; [cbn in Hl; lia|]. cbn [miter skips].
  change ((b :: B) ++ C) with (b :: B ++ C) in *. rewrite (skip1_front s op a A b _ HA Hb).
  cbn [fst snd].
  change (oitem_of s now (Some op) OraclePegged (Some b)) with (item_of s now (Some op) OraclePegged b).
  destruct (pegged_item s now op b Hb) as (j & Ej). rewrite Ej.
  rewrite app_length in Hl. cbn [length] in Hl.
  pose proof (item_of_tree _ _ _ _ _ _ Ej) as (Etj & _ & Elj).
  assert (Hpeg : forall fl', (length fl' + length (B ++ C) <= n)%nat ->
     pegged_of (miter n s now (Some op) fl' (tl (B ++ C))) = tl (map snd B)).
  { intros fl' Hn. destruct HB' as [|b1 B1 Hb1 HB1].
    - cbn [app map tl]. destruct HC as [|c C Hc HC']; cbn [tl].
      + apply (miter_tail n fl' [] []); [constructor|constructor|]. cbn in *. lia.
      + apply (miter_tail n fl' [] C); [constructor|assumption|]. cbn in *. lia.
    - cbn [app map tl]. apply miter_tail; try assumption. cbn [app length] in *. lia. }
  destruct fl as [|f fl].
  - right. cbn [hd_error oitem_of]. cbn [pick]. rewrite Etj, pegged_of_pegged by exact Etj. rewrite Elj. split.
    + intros (f & r & i & j' & E & _). discriminate.
    + f_equal. apply Hpeg. cbn in *. lia.
  - change (oitem_of s now (Some op) Fixed (hd_error (f :: fl))) with (item_of s now (Some op) Fixed f).
    destruct (fixed_item s now (Some op) f) as (i & Ei). rewrite Ei. cbn [pick].
    pose proof (item_of_tree _ _ _ _ _ _ Ei) as (Eti & _ & Eli).
    destruct (match s with Bid => rank_key j <? rank_key i | Ask => rank_key i <? rank_key j end) eqn:Er.
    + left. rewrite Eti, pegged_of_fixed by exact Eti. cbn [tl]. split.
      * exists f, fl, i, j. repeat (split; [first [reflexivity|assumption]|]). destruct s; lia.
      * apply miter_tail; try assumption. cbn [length] in *. lia.
    + right. rewrite Etj, pegged_of_pegged by exact Etj. rewrite Elj. split.
      * intros (f' & r' & i' & j' & E & Ei' & Ej' & H). injection E as <- <-.
        assert (i' = i) by congruence. assert (j' = j) by congruence. subst. destruct s; lia.
      * f_equal. apply Hpeg. cbn [length] in *. lia.
Qed.
End Listing.

Lemma skipped_out s op l : 0 <= lf_key l < two128 -> ~ in_price_range op l -> skipped s op l = true.
Proof.
  intros Hk. unfold in_price_range, exact_price. rewrite pow64, pow63. intros Hp.
  unfold skipped, oracle_pegged_price. rewrite leaf_price_data_eq by exact Hk.
  rewrite oracle_pegged_price_offset_eq by (apply price_data_range; exact Hk).
  cbv zeta. unfold saturating_add_i64, i64_max, i64_min, price_of_key.
  remember (Z.max (-9223372036854775808) _) as price eqn:Hpr.
  replace ((1 <=? price) && (price <? 9223372036854775807)) with false by lia. reflexivity.
Qed.

(** Where an order's price lies: 0 out of range ahead of those in range, 1 in range, 2 behind. *)
Definition zone (s : side) (op : Z) (l : leaf) : Z :=
  let p := exact_price OraclePegged op l in
  match s with
  | Ask => if p <? 1 then 0 else if p <? 9223372036854775807 then 1 else 2
  | Bid => if p <? 1 then 2 else if p <? 9223372036854775807 then 1 else 0
  end.
Lemma zone_mono s op a b : no_worse s (lf_key a) (lf_key b) -> zone s op a <= zone s op b.
Proof.
  intros H. unfold zone, exact_price. rewrite pow64, pow63.
  assert (Hd : match s with Bid => lf_key b / 18446744073709551616 <= lf_key a / 18446744073709551616
     | Ask => lf_key a / 18446744073709551616 <= lf_key b / 18446744073709551616 end)
    by (destruct s; cbn [no_worse] in H; apply Z.div_le_mono; lia).
  destruct s; repeat match goal with |- context [if ?b then _ else _] => destruct b eqn:? end; lia.
Qed.
Lemma zone_range s op l : in_price_range op l <-> zone s op l = 1.
Proof.
  unfold in_price_range, zone. rewrite pow63.
  destruct s; repeat match goal with |- context [if ?b then _ else _] => destruct b eqn:? end; lia.
Qed.

Lemma split_zones s op (pl : list (Z * leaf)) : key_sorted s pl ->
  exists A B C, pl = A ++ B ++ C /\ Forall (fun x => zone s op (snd x) = 0) A /\
    Forall (fun x => zone s op (snd x) = 1) B /\ Forall (fun x => zone s op (snd x) = 2) C.
Proof.
  induction 1 as [|x r Hs IH Hf]; [exists [], [], []; repeat split; constructor|].
  destruct IH as (A & B & C & E & HA & HB & HC).
  assert (Hz : forall y, In y r -> zone s op (snd x) <= zone s op (snd y)).
  { intros y Hy. rewrite Forall_forall in Hf. apply zone_mono. apply Hf. exact Hy. }
  assert (H3 : zone s op (snd x) = 0 \/ zone s op (snd x) = 1 \/ zone s op (snd x) = 2).
  { unfold zone. destruct s; repeat match goal with |- context [if ?b then _ else _] => destruct b eqn:? end; lia. }
  destruct H3 as [H0|[H1|H2]].
  - exists (x :: A), B, C. rewrite E. repeat split; try assumption. constructor; assumption.
  - destruct A as [|a A].
    + exists [], (x :: B), C. rewrite E. repeat split; try assumption. constructor; assumption.
    + exfalso. inversion HA; subst. specialize (Hz a (or_introl eq_refl)). lia.
  - destruct A as [|a A].
    + destruct B as [|b B].
      * exists [], [], (x :: C). rewrite E. repeat split; try assumption. constructor; assumption.
      * exfalso. inversion HB; subst. specialize (Hz b (or_introl eq_refl)). lia.
    + exfalso. inversion HA; subst. specialize (Hz a (or_introl eq_refl)). lia.
Qed.

Lemma ahead_overtaken s now op fl b : (forall x, In x fl -> leaf_ok Fixed (snd x)) ->
  0 <= lf_key (snd b) < two128 -> skipped s op (snd b) = false ->
  (ahead s now op fl b <-> overtaken s op (map snd fl) (snd b)).
Proof.
  intros Hf Hk Hb.
  assert (Hone : forall f i j, leaf_ok Fixed (snd f) -> item_of s now (Some op) Fixed f = Some i ->
     item_of s now (Some op) OraclePegged b = Some j ->
     match s with Bid => rank_key j < rank_key i | Ask => rank_key i < rank_key j end <->
     better_order s (exact_price Fixed op (snd f)) (seq_of s (snd f)) (exact_price OraclePegged op (snd b)) (seq_of s (snd b))).
  { intros f i j [Hkf _] Ei Ej.
    pose proof (item_of_facts _ _ _ _ _ _ Hkf Ei) as (_ & _ & Eil & Eip & _).
    pose proof (item_of_facts _ _ _ _ _ _ Hk Ej) as (_ & _ & Ejl & Ejp & _).
    rewrite <- (Eip op eq_refl), <- (Ejp op eq_refl).
    unfold rank_key, better_order, seq_of, low_of_key. rewrite Eil, Ejl, pow64.
    pose proof (Z.mod_pos_bound (lf_key (snd f)) 18446744073709551616 ltac:(lia)).
    pose proof (Z.mod_pos_bound (lf_key (snd b)) 18446744073709551616 ltac:(lia)).
    clear Eip Ejp. destruct s; lia. }
  unfold ahead, overtaken. split.
  - intros (f & r & i & j & -> & Ei & Ej & H). exists (snd f), (map snd r). split; [reflexivity|].
    apply (Hone f i j); try assumption. apply Hf. left. reflexivity.
  - intros (f & r & E & H). destruct fl as [|x fl]; [discriminate|]. cbn [map] in E. injection E as <- <-.
    destruct (fixed_item s now (Some op) x) as (i & Ei). destruct (pegged_item s now op b Hb) as (j & Ej).
    exists x, fl, i, j. repeat (split; [first [reflexivity|assumption]|]).
    apply (Hone x i j); try assumption. apply Hf. left. reflexivity.
Qed.

Lemma pegged_iteration s bs now oracle : book_reach s bs ->
  exists items LF A B C, iter_all bs now (Some oracle) = Ok items /\
    lists bs Fixed LF /\ lists bs OraclePegged (A ++ B ++ C) /\
    StronglySorted (fun x y => better_id s (lf_key x) (lf_key y)) LF /\
    StronglySorted (fun x y => better_id s (lf_key x) (lf_key y)) (A ++ B ++ C) /\
    Forall (fun l => ~ in_price_range oracle l) A /\ Forall (in_price_range oracle) B /\
    Forall (fun l => ~ in_price_range oracle l) C /\
    pegged_listed s oracle LF A B (pegged_of items).
Proof.
  intros Hr. apply book_reach_ok in Hr as (T & Hb & Hl & <-).
  destruct (split_zones (bs_side bs) oracle _ (bitems_sorted bs T OraclePegged Hb)) as (A & B & C & E & HA & HB & HC).
  assert (EF : dir (bs_side bs) (oleaves (T Fixed)) = map snd (bitems bs T Fixed))
    by (unfold bitems, oleaves; apply dir_map).
  assert (EP : dir (bs_side bs) (oleaves (T OraclePegged)) = map snd A ++ map snd B ++ map snd C)
    by (rewrite <- !map_app, <- E; unfold bitems, oleaves; apply dir_map).
  assert (Hkey : forall x, In x (bitems bs T OraclePegged) -> 0 <= lf_key (snd x) < two128).
  { intros x Hx. unfold bitems in Hx. rewrite in_dir in Hx. apply oitems_leaf in Hx. apply Hl in Hx. apply Hx. }
  assert (Hfix : forall x, In x (bitems bs T Fixed) -> leaf_ok Fixed (snd x)).
  { intros x Hx. unfold bitems in Hx. rewrite in_dir in Hx. apply oitems_leaf in Hx. apply Hl in Hx. exact Hx. }
  assert (Hout : forall X z, z <> 1 -> (forall x, In x X -> In x (bitems bs T OraclePegged)) ->
     Forall (fun x => zone (bs_side bs) oracle (snd x) = z) X ->
     outs (bs_side bs) oracle X /\ Forall (fun l => ~ in_price_range oracle l) (map snd X)).
  { intros X z Hz Hin H. unfold outs. rewrite Forall_map, !Forall_forall in *. split; intros x Hx.
    - apply skipped_out; [apply Hkey, Hin, Hx|]. rewrite (zone_range (bs_side bs)). rewrite (H x Hx). exact Hz.
    - rewrite (zone_range (bs_side bs)). rewrite (H x Hx). exact Hz. }
  assert (Hin : forall X, (X = A \/ X = B \/ X = C) -> forall x, In x X -> In x (bitems bs T OraclePegged)).
  { intros X HX x Hx. rewrite E, !in_app_iff. destruct HX as [->|[->| ->]]; auto. }
  destruct (Hout A 0 ltac:(lia) (Hin A (or_introl eq_refl)) HA) as [OA RA].
  destruct (Hout C 2 ltac:(lia) (Hin C (or_intror (or_intror eq_refl))) HC) as [OC RC].
  assert (IB : ins (bs_side bs) oracle B).
  { unfold ins. rewrite Forall_forall in *. intros x Hx. apply in_range_not_skipped.
    - apply Hkey. apply (Hin B); auto.
    - apply (zone_range (bs_side bs)). apply HB. exact Hx. }
  exists (merged bs T now (Some oracle)), (map snd (bitems bs T Fixed)), (map snd A), (map snd B), (map snd C).
  split; [apply iter_all_spec; assumption|]. split; [rewrite <- EF; apply bs_lists; exact Hb|].
  split; [rewrite <- EP; apply bs_lists; exact Hb|].
  split; [rewrite <- EF; apply bs_lists_sorted; exact Hb|].
  split; [rewrite <- EP; apply bs_lists_sorted; exact Hb|].
  split; [exact RA|]. split.
  { rewrite Forall_map, Forall_forall in *. intros x Hx. apply (zone_range (bs_side bs)). apply HB. exact Hx. }
  split; [exact RC|].
  assert (Hn : (length (bitems bs T Fixed) + length (bitems bs T OraclePegged)
     <= length (oitems (T Fixed)) + length (oitems (T OraclePegged)))%nat)
    by (unfold bitems; rewrite !dir_length; lia).
  unfold merged. revert Hn. generalize (length (oitems (T Fixed)) + length (oitems (T OraclePegged)))%nat.
  rewrite E. intros n Hn. destruct A as [|a A].
  - cbn [map pegged_listed app] in *. apply miter_tail; assumption.
  - destruct B as [|b B].
    + cbn [map pegged_listed].
      change ((a :: A) ++ [] ++ C) with ([] ++ ((a :: A) ++ C)) in *.
      apply (miter_tail _ _ _ n _ [] ((a :: A) ++ C)); [constructor| |exact Hn].
      unfold outs in *. apply Forall_app. split; assumption.
    + cbn [map pegged_listed].
      assert (Ho : ahead (bs_side bs) now oracle (bitems bs T Fixed) b <->
                   overtaken (bs_side bs) oracle (map snd (bitems bs T Fixed)) (snd b)).
      { apply ahead_overtaken; [exact Hfix| |inversion IB; assumption].
        apply Hkey. apply (Hin (b :: B)); [auto|left; reflexivity]. }
      destruct (miter_front (bs_side bs) now oracle n _ a A b B C OA IB OC Hn) as [[Ha Hp]|[Ha Hp]];
        rewrite Ho in Ha; rewrite Hp; split; intros Hv; try reflexivity; contradiction.
Qed.

Lemma ssorted_app_r {A} (R : A -> A -> Prop) l m : StronglySorted R (l ++ m) -> StronglySorted R m.
Proof. induction l as [|x l IH]; cbn [app]; [auto|]. intros H. inversion H; auto. Qed.
Lemma ssorted_app_l {A} (R : A -> A -> Prop) l m : StronglySorted R (l ++ m) -> StronglySorted R l.
Proof.
  induction l as [|x l IH]; cbn [app]; [constructor|]. intros H. inversion H as [|? ? H' Hf]; subst.
  constructor; [auto|]. apply Forall_app in Hf. apply Hf.
Qed.

(** At most one pegged order in range is missing. *)
Lemma missing_one s bs now oracle : book_reach s bs ->
  exists items LP, iter_all bs now (Some oracle) = Ok items /\ lists bs OraclePegged LP /\
  forall l, In l LP -> in_price_range oracle l -> ~ In l (pegged_of items) ->
    (exists x, In x LP /\ ~ in_price_range oracle x /\ better_id s (lf_key x) (lf_key l)) /\
    (forall l', In l' LP -> in_price_range oracle l' -> l' <> l -> In l' (pegged_of items)) /\
    (forall x y, In x LP -> In y LP -> in_price_range oracle x -> in_price_range oracle y ->
       better_id s (lf_key x) (lf_key l) -> better_id s (lf_key y) (lf_key l) -> x = y).
Proof.
  intros Hr. destruct (pegged_iteration s bs now oracle Hr) as (items & LF & A & B & C & Hi & _ & HL & _ & Hs & RA & RB & RC & Hp).
  exists items, (A ++ B ++ C). split; [exact Hi|]. split; [exact HL|].
  rewrite Forall_forall in RA, RB, RC.
  assert (Hin : forall x, In x (A ++ B ++ C) -> in_price_range oracle x -> In x B).
  { intros x Hx Hrx. rewrite !in_app_iff in Hx. destruct Hx as [Hx|[Hx|Hx]]; [|exact Hx|].
    - exfalso. exact (RA x Hx Hrx).
    - exfalso. exact (RC x Hx Hrx). }
  intros l Hl Hrl Hno. apply Hin in Hl; [|exact Hrl].
  destruct A as [|a A]; [exfalso; apply Hno; cbn [pegged_listed] in Hp; rewrite Hp; exact Hl|].
  destruct B as [|b B]; [destruct Hl|]. cbn [pegged_listed] in Hp. destruct Hp as [H1 H2].
  assert (HsB : StronglySorted (fun x y => better_id s (lf_key x) (lf_key y)) (b :: B)).
  { apply ssorted_app_r in Hs. apply ssorted_app_l in Hs. exact Hs. }
  assert (Hirr : forall x y, better_id s (lf_key x) (lf_key y) -> better_id s (lf_key y) (lf_key x) -> False)
    by (intros x y; destruct s; cbn; lia).
  assert (Hself : forall x, ~ better_id s (lf_key x) (lf_key x)) by (intros x; destruct s; cbn; lia).
  inversion HsB as [|? ? HsB' Hfb]; subst. rewrite Forall_forall in Hfb.
  assert (Hfront : exists x, In x ((a :: A) ++ (b :: B) ++ C) /\ ~ in_price_range oracle x /\ better_id s (lf_key x) (lf_key l)).
  { exists a. split; [left; reflexivity|]. split; [apply RA; left; reflexivity|].
    cbn [app] in Hs. inversion Hs as [|? ? _ Hf]; subst. rewrite Forall_forall in Hf. apply Hf.
    rewrite in_app_iff. right. change (b :: B ++ C) with ((b :: B) ++ C). rewrite in_app_iff. left. exact Hl. }
  split; [exact Hfront|].
  assert (Hdec : overtaken s oracle LF b \/ ~ overtaken s oracle LF b).
  { unfold overtaken. destruct LF as [|f r].
    - right. intros (f & r & E & _). discriminate.
    - assert (Hd : forall p1 n1 p2 n2, better_order s p1 n1 p2 n2 \/ ~ better_order s p1 n1 p2 n2)
        by (intros; destruct s; cbn; lia).
      destruct (Hd (exact_price Fixed oracle f) (seq_of s f) (exact_price OraclePegged oracle b) (seq_of s b)) as [H|H].
      + left. exists f, r. auto.
      + right. intros (f' & r' & E & H'). injection E as <- <-. contradiction. }
  destruct Hdec as [Ho|Ho].
  - rewrite (H1 Ho) in *. assert (El : l = b) by (destruct Hl as [Hl|Hl]; [symmetry; exact Hl|contradiction]). subst l. split.
    + intros l' Hl' Hr' Hne. apply Hin in Hl'; [|exact Hr']. destruct Hl' as [Hl'|Hl']; [congruence|exact Hl'].
    + intros x y Hx _ Hrx _ Bx _. apply Hin in Hx; [|exact Hrx]. exfalso. destruct Hx as [Hx|Hx].
      * subst x. exact (Hself _ Bx).
      * exact (Hirr _ _ Bx (Hfb x Hx)).
  - rewrite (H2 Ho) in *. destruct Hl as [Hl|Hl]; [exfalso; apply Hno; left; exact Hl|].
    destruct B as [|b1 B]; [destruct Hl|]. cbn [tl] in *.
    assert (El : l = b1). { destruct Hl as [Hl|Hl]; [symmetry; exact Hl|]. exfalso. apply Hno. right. exact Hl. }
    subst l. inversion HsB' as [|? ? _ Hfb1]; subst. rewrite Forall_forall in Hfb1. split.
    + intros l' Hl' Hr' Hne. apply Hin in Hl'; [|exact Hr']. destruct Hl' as [Hl'|[Hl'|Hl']]; [left; exact Hl'|congruence|right; exact Hl'].
    + assert (Hb : forall x, In x ((a :: A) ++ (b :: b1 :: B) ++ C) -> in_price_range oracle x ->
        better_id s (lf_key x) (lf_key b1) -> x = b).
      { intros x Hx Hrx Bx. apply Hin in Hx; [|exact Hrx]. destruct Hx as [Hx|[Hx|Hx]]; [symmetry; exact Hx| |].
        - subst x. exfalso. exact (Hself _ Bx).
        - exfalso. exact (Hirr _ _ Bx (Hfb1 x Hx)). }
      intros x y Hx Hy Hrx Hry Bx By. rewrite (Hb x Hx Hrx Bx), (Hb y Hy Hry By). reflexivity.
Qed.
