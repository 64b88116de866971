(** Placing an order, taken apart: facts about the matching trace, the taker's settlement
    and the posting of the remainder. *)
From Coq Require Import ZArith List Bool Lia Sorted.
From Verif Require Import Base Nodes OrderTree BookSide Heap Market OpenOrders Order Book
  BaseFacts NodesFacts TreeRep TreeFacts TreeOps TreeIter BookSideFacts BookSideOrder SpecBook
  BookSpecProofs SpecOrder SpecFees FeeFacts MatchFacts MatchBook.
Import ListNotations.
Open Scope Z_scope.

Definition items_ok (items : list item) : Prop :=
  forall i, In i items -> 0 < lf_qty (im_leaf i) /\ 1 <= im_price i.

Lemma items_ok_tl i r : items_ok (i :: r) -> items_ok r.
Proof. intros H j Hj. apply H. right. exact Hj. Qed.

Lemma quote_lots_app A B : quote_lots (A ++ B) = quote_lots A + quote_lots B.
Proof. unfold quote_lots. rewrite map_app, sumZ_app. reflexivity. Qed.
Lemma base_lots_app A B : base_lots (A ++ B) = base_lots A + base_lots B.
Proof. unfold base_lots. rewrite map_app, sumZ_app. reflexivity. Qed.

Section Facts.
Variables (o : order) (price : Z) (taker : option Z) (owner : Z) (rem : list Z) (now : Z).
Notation tr := (ltrace o price taker owner rem now).

(** What is known of each happening. *)
Definition act_fact (a : act) : Prop :=
  match a with
  | AFill i q => is_valid i = true /\ is_price_within_limit (o_side o) (im_price i) price = true /\
      is_post_only o = false /\ 1 <= q <= lf_qty (im_leaf i) /\ 1 <= im_price i /\
      (own_trade taker owner i = true -> o_self_trade o = DecrementTake)
  | ADrop i => is_valid i = false
  | AOwn i => is_valid i = true /\ is_price_within_limit (o_side o) (im_price i) price = true /\
      is_post_only o = false /\ o_self_trade o = CancelProvide /\ owner = lf_owner (im_leaf i) /\ exists t, taker = Some t
  end.

Lemma quot_pos a b : 0 <= a -> 1 <= b -> Z.quot a b <> 0 -> 1 <= Z.quot a b /\ Z.quot a b * b <= a < Z.quot a b * b + b.
Proof.
  intros Ha Hb H. rewrite quot_nonneg in * by lia.
  pose proof (Z.div_mod a b ltac:(lia)). pose proof (Z.mod_pos_bound a b ltac:(lia)).
  pose proof (Z.div_pos a b Ha ltac:(lia)). split; [lia|]. nia.
Qed.

Lemma fill_q s i : 0 <= ms_base s -> 0 <= ms_quote s -> busy s -> 0 < lf_qty (im_leaf i) -> 1 <= im_price i ->
  Z.quot (ms_quote s) (im_price i) <> 0 ->
  let q := to_fill s i (Z.quot (ms_quote s) (im_price i)) in
  1 <= q <= lf_qty (im_leaf i) /\ q <= ms_base s /\ q * im_price i <= ms_quote s /\
  (q = lf_qty (im_leaf i) \/ q = ms_base s \/ ms_quote s - q * im_price i < im_price i).
Proof.
  intros Hb Hq [B1 B2] H1 H2 H3 q. destruct (quot_pos _ _ Hq H2 H3) as [H4 H5]. unfold q, to_fill.
  set (Q := Z.quot (ms_quote s) (im_price i)) in *. clearbody Q.
  split; [lia|]. split; [lia|]. split; [nia|].
  destruct (Z.min_spec (ms_base s) (lf_qty (im_leaf i))) as [[? ->]|[? ->]];
    match goal with |- context [Z.min ?a Q] => destruct (Z.min_spec a Q) as [[? ->]|[? ->]] end; nia.
Qed.

Lemma lt_acts items s acts s' lf : tr items s acts s' lf -> items_ok items ->
  0 <= ms_base s -> 0 <= ms_quote s ->
  Forall act_fact acts /\ 0 <= ms_base s' /\ 0 <= ms_quote s'.
Proof.
  induction 1 as [s|i r s Hd|i r s Hb V W|i r s Hb V W St|i r s acts s' lf Hb V D HT IH
    |i r s w acts s' lf Hb V D P HT IH|i r s t a a' acts s' lf Hb V W PO L Q Tk Ow ST Ld Cn HT IH
    |i r s q dec reb w np acts s' lf Hb V W PO L P0 Q Eq Hq S1 S2 P HT IH]; intros Hi B0 Q0.
  1-4: split; [constructor|split; assumption].
  - apply IH; try assumption. eapply items_ok_tl; exact Hi.
  - destruct IH as (F & R); [eapply items_ok_tl; exact Hi|exact B0|exact Q0|].
    split; [constructor; [exact V|exact F]|exact R].
  - destruct IH as (F & R); [eapply items_ok_tl; exact Hi|exact B0|exact Q0|].
    split; [constructor; [|exact F]|exact R]. cbn [act_fact].
    split; [exact V|]. split; [exact W|]. split; [exact PO|]. split; [exact ST|]. split; [exact Ow|]. exists t. exact Tk.
  - destruct (Hi i (or_introl eq_refl)) as [I1 I2].
    pose proof (fill_q s i B0 Q0 Hb I1 I2 Q) as (F1 & F2 & F3 & _). rewrite <- Eq in *.
    destruct IH as (F & R); [eapply items_ok_tl; exact Hi|cbn [after_fill ms_base]; lia|cbn [after_fill ms_quote]; lia|].
    split; [constructor; [|exact F]|exact R]. cbn [act_fact].
    split; [exact V|]. split; [exact W|]. split; [exact PO|]. split; [exact F1|]. split; [exact I2|].
    intros E. apply S1. exact E.
Qed.

Lemma not_busy_nil items s acts s' lf : tr items s acts s' lf -> ~ busy s -> acts = [].
Proof. intros H Hn. destruct H; try reflexivity; try contradiction. Qed.

(** At each fill: enough budget, and either the whole order or nothing more. *)
Lemma lt_split items s acts s' lf : tr items s acts s' lf -> items_ok items ->
  0 <= ms_base s -> 0 <= ms_quote s -> forall A i q B, acts = A ++ AFill i q :: B ->
  1 <= q /\ q * im_price i <= ms_quote s - quote_lots A /\ q <= ms_base s - base_lots A /\
  (Z.of_nat (length (filter is_fill A)) < ms_limit s) /\
  (q = lf_qty (im_leaf i) \/ (q = ms_base s - base_lots A /\ B = []) \/
   ms_quote s - quote_lots A - q * im_price i < im_price i).
Proof.
  induction 1 as [s|i r s Hd|i r s Hb V W|i r s Hb V W St|i r s acts s' lf Hb V D HT IH
    |i r s w acts s' lf Hb V D P HT IH|i r s t a a' acts s' lf Hb V W PO L Q Tk Ow ST Ld Cn HT IH
    |i r s q dec reb w np acts s' lf Hb V W PO L P0 Q Eq Hq S1 S2 P HT IH]; intros Hi B0 Q0 A j p B E.
  1-4: destruct A; discriminate E.
  - eapply IH; [eapply items_ok_tl; exact Hi|assumption|assumption|exact E].
  - destruct A as [|x A]; [discriminate E|]. cbn [app] in E. injection E as <- E.
    rewrite base_lots_cons, quote_lots_cons. cbn [act_base act_quote filter is_fill].
    apply IH with (B := B) in E; [|eapply items_ok_tl; exact Hi|exact B0|exact Q0].
    cbn [after_drop ms_base ms_quote ms_limit] in E. rewrite !Z.add_0_l. exact E.
  - destruct A as [|x A]; [discriminate E|]. cbn [app] in E. injection E as <- E.
    rewrite base_lots_cons, quote_lots_cons. cbn [act_base act_quote filter is_fill].
    apply IH with (B := B) in E; [|eapply items_ok_tl; exact Hi|exact B0|exact Q0].
    cbn [after_own ms_base ms_quote ms_limit] in E. rewrite !Z.add_0_l. exact E.
  - destruct (Hi i (or_introl eq_refl)) as [I1 I2].
    pose proof (fill_q s i B0 Q0 Hb I1 I2 Q) as (F1 & F2 & F3 & F4). rewrite <- Eq in *.
    destruct A as [|x A]; cbn [app] in E.
    + injection E as <- <- <-. change (base_lots []) with 0. change (quote_lots []) with 0. cbn [filter length Z.of_nat].
      rewrite !Z.sub_0_r. split; [lia|]. split; [exact F3|]. split; [exact F2|]. split; [lia|].
      destruct F4 as [F4|[F4|F4]]; [left; exact F4| |right; right; exact F4].
      right. left. split; [exact F4|]. eapply not_busy_nil; [exact HT|]. intros [Hb1 _]. apply Hb1.
      cbn [after_fill ms_base]. lia.
    + injection E as <- E. rewrite base_lots_cons, quote_lots_cons. cbn [act_base act_quote filter is_fill].
      apply IH with (B := B) in E; [|eapply items_ok_tl; exact Hi|cbn [after_fill ms_base]; lia|cbn [after_fill ms_quote]; lia].
      cbn [after_fill ms_base ms_quote ms_limit] in E. cbn [length]. rewrite Nat2Z.inj_succ.
      destruct E as (E1 & E2 & E3 & E4 & E5). split; [lia|]. split; [lia|]. split; [lia|]. split; [lia|].
      destruct E5 as [E5|[[E5 E6]|E5]]; [left; exact E5|right; left; split; [lia|exact E6]|right; right; lia].
Qed.

(** Every valid order passed by is in the trace. *)
Lemma lt_prefix items s acts s' lf : tr items s acts s' lf ->
  exists done, items = done ++ lf /\ forall i, In i done -> is_valid i = true -> In i (map act_item acts).
Proof.
  induction 1 as [s|i r s Hd|i r s Hb V W|i r s Hb V W St|i r s acts s' lf Hb V D HT IH
    |i r s w acts s' lf Hb V D P HT IH|i r s t a a' acts s' lf Hb V W PO L Q Tk Ow ST Ld Cn HT IH
    |i r s q dec reb w np acts s' lf Hb V W PO L P0 Q Eq Hq S1 S2 P HT IH].
  1-4: exists []; split; [reflexivity|intros j []].
  all: destruct IH as (d & -> & IH); exists (i :: d); (split; [reflexivity|]); intros j [<-|Hj] Vj; cbn [map act_item].
  - congruence.
  - auto.
  - left. reflexivity.
  - right. auto.
  - left. reflexivity.
  - right. auto.
  - left. reflexivity.
  - right. auto.
Qed.

(** Happenings follow the listing: before one, every valid order listed earlier. *)
Lemma lt_before items s acts s' lf : tr items s acts s' lf -> NoDup items ->
  forall A a B, acts = A ++ a :: B -> forall X Y, items = X ++ act_item a :: Y ->
  forall i, In i X -> is_valid i = true -> In i (map act_item A).
Proof.
  induction 1 as [s|i r s Hd|i r s Hb V W|i r s Hb V W St|i r s acts s' lf Hb V D HT IH
    |i r s w acts s' lf Hb V D P HT IH|i r s t a' a'' acts s' lf Hb V W PO L Q Tk Ow ST Ld Cn HT IH
    |i r s q dec reb w np acts s' lf Hb V W PO L P0 Q Eq Hq S1 S2 P HT IH]; intros N A a B E X Y EX j Hj Vj.
  1-4: destruct A; discriminate E.
  - destruct X as [|x X]; [destruct Hj|]. cbn [app] in EX. injection EX as <- EX.
    inversion N as [|? ? N1 N2]; subst. destruct Hj as [<-|Hj]; [congruence|]. eapply IH; eauto.
  - inversion N as [|? ? N1 N2]; subst. destruct A as [|b A]; cbn [app] in E; injection E as <- E.
    + exfalso. destruct X as [|x X]; [destruct Hj|]. cbn [app act_item] in EX. injection EX as <- EX.
      apply N1. rewrite EX. apply in_or_app. right. left. reflexivity.
    + destruct X as [|x X]; [destruct Hj|]. cbn [app] in EX. injection EX as <- EX.
      destruct Hj as [<-|Hj]; cbn [map act_item]; [left; reflexivity|right; eapply IH; eauto].
  - inversion N as [|? ? N1 N2]; subst. destruct A as [|b A]; cbn [app] in E; injection E as <- E.
    + exfalso. destruct X as [|x X]; [destruct Hj|]. cbn [app act_item] in EX. injection EX as <- EX.
      apply N1. rewrite EX. apply in_or_app. right. left. reflexivity.
    + destruct X as [|x X]; [destruct Hj|]. cbn [app] in EX. injection EX as <- EX.
      destruct Hj as [<-|Hj]; cbn [map act_item]; [left; reflexivity|right; eapply IH; eauto].
  - inversion N as [|? ? N1 N2]; subst. destruct A as [|b A]; cbn [app] in E; injection E as <- E.
    + exfalso. destruct X as [|x X]; [destruct Hj|]. cbn [app act_item] in EX. injection EX as <- EX.
      apply N1. rewrite EX. apply in_or_app. right. left. reflexivity.
    + destruct X as [|x X]; [destruct Hj|]. cbn [app] in EX. injection EX as <- EX.
      destruct Hj as [<-|Hj]; cbn [map act_item]; [left; reflexivity|right; eapply IH; eauto].
Qed.

(** If the order may still be posted, the loop ended for one of these reasons. *)
Lemma lt_exit items s acts s' lf : tr items s acts s' lf -> ms_target s' <> None ->
  lf = [] \/ ms_base s' = 0 \/ ms_quote s' = 0 \/
  exists i r, lf = i :: r /\ is_valid i = true /\ is_price_within_limit (o_side o) (im_price i) price = false.
Proof.
  induction 1 as [s|i r s Hd|i r s Hb V W|i r s Hb V W St|i r s acts s' lf Hb V D HT IH
    |i r s w acts s' lf Hb V D P HT IH|i r s t a' a'' acts s' lf Hb V W PO L Q Tk Ow ST Ld Cn HT IH
    |i r s q dec reb w np acts s' lf Hb V W PO L P0 Q Eq Hq S1 S2 P HT IH]; intros Ht; try (apply IH; exact Ht).
  - left. reflexivity.
  - right. destruct Hd as [Hd|Hd]; auto.
  - right. right. right. exists i, r. auto.
  - exfalso. apply Ht. reflexivity.
Qed.

Lemma lt_limit_nonneg items s acts s' lf : tr items s acts s' lf -> 0 <= ms_limit s -> 0 <= ms_limit s'.
Proof.
  induction 1 as [s|i r s Hd|i r s Hb V W|i r s Hb V W St|i r s acts s' lf Hb V D HT IH
    |i r s w acts s' lf Hb V D P HT IH|i r s t a' a'' acts s' lf Hb V W PO L Q Tk Ow ST Ld Cn HT IH
    |i r s q dec reb w np acts s' lf Hb V W PO L P0 Q Eq Hq S1 S2 P HT IH]; intros H0; auto.
  apply IH. cbn [after_fill ms_limit]. lia.
Qed.
Lemma lt_dropped items s acts s' lf : tr items s acts s' lf -> ms_dropped s <= 5 -> ms_dropped s' <= 5.
Proof.
  induction 1 as [s|i r s Hd|i r s Hb V W|i r s Hb V W St|i r s acts s' lf Hb V D HT IH
    |i r s w acts s' lf Hb V D P HT IH|i r s t a' a'' acts s' lf Hb V W PO L Q Tk Ow ST Ld Cn HT IH
    |i r s q dec reb w np acts s' lf Hb V W PO L P0 Q Eq Hq S1 S2 P HT IH]; intros H0; auto.
  apply IH. cbn [after_drop ms_dropped]. lia.
Qed.

End Facts.

(** ** The book sides *)
Record fits (s : side) (bs : bookside) (T : trees) : Prop := {
  ft_ok : bs_ok bs T;
  ft_side : bs_side bs = s;
  ft_reach : book_reach s bs;
  ft_leaves : leaves_ok T;
  ft_qty : forall t l, In l (oleaves (T t)) -> 0 < lf_qty l }.

Lemma sublist_in {A} (l m : list A) x : sublist l m -> In x l -> In x m.
Proof. induction 1; cbn; intros H'; [destruct H'| |]; intuition. Qed.
Lemma sublist_map {A B} (f : A -> B) l m : sublist l m -> sublist (map f l) (map f m).
Proof. induction 1; cbn; constructor; auto. Qed.
Lemma sublist_nodup {A} (l m : list A) : sublist l m -> NoDup m -> NoDup l.
Proof.
  induction 1 as [l|x l m H IH|x l m H IH]; intros N; [constructor| |]; inversion N; subst; auto.
  constructor; auto. intros Hx. eapply sublist_in in Hx; eauto.
Qed.

Lemma merged_items_ok s bs T now oracle : fits s bs T -> items_ok (merged bs T now oracle).
Proof.
  intros [Hok Hs _ Hl Hq] i Hi. pose proof (merged_item _ _ _ _ _ Hok Hl Hi) as (x & Hx & Ex & Hk).
  pose proof (item_of_facts _ _ _ _ _ _ Hk Ex) as (_ & _ & E3 & _ & E5 & E6 & _).
  apply oitems_leaf in Hx. split; [rewrite E3; eapply Hq; exact Hx|].
  apply Hl in Hx. destruct Hx as [_ Hx]. destruct (im_tree i).
  - rewrite E5 by reflexivity. rewrite pow64. lia.
  - specialize (E6 eq_refl). lia.
Qed.

Lemma items_id_nodup (l : list item) : NoDup (map item_id l) -> NoDup l.
Proof. apply NoDup_map_inv. Qed.

Lemma merged_on_book bs T now oracle acts : bs_ok bs T ->
  sublist (map act_item acts) (merged bs T now oracle) -> Forall (on_book T) acts.
Proof.
  intros Hok Hs. apply Forall_forall. intros a Ha. apply (in_map act_item) in Ha.
  apply (sublist_in _ _ _ Hs) in Ha. apply merged_in in Ha as [Ha _]. exact Ha.
Qed.

Lemma acts_akey_nodup bs T now oracle acts : bs_ok bs T ->
  sublist (map act_item acts) (merged bs T now oracle) -> NoDup (map akey acts).
Proof.
  intros Hok Hs. pose proof (merged_on_book _ _ _ _ _ Hok Hs) as Hon. rewrite Forall_forall in Hon.
  pose proof (sublist_nodup _ _ (sublist_map item_id _ _ Hs) (merged_nodup _ _ _ _ Hok)) as N.
  rewrite map_map in N. clear Hs. induction acts as [|a r IH]; [constructor|].
  cbn [map] in *. inversion N as [|? ? N1 N2]; subst. constructor; [|apply IH; [intros; apply Hon; right; assumption|exact N2]].
  intros Hin. apply N1. apply in_map_iff in Hin as (b & E & Hb). apply in_map_iff. exists b. split; [|exact Hb].
  unfold akey in E. injection E as E1 E2. unfold item_id. f_equal; [exact E1|].
  pose proof (Hon a (or_introl eq_refl)) as Oa. pose proof (Hon b (or_intror Hb)) as Ob. unfold on_book in Oa, Ob.
  rewrite E1 in Ob. pose proof (items_key_inj _ _ _ _ _ _ _ Hok Ob Oa E2) as E. congruence.
Qed.

Lemma residue_cases acts t l l' : residue acts t l = Some l' ->
  l' = l \/ exists i q, In (AFill i q) acts /\ about (AFill i q) t l = true /\ lf_qty l <> q /\ l' = lf_set_qty l (lf_qty l - q).
Proof.
  induction acts as [|a r IH]; cbn [residue]; intros H; [left; congruence|].
  destruct (about a t l) eqn:Ab.
  - destruct a as [i q|i|i]; cbn [after_act] in H; try discriminate H.
    destruct (Z.eqb_spec (lf_qty l) q) as [E|E]; [discriminate H|]. injection H as <-.
    right. exists i, q. split; [left; reflexivity|auto].
  - destruct (IH H) as [E|(i & q & H1 & H2)]; [left; exact E|right; exists i, q; split; [right; exact H1|exact H2]].
Qed.

Lemma residues_in acts t L l' : In l' (residues acts t L) <-> exists l, In l L /\ residue acts t l = Some l'.
Proof.
  induction L as [|x L IH]; cbn [residues].
  - split; [intros []|intros (l & [] & _)].
  - assert (C : (exists l, In l (x :: L) /\ residue acts t l = Some l') <->
                (residue acts t x = Some l' \/ exists l, In l L /\ residue acts t l = Some l')).
    { cbn [In]. split.
      - intros (l & [E|Hl] & El); [left; subst; exact El|right; exists l; auto].
      - intros [El|(l & Hl & El)]; [exists x; auto|exists l; auto]. }
    rewrite C, <- IH. destruct (residue acts t x) as [y|]; cbn [In].
    + split; (intros [E|E]; [left; congruence|right; exact E]).
    + split; [intros E; right; exact E|intros [E|E]; [discriminate E|exact E]].
Qed.

Lemma fits_residues s bs T bs' T' acts : fits s bs T -> bs_ok bs' T' -> bs_side bs' = bs_side bs -> book_reach s bs' ->
  (forall t, oleaves (T' t) = residues acts t (oleaves (T t))) -> Forall (on_book T) acts ->
  (forall i q, In (AFill i q) acts -> q <= lf_qty (im_leaf i)) -> fits s bs' T'.
Proof.
  intros [Hok Hs _ Hl Hq] Hok' Hs' Hr' E Hon Hle.
  assert (Hg : forall t l', In l' (oleaves (T' t)) -> leaf_ok t l' /\ 0 < lf_qty l').
  { intros t l' Hin. rewrite E in Hin. apply residues_in in Hin as (l & Hin & R).
    destruct (residue_cases _ _ _ _ R) as [->|(i & q & Hi & Ab & Hne & ->)]; [split; [apply Hl|eapply Hq]; exact Hin|].
    rewrite Forall_forall in Hon. pose proof (leaf_of_about _ _ _ _ _ Hok (Hon _ Hi) Hin Ab) as El. cbn [act_item] in El.
    specialize (Hle i q Hi). rewrite <- El in Hle. split; [|cbn [lf_set_qty lf_qty]; lia].
    exact (Hl t l Hin). }
  constructor; [exact Hok'|congruence|exact Hr'| |]; intros t l Hin; apply (Hg t l Hin).
Qed.

(** ** The taker's settlement *)
Lemma settle_taker_inv o taker maxq s w' bt qt tf ra rq :
  cfg_sound (m_cfg (w_mkt (ms_w s))) ->
  0 <= ms_quote s -> 0 <= ms_dec s <= maxq - ms_quote s ->
  settle_taker o taker maxq s = Ok (w', bt, qt, tf, ra, rq) ->
  let w := ms_w s in let m := w_mkt w in
  let tb := o_max_base o - ms_base s in let tq := maxq - ms_quote s in
  let wo := (tq - ms_dec s) * qls m in
  0 <= tb /\ 0 <= tq /\ bt = tb * bls m /\ qt = tq * qls m /\ bt <= 9223372036854775807 /\ qt <= 9223372036854775807 /\
  tf = taker_pays m wo /\ ra = (if 0 <? wo then tf - ms_rebates s else 0) /\ 0 <= ra /\
  (rq = o_max_quote o - tq - (tf + qls m - 1) / qls m) /\
  (if (0 <? tq) || (0 <? tb) then
     exists m1, m1 = m_set_fees_accrued m (m_fees_accrued m + ra) /\
       match taker with
       | Some t => exists a a' m', acct_get t (w_accts w) = Some a /\
           execute_taker a m1 (o_side o) bt qt tf ra = Ok (a', m') /\
           w' = w_set_acct (w_set_mkt w m') t a'
       | None => w' = w_set_mkt w (m_set_taker_volume_wo_oo m1 (m_taker_volume_wo_oo m1 + qt))
       end
   else w' = w).
Proof.
  intros Hc Hq0 Hd H w m tb tq wo. unfold settle_taker in H. fold w in H. fold m in H.
  apply bind_ok in H as (x1 & E & H). apply chk_i64_ok in E as [-> R1]. fold tq in H, R1.
  apply bind_ok in H as (x2 & E & H). apply chk_i64_ok in E as [-> R2]. fold tb in H, R2.
  apply bind_ok in H as (u1 & E & H). apply massert_ok in E. apply Z.leb_le in E. rename E into T1.
  apply bind_ok in H as (u2 & E & H). apply massert_ok in E. apply Z.leb_le in E. rename E into T2.
  apply bind_ok in H as (x3 & E & H). apply chk_i64_ok in E as [-> R3].
  cbv zeta in H.
  apply bind_ok in H as (x4 & E & H). apply chk_i64_ok in E as [-> R4].
  destruct Hc as [C1 C2 C3 C4 C5] eqn:HcE. clear HcE. unfold FEES_SCALE, i64_max in *.
  fold (w_mkt (ms_w s)) in m.
  change (c_qls (m_cfg (w_mkt (ms_w s)))) with (qls m) in C1.
  change (c_bls (m_cfg (w_mkt (ms_w s)))) with (bls m) in C2.
  assert (B3 : 0 <= tb * bls m) by nia. assert (B4 : 0 <= tq * qls m) by nia.
  rewrite (as_u64_id (tb * bls m)) in H by lia. rewrite (as_u64_id (tq * qls m)) in H by lia.
  assert (Bwo : 0 <= wo <= tq * qls m) by (unfold wo; nia).
  apply bind_ok in H as ([[w2 tf'] ra'] & E & H).
  assert (G : tf' = taker_pays m wo /\ ra' = (if 0 <? wo then tf' - ms_rebates s else 0) /\ 0 <= ra' /\
    (if (0 <? tq) || (0 <? tb) then
     exists m1, m1 = m_set_fees_accrued m (m_fees_accrued m + ra') /\
       match taker with
       | Some t => exists a a' m', acct_get t (w_accts w) = Some a /\
           execute_taker a m1 (o_side o) (tb * bls m) (tq * qls m) tf' ra' = Ok (a', m') /\
           w2 = w_set_acct (w_set_mkt w m') t a'
       | None => w2 = w_set_mkt w (m_set_taker_volume_wo_oo m1 (m_taker_volume_wo_oo m1 + tq * qls m))
       end
     else w2 = w)).
  { destruct ((0 <? tq) || (0 <? tb)) eqn:F.
    2:{ injection E as <- <- <-. apply orb_false_elim in F as [F1 F2]. apply Z.ltb_ge in F1.
        assert (Z0 : wo = 0) by nia. rewrite Z0. split; [reflexivity|]. split; [reflexivity|]. split; [lia|reflexivity]. }
    apply bind_ok in E as (d & E1 & E). apply chk_i64_ok in E1 as [-> _].
    apply bind_ok in E as (e & E1 & E). apply chk_i64_ok in E1 as [-> R5]. fold wo in E, R5.
    rewrite as_u64_id in E by lia.
    apply bind_ok in E as ([[w1 tf2] ra2] & E1 & E).
    assert (G1 : tf2 = taker_pays m wo /\ ra2 = (if 0 <? wo then tf2 - ms_rebates s else 0) /\ 0 <= ra2 /\
      w1 = w_set_mkt w (m_set_fees_accrued m (m_fees_accrued m + ra2))).
    { destruct (Z.ltb_spec 0 wo) as [Lw|Lw].
      - apply bind_ok in E1 as (f & E2 & E1). apply taker_fees_ceil_ok in E2; [|exact (proj1 C4)|lia].
        apply bind_ok in E1 as (r & E3 & E1). apply chk_u64_ok in E3 as [-> R6].
        apply bind_ok in E1 as (fa & E4 & E1). apply chk_u128_ok in E4 as [-> R7].
        injection E1 as <- <- <-. split; [exact E2|]. split; [reflexivity|]. split; [lia|reflexivity].
      - assert (Z0 : wo = 0) by lia. injection E1 as <- <- <-. rewrite Z0. split; [reflexivity|]. split; [reflexivity|].
        split; [lia|]. rewrite Z.add_0_r. unfold m. destruct w as [mk b a h ac]. destruct mk. reflexivity. }
    destruct G1 as (G1 & G2 & G3 & G4).
    apply bind_ok in E as (w3 & E2 & E). apply bind_ok in E as (u3 & _ & E). injection E as <- <- <-.
    split; [exact G1|]. split; [exact G2|]. split; [exact G3|].
    exists (m_set_fees_accrued m (m_fees_accrued m + ra2)). split; [reflexivity|].
    subst w1. destruct taker as [t|].
    - apply bind_ok in E2 as (a & E3 & E2). apply acct_load_ok in E3.
      apply bind_ok in E2 as ([a' m'] & E4 & E2). injection E2 as <-.
      exists a, a', m'. split; [exact E3|]. split; [exact E4|reflexivity].
    - apply bind_ok in E2 as (tv & E3 & E2). apply chk_u128_ok in E3 as [-> _]. injection E2 as <-. reflexivity. }
  destruct G as (G1 & G2 & G3 & G4).
  apply bind_ok in H as (x5 & E5 & H). apply chk_i64_ok in E5 as [-> R5].
  apply bind_ok in H as (x6 & E5 & H). apply chk_i64_ok in E5 as [-> R6].
  apply bind_ok in H as (x7 & E5 & H). apply div_i64_ok in E5 as (_ & -> & _).
  apply bind_ok in H as (x8 & E5 & H). apply chk_i64_ok in E5 as [-> R8].
  apply bind_ok in H as (x9 & E5 & H). apply chk_i64_ok in E5 as [-> R9].
  injection H as <- <- <- <- <- <-.
  pose proof (taker_pays_bounds m wo ltac:(constructor; assumption) (proj1 Bwo)) as Bt. rewrite <- G1 in Bt.
  rewrite as_i64_id in * by lia.
  split; [exact T2|]. split; [exact T1|]. split; [reflexivity|]. split; [reflexivity|]. split; [lia|]. split; [lia|].
  split; [exact G1|]. split; [exact G2|]. split; [exact G3|]. split; [|exact G4].
  rewrite quot_nonneg by lia. reflexivity.
Qed.
