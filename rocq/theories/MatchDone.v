(** Proofs that matching stops only for a reason. *)
From Coq Require Import ZArith List Bool Permutation Sorted Lia ZifyBool.
From Verif Require Import Base Nodes OrderTree BookSide Heap Market OpenOrders Order Book BaseFacts
  NodesFacts TreeRep TreeFacts TreeOps TreeIter BookSideFacts BookSideOrder SpecBook BookSpecProofs SpecFees SpecOrder
  MatchFacts MatchBook FeeFacts OrderFacts PlaceFacts OrderSpecProofs OrderClaims SpecMatch.
Import ListNotations.
Open Scope Z_scope.

(** Why the loop ended. *)
Lemma lt_stops o price taker owner rem now items s acts s' lf :
  ltrace o price taker owner rem now items s acts s' lf ->
  lf = [] \/ ms_base s' = 0 \/ ms_quote s' = 0 \/
  exists i r, lf = i :: r /\ is_valid i = true /\
    (is_price_within_limit (o_side o) (im_price i) price = false \/
     is_price_within_limit (o_side o) (im_price i) price = true /\
     (is_post_only o = true \/ ms_limit s' = 0 \/ Z.quot (ms_quote s') (im_price i) = 0)).
Proof.
  induction 1 as [s|i r s Hd|i r s Hb V W|i r s Hb V W St|i r s acts s' lf Hb V D HT IH
    |i r s w acts s' lf Hb V D P HT IH|i r s t a' a'' acts s' lf Hb V W PO L Q Tk Ow ST Ld Cn HT IH
    |i r s q dec reb w np acts s' lf Hb V W PO L P0 Q Eq Hq S1 S2 P HT IH]; try exact IH.
  - left. reflexivity.
  - right. destruct Hd as [Hd|Hd]; auto.
  - right. right. right. exists i, r. auto.
  - right. right. right. exists i, r. split; [reflexivity|]. split; [exact V|]. right. split; [exact W|]. exact St.
Qed.

(** The matching price of an order that may take is its limit. *)
Lemma take_price o other now oracle price pd : is_post_only o = false ->
  order_price o other now oracle = Ok (price, pd) ->
  match order_limit o oracle with Some p => price = p | None => price = market_order_limit (o_side o) end.
Proof.
  intros PO H. unfold order_price in H. apply bind_ok in H as (pl & E & H). apply bind_ok in H as (u & _ & H).
  apply bind_ok in H as (d & _ & H). injection H as -> _.
  unfold order_limit, is_post_only in *. destruct (o_params o) as [|p|p t|off t lim|p].
  - injection E as <-. reflexivity.
  - injection E as <-. reflexivity.
  - destruct t; try discriminate PO. injection E as <-. reflexivity.
  - destruct oracle as [op|]; cbn [bind option_map] in *; [|discriminate E].
    apply bind_ok in E as (p & Ep & E). destruct (in_i64 (op + off)); [|discriminate Ep]. injection Ep as <-.
    destruct t; try discriminate PO. injection E as <-. reflexivity.
  - injection E as <-. reflexivity.
Qed.

Lemma listed_price_top s bs T now oracle i : fits s bs T -> In i (merged bs T now oracle) ->
  1 <= im_price i <= 9223372036854775807.
Proof.
  intros Hf Hi. destruct (listed_facts _ _ _ _ _ _ Hf Hi) as (_ & _ & H1 & _). split; [exact H1|].
  destruct Hf as [Hok Hs _ Hl _]. pose proof (merged_item _ _ _ _ _ Hok Hl Hi) as (x & Hx & Ex & Hk).
  pose proof (item_of_facts _ _ _ _ _ _ Hk Ex) as (_ & _ & _ & _ & E5 & E6 & _).
  apply oitems_leaf in Hx. apply Hl in Hx. destruct Hx as [_ Hx]. destruct (im_tree i).
  - rewrite E5 by reflexivity. rewrite pow64. lia.
  - specialize (E6 eq_refl). rewrite pow63 in E6. lia.
Qed.

Section Done.
Variables (w : world) (o : order) (oracle taker : option Z) (owner now limit : Z) (rem : list Z)
  (w' : world) (r : order_amounts).
Hypothesis Hsc : sound_call w o taker owner.
Hypothesis Hno : new_order w o oracle taker owner now limit rem = Ok (w', r).

Lemma takes_all : 0 <= limit -> is_post_only o = false -> exists items acts gone put,
  explained w o oracle taker owner now rem w' r items acts gone put /\
  (forall L l, lists (w_book w (invert_side (o_side o))) Fixed L -> In l L ->
     exists i, In i items /\ im_tree i = Fixed /\ im_leaf i = l) /\
  Z.of_nat (length (filter is_fill acts)) <= limit /\
  forall i, In i items -> may_trade (invert_side (o_side o)) now i ->
    accepts (o_side o) (order_limit o oracle) (im_price i) ->
    (exists a, In a acts /\ finishes a i) \/ has_reason w o now limit items acts i.
Proof.
  intros L0 PO. destruct (new_order_full _ _ _ _ _ _ _ _ _ _ Hsc Hno) as
    (T & T0 & price & pd & maxq & acts & ms & lf & w2 & bt & qt & tf & ra & rq & mf & b2 & T2 & T3 & gone & put & Hf & Hf0 & Hpl & Hex & Hrest).
  set (other := invert_side (o_side o)) in *. set (items := merged (w_book w other) T now oracle) in *.
  exists items, acts, gone, put. split; [exact Hex|].
  destruct (placed_numbers _ _ _ _ _ _ _ _ _ _ _ _ _ _ _ _ _ _ _ _ _ _ _ _ Hsc Hf Hpl)
    as (Haf & Eb & Eq & Hb & Hq & Hbl & Hql & _).
  pose proof Hpl as [Hp Hseq Hmq Hcap Hit Htr Hst Hf2 Hlv Hmf Hlp Hfok].
  pose proof Hsc as [Hc Hsd Hso Htk]. pose proof Hso as [Hb0 Hq0 _].
  pose proof (maxq_facts w o maxq Hc Hq0 Hmq) as [Hmx _].
  pose proof (lt_amounts _ _ _ _ _ _ Htk _ _ _ _ _ Htr) as (_ & _ & _ & _ & _ & _ & _ & Elim).
  pose proof (lt_limit_nonneg _ _ _ _ _ _ _ _ _ _ _ Htr L0) as Hlim. cbn [start_ms ms_limit] in Elim.
  assert (Ebud : maxq = quote_budget (w_mkt w) o).
  { unfold quote_budget. destruct (o_side o); [|injection Hmq as <-; reflexivity]. rewrite PO in Hmq.
    pose proof (cs_taker _ Hc) as C4. change (c_taker_fee (m_cfg (w_mkt w))) with (taker_fee (w_mkt w)) in C4.
    apply subtract_taker_fees_ok in Hmq; [exact Hmq|exact (proj1 C4)|exact Hq0]. }
  split.
  { intros L l HL Hin. pose proof (ft_ok _ _ _ Hf) as Hok. pose proof (lists_fun _ _ _ _ HL (bs_lists _ _ Fixed Hok)) as ->. rewrite in_dir in Hin.
    apply in_oleaves in Hin as (h & Hin).
    destruct (merged_fixed_complete (w_book w other) T now oracle _ Hin) as (i & Ei & Hi). exists i. split; [exact Hi|].
    injection Ei as <-. split; reflexivity. }
  split; [lia|]. intros i Hi Hmay Hacc.
  pose proof (take_price _ _ _ _ _ _ PO Hp) as Hprice.
  pose proof (listed_price_top _ _ _ _ _ _ Hf Hi) as Rpi.
  assert (Wi : is_price_within_limit (o_side o) (im_price i) price = true).
  { unfold accepts in Hacc. destruct (order_limit o oracle) as [p|].
    - subst p. unfold is_price_within_limit. destruct (o_side o); lia.
    - rewrite Hprice. unfold is_price_within_limit, market_order_limit, i64_max. destruct (o_side o); lia. }
  assert (Vi : is_valid i = true) by (apply (listed_facts _ _ _ _ _ _ Hf Hi); exact Hmay).
  pose proof (lt_prefix _ _ _ _ _ _ _ _ _ _ _ Htr) as (done & Ed & Hdone). change (items = done ++ lf) in Ed.
  assert (Hsort : StronglySorted (listed_before other) items).
  { pose proof Hf as [Hok Hs _ Hl _]. rewrite <- Hs at 1. apply merged_listed; assumption. }
  pose proof (merged_items_ok _ _ _ now oracle Hf) as Hio.
  assert (Hself : maxq - quote_lots acts < im_price i -> has_reason w o now limit items acts i).
  { intros Hlt. right. right. exists i. split; [exact Hi|]. split; [exact Hmay|]. split; [unfold at_least_as_good; destruct (o_side o); lia|].
    rewrite <- Ebud. exact Hlt. }
  assert (Hin : In i (done ++ lf)) by (rewrite <- Ed; exact Hi). apply in_app_or in Hin as [Hin|Hin].
  - pose proof (Hdone i Hin Vi) as Ha. apply in_map_iff in Ha as (a & Ea & Ha).
    destruct a as [j q|j|j]; cbn [act_item] in Ea; subst j.
    + destruct (in_split _ _ Ha) as (A & B & EA).
      pose proof (lt_split _ _ _ _ _ _ _ _ _ _ _ Htr Hio Hb0 (proj1 Hmx) A i q B EA) as (S1 & S2 & S3 & S4 & S5).
      cbn [start_ms ms_base ms_quote ms_limit] in S1, S2, S3, S4, S5.
      assert (HB : 0 <= quote_lots B /\ 0 <= base_lots B).
      { assert (FB : Forall (act_fact o price taker owner) B).
        { rewrite Forall_forall in *. intros x Hx. apply Haf. rewrite EA. apply in_or_app. right. right. exact Hx. }
        pose proof (own_quote_bounds _ _ _ _ _ FB). lia. }
      assert (Eqa : quote_lots acts = quote_lots A + q * im_price i + quote_lots B).
      { rewrite EA, quote_lots_app, quote_lots_cons. cbn [act_quote]. lia. }
      destruct S5 as [S5|[[S5 S6]|S5]].
      * left. exists (AFill i q). split; [exact Ha|]. split; [reflexivity|exact S5].
      * right. left. rewrite EA, S6, base_lots_app, base_lots_cons. cbn [act_base]. change (base_lots []) with 0. lia.
      * right. apply Hself. lia.
    + exfalso. rewrite Forall_forall in Haf. specialize (Haf _ Ha). cbn [act_fact] in Haf. congruence.
    + left. exists (AOwn i). split; [exact Ha|]. split; [reflexivity|exact I].
  - right. destruct (lt_stops _ _ _ _ _ _ _ _ _ _ _ Htr) as [E|[E|[E|(j & r' & E & Vj & E2)]]].
    + rewrite E in Hin. destruct Hin.
    + left. lia.
    + apply Hself. lia.
    + rewrite E in Ed, Hin.
      assert (Hle : at_least_as_good (o_side o) (im_price j) (im_price i)).
      { unfold at_least_as_good. destruct Hin as [<-|Hi']; [destruct (o_side o); lia|].
        assert (HL : listed_before other j i).
        { rewrite Ed in Hsort. clear - Hsort Hi'. induction done as [|x X IH]; cbn [app] in Hsort; inversion Hsort as [|? ? S1 S2]; subst; [|auto].
          rewrite Forall_forall in S2. auto. }
        unfold listed_before, other in HL. destruct (o_side o); cbn [invert_side] in HL; lia. }
      destruct E2 as [E2|(W & [E2|[E2|E2]])].
      * exfalso. unfold is_price_within_limit, at_least_as_good in *. destruct (o_side o); lia.
      * congruence.
      * right. left. lia.
      * right. right. exists j.
        assert (Hj : In j items) by (rewrite Ed; apply in_or_app; right; left; reflexivity).
        pose proof (listed_price_top _ _ _ _ _ _ Hf Hj) as Rpj.
        split; [exact Hj|]. split; [apply (listed_facts _ _ _ _ _ _ Hf Hj); exact Vj|]. split; [exact Hle|].
        rewrite <- Ebud, <- Eq. rewrite quot_nonneg in E2 by lia. apply Z.div_small_iff in E2; lia.
Qed.
End Done.

(** ** Making room *)
Lemma room_price_worst s oracle t l : leaf_ok t l -> room_price oracle t l = worst_price s oracle t l.
Proof.
  intros [Hk _]. destruct t; cbn [room_price worst_price].
  - unfold price_of_key. rewrite pow64. reflexivity.
  - destruct oracle as [op|]; [|reflexivity]. f_equal. unfold oracle_pegged_price.
    rewrite leaf_price_data_eq by exact Hk. rewrite oracle_pegged_price_offset_eq by (apply price_data_range; exact Hk).
    unfold exact_price, saturating_add_i64, i64_min, i64_max. cbv zeta. rewrite pow63, pow64. fold (price_of_key (lf_key l)).
    pose proof (price_data_range _ Hk) as Rx. set (a := price_of_key (lf_key l)) in *.
    set (pr := Z.max (-9223372036854775808) _). assert (Epr : Z.max 1 pr = Z.max 1 (Z.min (op + (a - 9223372036854775808)) 9223372036854775807)) by (unfold pr; lia).
    change (9223372036854775808 - 1) with 9223372036854775807. rewrite <- Epr.
    destruct ((1 <=? pr) && (pr <? 9223372036854775807)) eqn:E; [|cbn [snd]; lia].
    destruct (negb _ && _); cbn [snd]; lia.
Qed.

Lemma seq_of_low s l m : no_worse s (low_of_key (lf_key l)) (low_of_key (lf_key m)) -> seq_of s l <= seq_of s m.
Proof. unfold seq_of, low_of_key. rewrite pow64. destruct s; cbn [no_worse]; lia. Qed.

Section Room.
Variables (w : world) (o : order) (oracle taker : option Z) (owner now limit : Z) (rem : list Z)
  (w' : world) (r : order_amounts).
Hypothesis Hsc : sound_call w o taker owner.
Hypothesis Hno : new_order w o oracle taker owner now limit rem = Ok (w', r).

Lemma expired_gone l : now < 2 ^ 64 -> leaf_expiry l < now -> gone_before now l.
Proof.
  intros Hn H. unfold leaf_expiry, u64_max in H. unfold gone_before. rewrite pow64 in Hn.
  destruct (Z.eqb_spec (lf_tif l) 0); [lia|]. split; assumption.
Qed.

Lemma room_claim LF LP : now < 2 ^ 64 ->
  lists (w_book w (o_side o)) Fixed LF -> lists (w_book w (o_side o)) OraclePegged LP ->
  exists items acts gone put,
  explained w o oracle taker owner now rem w' r items acts gone put /\
  (Forall (fun x => gone_before now (snd x)) gone \/
   exists ge t l, gone = ge ++ [(t, l)] /\ Forall (fun x => gone_before now (snd x)) ge /\
     evicts (o_side o) oracle (map (pair Fixed) LF ++ map (pair OraclePegged) LP) ge t l put).
Proof.
  intros Hn HF HP. destruct (new_order_full _ _ _ _ _ _ _ _ _ _ Hsc Hno) as
    (T & T0 & price & pd & maxq & acts & ms & lf & w2 & bt & qt & tf & ra & rq & mf & b2 & T2 & T3 & gone & put & Hf & Hf0 & Hpl & Hex
     & _ & _ & _ & _ & Hroom & _ & _ & _ & _ & _ & Hput).
  exists (merged (w_book w (invert_side (o_side o))) T now oracle), acts, gone, put. split; [exact Hex|].
  pose proof Hf0 as [Hok Hs _ Hl _].
  rewrite (lists_fun _ _ _ _ HF (bs_lists _ _ Fixed Hok)), (lists_fun _ _ _ _ HP (bs_lists _ _ OraclePegged Hok)).
  destruct Hroom as (ge & gw & -> & Hlen & Hge & Hgw).
  assert (Hge' : Forall (fun x => gone_before now (snd x)) ge).
  { eapply Forall_impl; [|exact Hge]. cbn beta. intros x Hx. apply expired_gone; assumption. }
  destruct Hgw as [->|(t & l & p & -> & Hp & Hb & Hcnt & Hw)].
  { left. rewrite app_nil_r. exact Hge'. }
  right. exists ge, t, l. split; [reflexivity|]. split; [exact Hge'|].
  destruct put as [[t' nl]|].
  2:{ exfalso. pose proof (ex_gone _ _ _ _ _ _ _ _ _ _ _ _ _ Hex) as (_ & G & _). specialize (G eq_refl).
      destruct ge; discriminate G. }
  assert (Hin0 : forall u x, In (u, x) (map (pair Fixed) (dir (bs_side (w_book w (o_side o))) (oleaves (T0 Fixed))) ++
      map (pair OraclePegged) (dir (bs_side (w_book w (o_side o))) (oleaves (T0 OraclePegged)))) -> In (u, x) (all_leaves T0)).
  { intros u x Hin. apply in_app_or in Hin. apply in_all_leaves.
    destruct Hin as [Hin|Hin]; apply in_map_iff in Hin as (y & E & Hin); injection E as <- <-; apply in_dir in Hin; exact Hin. }
  assert (Hlt : In l (oleaves (T0 t))).
  { pose proof (ex_gone _ _ _ _ _ _ _ _ _ _ _ _ _ Hex) as (_ & _ & G).
    specialize (G t l _ ltac:(apply in_or_app; right; left; reflexivity) (bs_lists _ _ t Hok)). apply in_dir in G. exact G. }
  exists t', nl, price, p. split; [reflexivity|]. split; [exact (pf_price _ _ _ _ _ _ _ _ _ _ _ Hput)|].
  split; [rewrite (room_price_worst (o_side o)) by (apply Hl; exact Hlt); exact Hp|].
  split; [unfold strictly_better, is_price_better in *; destruct (o_side o); lia|].
  split.
  { rewrite app_length, !map_length, !dir_length. unfold all_leaves in Hcnt. rewrite app_length, !map_length in Hcnt. lia. }
  intros u x q Hin Hng Hq. apply Hin0 in Hin. pose proof Hin as Hin'. apply in_all_leaves in Hin'.
  rewrite (room_price_worst (o_side o)) in Hq by (apply Hl; exact Hin').
  destruct (Hw u x q Hin Hng Hq) as [W1 W2]. unfold strictly_better.
  destruct (Z.eq_dec q p) as [E|N]; [right|left; destruct (o_side o); cbn [no_worse] in W1; lia].
  split; [exact E|]. intros R. apply seq_of_low. apply W2; [exact E|]. rewrite pow63 in R. lia.
Qed.
End Room.

(** ** Room for the new order *)
Lemma handles_count (T : trees) t : (length (ohandles (T t)) = 0 /\ length (oleaves (T t)) = 0 \/
  length (ohandles (T t)) + 1 = 2 * length (oleaves (T t)))%nat.
Proof.
  unfold oleaves. rewrite map_length. unfold ohandles, oitems. destruct (T t) as [x|]; cbn [length map]; [|left; auto].
  right. apply thandles_count.
Qed.

Lemma used_count bs T : bs_ok bs T -> exists F,
  alloc (bs_nodes bs) (ohandles (T Fixed) ++ ohandles (T OraclePegged)) F.
Proof. intros (F & Hr). exists F. pose proof (Hr Fixed) as Ht. destruct Ht; assumption. Qed.

Lemma room_after_eviction s bs now oracle bs' x p LF LP t l : book_reach s bs ->
  bs_remove_worst bs now oracle = Ok (bs', Some (x, p)) ->
  lists bs' Fixed LF -> lists bs' OraclePegged LP ->
  ((length LF <= 511)%nat \/ LP <> []) -> ((length LP <= 511)%nat \/ LF <> []) -> is_u128 (lf_key l) ->
  exists bs2 h old, bs_insert_leaf bs' t l = Ok (bs2, h, old).
Proof.
  intros Hr E HF HP C1 C2 Hk. apply book_reach_ok in Hr as (T & Hok & Hl & _).
  destruct (bs_remove_worst_spec _ _ now oracle Hok Hl) as (b2 & ow & T' & E' & Hok' & _ & Hm).
  rewrite E in E'. injection E' as <- <-. destruct Hm as (u & (Hoth & A & B & HA & HB) & _).
  rewrite (lists_fun _ _ _ _ HF (bs_lists _ _ Fixed Hok')) in *. rewrite (lists_fun _ _ _ _ HP (bs_lists _ _ OraclePegged Hok')) in *.
  rewrite dir_length in C1, C2.
  assert (D1 : dir (bs_side bs') (oleaves (T' OraclePegged)) <> [] -> oleaves (T' OraclePegged) <> []).
  { intros H E1. rewrite E1 in H. apply H. destruct (bs_side bs'); reflexivity. }
  assert (D2 : dir (bs_side bs') (oleaves (T' Fixed)) <> [] -> oleaves (T' Fixed) <> []).
  { intros H E1. rewrite E1 in H. apply H. destruct (bs_side bs'); reflexivity. }
  assert (C1' : (length (oleaves (T' Fixed)) <= 511)%nat \/ (0 < length (oleaves (T' OraclePegged)))%nat).
  { destruct C1 as [C1|C1]; [left; exact C1|right]. apply D1 in C1. destruct (oleaves (T' OraclePegged)); [contradiction|cbn; lia]. }
  assert (C2' : (length (oleaves (T' OraclePegged)) <= 511)%nat \/ (0 < length (oleaves (T' Fixed)))%nat).
  { destruct C2 as [C2|C2]; [left; exact C2|right]. apply D2 in C2. destruct (oleaves (T' Fixed)); [contradiction|cbn; lia]. }
  destruct (used_count _ _ Hok) as (F0 & Ha0). pose proof (alloc_len _ _ _ Ha0) as L0. rewrite app_length in L0.
  pose proof (handles_count T Fixed) as N1. pose proof (handles_count T OraclePegged) as N2.
  pose proof (handles_count T' Fixed) as N3. pose proof (handles_count T' OraclePegged) as N4.
  assert (Hsum : (length (oleaves (T Fixed)) + length (oleaves (T OraclePegged)) =
     S (length (oleaves (T' Fixed)) + length (oleaves (T' OraclePegged))))%nat).
  { pose proof (f_equal (@length leaf) HA) as H1. pose proof (f_equal (@length leaf) HB) as H2.
    pose proof (f_equal (@length leaf) Hoth) as H3. rewrite app_length in H1, H2. cbn [length] in H1.
    destruct u; cbn [flip] in *; lia. }
  pose proof Hok' as (F' & Hr'). unfold bs_insert_leaf.
  destruct (insert_leaf_succeeds _ _ _ _ _ l (Hr' t) Hk) as ([[[a r] h] old] & Ei); [|rewrite Ei; cbn [bind]; eauto].
  pose proof (Hr' Fixed) as Ht. cbn [flip] in Ht.
  assert (Ha : alloc (bs_nodes bs') (ohandles (T' Fixed) ++ ohandles (T' OraclePegged)) F') by (destruct Ht; assumption).
  pose proof (al_total _ _ _ Ha) as A3. rewrite !app_length in A3. unfold avail.
  destruct N1 as [[N1 N1']|N1], N2 as [[N2 N2']|N2], N3 as [[N3 N3']|N3], N4 as [[N4 N4']|N4]; lia.
Qed.
