(** Proofs about the router's quotes (C44). *)
From Coq Require Import ZArith List Bool Lia ZifyBool.
From Verif Require Import Base Nodes OrderTree BookSide Heap Market OpenOrders Order Book Instructions BaseFacts
  NodesFacts TreeRep TreeFacts TreeOps TreeIter BookSideFacts BookSideOrder SpecBook BookSpecProofs SpecFees SpecOrder
  MatchFacts MatchBook FeeFacts OrderFacts PlaceFacts OrderSpecProofs OrderClaims Steps StepFacts InstrFacts
  SpecControl Solvency ConsumeFacts AuthFacts Oracle OracleUse Client ClientFacts SpecClient ClientProofs.
Import ListNotations.
Open Scope Z_scope.

(** ** Iteration does not depend on the clock when no order expires *)
Definition lasting (l : list (Z * leaf)) : Prop := forall x, In x l -> lf_tif (snd x) = 0.

Lemma item_of_now s n1 n2 oracle t x : lf_tif (snd x) = 0 -> item_of s n1 oracle t x = item_of s n2 oracle t x.
Proof. intros H. unfold item_of, leaf_is_expired. rewrite H. reflexivity. Qed.

Lemma oitem_of_now s n1 n2 oracle t o : (forall x, o = Some x -> lf_tif (snd x) = 0) ->
  oitem_of s n1 oracle t o = oitem_of s n2 oracle t o.
Proof. intros H. destruct o as [x|]; [|reflexivity]. cbn. apply item_of_now. apply H. reflexivity. Qed.

Lemma lasting_suffix l m : suffix l m -> lasting m -> lasting l.
Proof. induction 1; intros Hm; [exact Hm|]. apply IHsuffix. intros y Hy. apply Hm. right. exact Hy. Qed.

Lemma lasting_tl l : lasting l -> lasting (tl l).
Proof. intros H x Hx. apply H. destruct l; [destruct Hx|right; exact Hx]. Qed.

Lemma miter_now n : forall s n1 n2 oracle fl pl, lasting fl -> lasting pl ->
  miter n s n1 oracle fl pl = miter n s n2 oracle fl pl.
Proof.
  induction n as [|n IH]; intros s n1 n2 oracle fl pl Hf Hp; [reflexivity|]. cbn [miter].
  rewrite (oitem_of_now s n1 n2 oracle Fixed (hd_error fl)), (oitem_of_now s n1 n2 oracle OraclePegged (fst (skips s oracle pl))).
  - pose proof (lasting_suffix _ _ (skips_suffix s oracle pl) Hp) as Hs.
    destruct (pick _ _ _) as [i|]; [|reflexivity]. f_equal.
    destruct (im_tree i); apply IH; auto using lasting_tl.
  - intros x Hx. apply skips_in in Hx as [Hx _]. apply Hp. exact Hx.
  - intros x Hx. apply Hf. destruct fl; [discriminate|]. injection Hx as ->. left. reflexivity.
Qed.

Lemma iter_all_now s bs T n1 n2 oracle : fits s bs T ->
  (forall t M l, lists bs t M -> In l M -> lf_tif l = 0) ->
  iter_all bs n1 oracle = iter_all bs n2 oracle.
Proof.
  intros Hf H. pose proof (ft_ok _ _ _ Hf) as Hok. pose proof (ft_leaves _ _ _ Hf) as Hl.
  rewrite !(iter_all_spec bs T) by assumption. f_equal. unfold merged.
  apply miter_now; intros x Hx; unfold bitems in Hx; apply in_dir in Hx; apply oitems_leaf in Hx.
  - apply (H Fixed _ _ (bs_lists bs T Fixed Hok)). apply in_dir. exact Hx.
  - apply (H OraclePegged _ _ (bs_lists bs T OraclePegged Hok)). apply in_dir. exact Hx.
Qed.

Lemma world_fits w sd : world_sound w -> exists T, fits sd (w_book w sd) T.
Proof. intros [_ Hs]. destruct (sound_fits _ _ (Hs sd)) as (T & Hf & _). exists T. exact Hf. Qed.

Lemma book_of_side s sd : ob_side (book_of s) sd = w_book (s_w s) sd.
Proof. destruct sd; reflexivity. Qed.

(** ** What is left never exceeds what there was *)
Lemma quote_loop_bounds m items : items_ok items -> forall q q', quote_loop m items q = Ok q' ->
  0 <= qs_base q -> 0 <= qs_quote q -> 0 <= qs_rebates q ->
  0 <= qs_base q' <= qs_base q /\ 0 <= qs_quote q' <= qs_quote q /\ 0 <= qs_rebates q'.
Proof.
  induction items as [|i r IH]; intros Hi q q' H Hb Hq Hr; cbn [quote_loop] in H.
  - injection H as <-. lia.
  - pose proof (IH (items_ok_tl _ _ Hi)) as IH'. clear IH. destruct (Hi i (or_introl eq_refl)) as [Hqty Hpr].
    destruct (is_valid i); cbn [negb] in H.
    + destruct ((qs_base q =? 0) || (qs_quote q =? 0) || (qs_limit q =? 0)); [injection H as <-; lia|].
      apply bind_ok in H as (mbq & E0 & H). unfold div_i64 in E0.
      destruct (Z.eqb_spec (im_price i) 0) as [Z0|Z0]; [lia|]. apply chk_i64_ok in E0 as [-> _].
      destruct (Z.quot (qs_quote q) (im_price i) =? 0); [injection H as <-; lia|].
      rewrite Z.quot_div_nonneg in H by lia.
      apply bind_ok in H as (mq & E1 & H). apply chk_i64_ok in E1 as [-> _].
      apply bind_ok in H as (qn & E2 & H). apply bind_ok in H as (rb & E3 & H).
      apply bind_ok in H as (reb & E4 & H). apply chk_u64_ok in E4 as [-> B4].
      apply bind_ok in H as (b1 & E5 & H). apply chk_i64_ok in E5 as [-> _].
      apply bind_ok in H as (q1 & E6 & H). apply chk_i64_ok in E6 as [-> _].
      apply bind_ok in H as (l1 & E7 & H).
      set (mb := Z.min (Z.min (qs_base q) (lf_qty (im_leaf i))) (qs_quote q / im_price i)) in *.
      assert (M0 : 0 <= mb) by (unfold mb; pose proof (Z.div_pos (qs_quote q) (im_price i)); lia).
      assert (M1 : mb <= qs_base q) by (unfold mb; lia).
      assert (M2 : mb * im_price i <= qs_quote q).
      { assert (mb <= qs_quote q / im_price i) by (unfold mb; lia). pose proof (Z.mul_div_le (qs_quote q) (im_price i)). nia. }
      assert (G : 0 <= qs_base q' <= qs_base q - mb /\ 0 <= qs_quote q' <= qs_quote q - mb * im_price i /\ 0 <= qs_rebates q').
      { destruct (qs_fills q <? FILL_EVENT_REMAINING_LIMIT); apply IH' in H; cbn [qs_base qs_quote qs_rebates] in *; try lia; exact H. }
      nia.
    + destruct (qs_drops q <? DROP_EXPIRED_ORDER_LIMIT); apply IH' in H; cbn [qs_base qs_quote qs_rebates] in *; try lia; exact H.
Qed.

Lemma as_u64_le z : 0 <= z -> as_u64 z <= z.
Proof. intros H. unfold as_u64. apply Z.mod_le; [exact H|reflexivity]. Qed.

Lemma quoted_within s oracle mint amount q : reachable s ->
  quote (book_of s) (w_mkt (s_w s)) oracle mint amount = Ok q -> 0 <= amount ->
  jq_in q <= amount * (if mint =? c_quote_mint (m_cfg (w_mkt (s_w s))) then qls (w_mkt (s_w s)) else bls (w_mkt (s_w s))).
Proof.
  intros Hr H Ha. pose proof (reachable_sound _ Hr) as Hw. pose proof (proj1 Hw) as Hc.
  assert (C1 : 1 <= qls (w_mkt (s_w s))) by exact (proj1 (cs_qls _ Hc)).
  assert (C2 : 1 <= bls (w_mkt (s_w s))) by exact (proj1 (cs_bls _ Hc)).
  unfold quote in H. destruct (is_permissioned (w_mkt (s_w s))).
  { injection H as <-. cbn [jq_in]. destruct (_ =? _); nia. }
  cbv zeta in H. apply bind_ok in H as (input & E & H). apply chk_i64_ok in E as [-> _].
  set (m := w_mkt (s_w s)) in *. set (sd := if mint =? c_quote_mint (m_cfg m) then Bid else Ask) in *.
  apply bind_ok in H as ([mb mq] & Em & H).
  assert (Hlots : match sd with Bid => mq = amount | Ask => mb = amount end /\ 0 <= mb /\ 0 <= mq).
  { assert (D : forall k, 1 <= k -> forall v, div_i64 (k - 1) k = Ok v -> v = 0).
    { intros k Hk v Hv. unfold div_i64 in Hv. destruct (Z.eqb_spec k 0); [lia|]. apply chk_i64_ok in Hv as [-> _].
      apply Z.quot_small. lia. }
    assert (MX : forall k, 1 <= k -> forall v, div_i64 i64_max k = Ok v -> 0 <= v).
    { intros k Hk v Hv. unfold div_i64 in Hv. destruct (Z.eqb_spec k 0); [lia|]. apply chk_i64_ok in Hv as [-> _].
      rewrite Z.quot_div_nonneg; [|unfold i64_max; lia|lia]. apply Z.div_pos; [unfold i64_max; lia|lia]. }
    unfold max_base_lots, max_quote_lots in Em.
    destruct sd; apply bind_ok in Em as (v1 & E1 & Em); apply bind_ok in Em as (v2 & E2 & Em); apply bind_ok in Em as (v3 & E3 & Em);
      injection Em as <- <-.
    - apply D in E2; [|exact C1]. subst v2. apply chk_i64_ok in E3 as [-> _]. apply MX in E1; [|exact C2]. lia.
    - apply D in E1; [|exact C2]. subst v1. apply chk_i64_ok in E2 as [-> _]. apply MX in E3; [|exact C1]. lia. }
  destruct Hlots as (L1 & L2 & L3).
  apply bind_ok in H as (a & Ea & H). apply bind_ok in H as ([i o] & Ei & H). injection H as <-. cbn [jq_in].
  unfold amounts_from_book in Ea. apply bind_ok in Ea as (lots & _ & Ea).
  apply bind_ok in Ea as ([[[[tb tq] reb] sh] ac] & Eb & Ea).
  unfold iterate_book in Eb. apply bind_ok in Eb as (maxq & Eq & Eb). apply bind_ok in Eb as (items & Eit & Eb).
  apply bind_ok in Eb as (qs & Els & Eb). apply bind_ok in Eb as (tb' & F1 & Eb). apply chk_i64_ok in F1 as [-> _].
  apply bind_ok in Eb as (tq' & F2 & Eb). apply chk_i64_ok in F2 as [-> _]. injection Eb as <- <- <- <- <-.
  destruct (world_fits (s_w s) (invert_side sd) Hw) as (T & Hf).
  rewrite book_of_side, (iter_all_spec _ T) in Eit by (try exact (ft_ok _ _ _ Hf); exact (ft_leaves _ _ _ Hf)). injection Eit as <-.
  assert (Hmq : 0 <= maxq <= mq).
  { destruct sd; [|injection Eq as <-; lia]. pose proof (proj1 (cs_taker _ Hc)) as Ht. apply subtract_taker_fees_ok in Eq; [|exact Ht|exact L3]. subst maxq.
    unfold taker_fee, m in *. split; [apply Z.div_pos; lia|]. apply Z.div_le_upper_bound; nia. }
  apply quote_loop_bounds in Els; [|eapply merged_items_ok; exact Hf| | |]; cbn [qs_base qs_quote qs_rebates] in *; [|lia|lia|lia].
  apply bind_ok in Ea as (bn & G1 & Ea). apply chk_i64_ok in G1 as [-> _].
  apply bind_ok in Ea as (qn & G2 & Ea). apply chk_i64_ok in G2 as [-> _]. injection Ea as <-. cbn [ca_base ca_quote ca_fee] in Ei.
  destruct (mint =? c_quote_mint (m_cfg m)); subst sd; cbn [invert_side] in *.
  - apply bind_ok in Ei as (v & Ev & Ei). apply chk_u64_ok in Ev as [-> _]. injection Ei as <- <-.
    pose proof (as_u64_le ((maxq - qs_quote qs) * qls m)). nia.
  - apply bind_ok in Ei as (v & Ev & Ei). injection Ei as <- <-.
    pose proof (as_u64_le ((mb - qs_base qs) * bls m)). nia.
Qed.

(** ** Quote and execution *)
Lemma take_as_quoted c a b now slot s x g s' out mint amount :
  reachable s -> exec (env_of_oracles now slot (w_mkt (s_w s)) c a b) s (IPlaceTake x g) = Ok (s', out) ->
  ta_type g = POMarket -> ta_limit g = 45 -> c_open_orders_admin (m_cfg (w_mkt (s_w s))) = 0 ->
  (forall t M l, lists (w_book (s_w s) (invert_side (ta_side g))) t M -> In l M -> lf_tif l = 0) ->
  match ta_side g with
  | Bid => mint = c_quote_mint (m_cfg (w_mkt (s_w s))) /\ max_base_lots (w_mkt (s_w s)) = Ok (ta_max_base g) /\ ta_max_quote g = amount
  | Ask => mint <> c_quote_mint (m_cfg (w_mkt (s_w s))) /\ max_quote_lots (w_mkt (s_w s)) = Ok (ta_max_quote g) /\ ta_max_base g = amount
  end -> 0 <= amount <= 9223372036854775807 ->
  exists p q base quoted, oracle_price (w_mkt (s_w s)) c a b slot = Ok p /\
    quote (book_of s) (w_mkt (s_w s)) p mint amount = Ok q /\ 0 <= jq_fee q /\
    take_moves x (ta_side g) base quoted (jq_fee q) s s' /\
    match ta_side g with
    | Bid => jq_in q = quoted - jq_fee q /\ jq_out q = base
    | Ask => jq_in q = base /\ jq_out q = quoted + jq_fee q
    end.
Proof.
  intros Hr H Hty Hlim Hadm Htif Hg Ha. pose proof (reachable_sound _ Hr) as Hw. pose proof (proj1 Hw) as Hc.
  assert (C1 : 1 <= qls (w_mkt (s_w s))) by exact (proj1 (cs_qls _ Hc)).
  assert (C2 : 1 <= bls (w_mkt (s_w s))) by exact (proj1 (cs_bls _ Hc)).
  destruct (take_quoted _ _ _ _ _ _ _ _ _ _ Hr H Hty Hlim) as (p & lots & base & qd & fee & short & accts & Hp & Hab & Hmv & (B1 & B2 & B3) & _ & Hlots & _ & _).
  assert (Hab0 : amounts_from_book (book_of s) (ta_side g) (ta_max_base g) (ta_max_quote g) (w_mkt (s_w s)) p 0 = Ok (mkClientAmounts base qd fee short)).
  { rewrite <- Hab. unfold amounts_from_book, iterate_book. rewrite Hlots. cbn [bind].
    destruct (world_fits (s_w s) (invert_side (ta_side g)) Hw) as (T & Hf).
    rewrite book_of_side, (iter_all_now _ _ _ 0 now lots Hf Htif). reflexivity. }
  assert (D : forall k, 1 <= k -> div_i64 (k - 1) k = Ok 0).
  { intros k Hk. unfold div_i64. destruct (Z.eqb_spec k 0); [lia|]. rewrite Z.quot_small by lia. reflexivity. }
  exists p, (match ta_side g with
             | Bid => mkJupQuote (qd - fee) base (c_quote_mint (m_cfg (w_mkt (s_w s)))) fee short
             | Ask => mkJupQuote base (qd + fee) (c_quote_mint (m_cfg (w_mkt (s_w s)))) fee short
             end), base, qd.
  split; [exact Hp|]. unfold quote, is_permissioned. rewrite Hadm. cbn [Z.eqb negb]. cbv zeta.
  destruct (ta_side g).
  - destruct Hg as (-> & Hmb & Hmq). rewrite Z.eqb_refl. rewrite chk_i64_in by lia. cbn [bind]. rewrite Hmb, D by exact C1. cbn [bind].
    rewrite Z.add_0_r, chk_i64_in by lia. cbn [bind]. rewrite <- Hmq, Hab0. cbn [bind ca_quote ca_base ca_fee ca_short].
    rewrite chk_u64_in by lia. cbn [bind]. repeat split; try reflexivity; cbn [jq_fee]; try lia. exact Hmv.
  - destruct Hg as (Hm & Hmq & Hmb). rewrite (proj2 (Z.eqb_neq _ _) Hm). rewrite chk_i64_in by lia. cbn [bind]. rewrite D by exact C2. cbn [bind].
    rewrite Z.add_0_r, chk_i64_in by lia. cbn [bind]. rewrite Hmq. cbn [bind]. rewrite <- Hmb, Hab0. cbn [bind ca_quote ca_base ca_fee ca_short].
    rewrite chk_u64_in by lia. cbn [bind]. repeat split; try reflexivity; cbn [jq_fee]; try lia. exact Hmv.
Qed.

(** ** The accounts to crank *)
Lemma crank_spec items : forall acc, NoDup acc -> (length acc < MAXIMUM_REMAINING_ACCOUNTS)%nat ->
  let r := crank_loop items acc in
  NoDup r /\ (length r <= MAXIMUM_REMAINING_ACCOUNTS)%nat /\ exists first rest, items = first ++ rest /\
    (forall k, In k r <-> In k acc \/ exists i, In i first /\ lf_owner (im_leaf i) = k) /\
    ((length r < MAXIMUM_REMAINING_ACCOUNTS)%nat -> rest = []).
Proof.
  induction items as [|i items IH]; intros acc Hn Hl; cbn [crank_loop]; cbv zeta.
  - split; [exact Hn|]. split; [apply Nat.lt_le_incl; exact Hl|]. exists [], []. split; [reflexivity|]. split; [|reflexivity].
    intros k. split; [auto|]. intros [H|(i & [] & _)]. exact H.
  - set (acc' := if mem_key (lf_owner (im_leaf i)) acc then acc else acc ++ [lf_owner (im_leaf i)]).
    assert (Ha : NoDup acc' /\ (length acc' <= S (length acc))%nat /\ forall k, In k acc' <-> In k acc \/ lf_owner (im_leaf i) = k).
    { unfold acc'. destruct (mem_key (lf_owner (im_leaf i)) acc) eqn:E.
      - apply mem_key_in in E. split; [exact Hn|]. split; [lia|]. intros k. split; [auto|]. intros [H|<-]; assumption.
      - assert (N : ~ In (lf_owner (im_leaf i)) acc) by (intros H; apply mem_key_in in H; congruence). split; [|split].
        + apply NoDup_Add with (a := lf_owner (im_leaf i)) (l := acc); [|split; assumption].
          rewrite <- (app_nil_r acc) at 1. apply Add_app.
        + rewrite app_length. cbn. lia.
        + intros k. rewrite in_app_iff. cbn. tauto. }
    destruct Ha as (A1 & A2 & A3). destruct (Nat.leb_spec MAXIMUM_REMAINING_ACCOUNTS (length acc')) as [G|G].
    + split; [exact A1|]. split; [lia|]. exists [i], items. split; [reflexivity|]. split; [|lia].
      intros k. rewrite A3. split; (intros [H|H]; [left; exact H|right]); [exists i; split; [left; reflexivity|exact H]|].
      destruct H as (j & [<-|[]] & H). exact H.
    + destruct (IH acc' A1 G) as (R1 & R2 & first & rest & E & R3 & R4). split; [exact R1|]. split; [exact R2|].
      exists (i :: first), rest. split; [rewrite E; reflexivity|]. split; [|exact R4]. intros k. rewrite R3, A3. split.
      * intros [[H|H]|(j & Hj & H)]; [left; exact H|right; exists i; split; [left; reflexivity|exact H]|right; exists j; split; [right; exact Hj|exact H]].
      * intros [H|(j & [<-|Hj] & H)]; [auto|auto|]. right. exists j. auto.
Qed.
Lemma crank_accounts s sd oracle now accts :
  remaining_accounts_to_crank (book_of s) sd (w_mkt (s_w s)) oracle now = Ok accts ->
  NoDup accts /\ (length accts <= 3)%nat /\ exists lots first rest,
    client_oracle_lots (w_mkt (s_w s)) oracle = Ok lots /\
    iter_valid (w_book (s_w s) (invert_side sd)) now lots = Ok (first ++ rest) /\
    (forall k, In k accts <-> exists i, In i first /\ lf_owner (im_leaf i) = k) /\
    ((length accts < 3)%nat -> rest = []).
Proof.
  intros H. unfold remaining_accounts_to_crank in H. apply bind_ok in H as (lots & E1 & H). apply bind_ok in H as (items & E2 & H). injection H as <-.
  destruct (crank_spec items [] (NoDup_nil _)) as (R1 & R2 & first & rest & E & R3 & R4); [unfold MAXIMUM_REMAINING_ACCOUNTS; cbn; lia|].
  split; [exact R1|]. split; [exact R2|]. exists lots, first, rest. split; [exact E1|]. split; [rewrite <- book_of_side, E2, E; reflexivity|].
  split; [|exact R4]. intros k. rewrite R3. split; [intros [[]|G]; exact G|auto].
Qed.
