(** Proofs of the properties of placing an order. *)
From Coq Require Import ZArith List Bool Lia Sorted Permutation.
From Verif Require Import Base Nodes OrderTree BookSide Heap Market OpenOrders Order Book
  BaseFacts NodesFacts TreeRep TreeFacts TreeOps TreeIter BookSideFacts BookSideOrder SpecBook
  BookSpecProofs SpecOrder SpecFees FeeFacts MatchFacts MatchBook OrderFacts PlaceFacts.
Import ListNotations.
Open Scope Z_scope.

Lemma sound_fits w s : sound_side w s -> exists T, fits s (w_book w s) T /\
  forall t l, In l (oleaves (T t)) -> seq_of s l <= m_seq (w_mkt w).
Proof.
  intros [Hr Hl]. pose proof Hr as Hr'. apply book_reach_ok in Hr' as (T & Hok & Hlv & Hs). exists T.
  assert (G : forall t l, In l (oleaves (T t)) -> 0 < lf_qty l /\ seq_of s l <= m_seq (w_mkt w)).
  { intros t l Hin. eapply Hl; [apply bs_lists; exact Hok|]. apply in_dir. exact Hin. }
  split; [|intros t l Hin; apply (G t l Hin)].
  constructor; try assumption. intros t l Hin. apply (G t l Hin).
Qed.

Lemma fits_sound w s T : fits s (w_book w s) T ->
  (forall t l, In l (oleaves (T t)) -> seq_of s l <= m_seq (w_mkt w)) -> sound_side w s.
Proof.
  intros [Hok Hs Hr Hl Hq] Hage. split; [exact Hr|]. intros t L l HL Hin.
  rewrite (lists_fun _ _ _ _ HL (bs_lists _ _ t Hok)) in Hin. apply in_dir in Hin. split; [eapply Hq|eapply Hage]; exact Hin.
Qed.

Lemma seq_of_new s pd n l : 0 <= n <= 18446744073709551615 -> lf_key l = new_node_key s pd n -> seq_of s l = n.
Proof.
  intros Hn E. unfold seq_of. rewrite E, new_node_key_eq by exact Hn. rewrite pow64.
  rewrite Z.add_comm, Z_mod_plus_full. unfold key_low. destruct s; rewrite Z.mod_small by lia; lia.
Qed.

(** ** The order's own price *)
Lemma order_price_facts o other now oracle price pd : sane_order o ->
  order_price o other now oracle = Ok (price, pd) ->
  1 <= price <= 9223372036854775807 /\ 0 <= pd <= 18446744073709551615 /\
  (forall p, order_limit o oracle = Some p -> match o_side o with Bid => price <= p | Ask => p <= price end) /\
  (forall t l n, post_target o = Some t -> 0 <= n <= 18446744073709551615 ->
     lf_key l = new_node_key (o_side o) pd n -> order_ok t l /\ price_is oracle t l price) /\
  (order_limit o oracle = None -> price = market_order_limit (o_side o)).
Proof.
  intros [_ _ Hp] H. unfold order_price in H.
  apply bind_ok in H as (pl & E & H). apply bind_ok in H as (u & E1 & H). apply require_ok in E1. apply Z.leb_le in E1.
  apply bind_ok in H as (d & E2 & H). injection H as <- <-.
  assert (Hslide : forall s p t x, is_i64 p -> price_for_order_type s other now oracle p t = Ok x ->
    x <= 9223372036854775807 /\ match s with Bid => x <= p | Ask => p <= x end).
  { intros s p t x Hi Hx. unfold is_i64 in Hi. rewrite pow63 in Hi. unfold price_for_order_type in Hx. destruct t.
    - injection Hx as <-. destruct s; lia.
    - injection Hx as <-. destruct s; lia.
    - apply bind_ok in Hx as (b & _ & Hx). destruct b as [b|]; [|injection Hx as <-; destruct s; lia].
      unfold post_only_slide_limit in Hx. destruct s; apply bind_ok in Hx as (y & Ey & Hx); apply chk_i64_ok in Ey as [-> Ry];
        injection Hx as <-; lia. }
  assert (Hk : forall t l n, 0 <= d <= 18446744073709551615 -> 0 <= n <= 18446744073709551615 ->
    lf_key l = new_node_key (o_side o) d n -> match t with Fixed => 1 <= d < 2 ^ 63 | OraclePegged => True end ->
    order_ok t l /\ lf_key l / 2 ^ 64 = d).
  { intros t l n Hd Hn Ek Ht. rewrite new_node_key_eq in Ek by exact Hn.
    assert (Hlow : 0 <= key_low (o_side o) n < 18446744073709551616) by (unfold key_low; destruct (o_side o); lia).
    assert (Ed : lf_key l / 2 ^ 64 = d).
    { rewrite Ek, pow64. rewrite Z.div_add_l by lia. rewrite Z.div_small by lia. lia. }
    split; [|exact Ed]. unfold order_ok. rewrite Ed. split; [|exact Ht]. unfold is_u128.
    change (2 ^ 128) with 340282366920938463463374607431768211456. rewrite Ek. lia. }
  unfold order_limit, post_target. destruct (o_params o) as [|p|p t|off t lim|p].
  - injection E as <-. apply fixed_price_data_ok in E2; [|unfold market_order_limit, i64_max; destruct (o_side o); lia].
    destruct E2 as [_ ->]. unfold market_order_limit, i64_max in *.
    split; [destruct (o_side o); lia|]. split; [destruct (o_side o); lia|]. split; [discriminate|]. split; [discriminate|]. reflexivity.
  - injection E as <-. unfold is_i64 in Hp. rewrite pow63 in Hp. apply fixed_price_data_ok in E2; [|lia]. destruct E2 as [_ ->].
    split; [lia|]. split; [lia|]. split; [intros q Eq; injection Eq as <-; destruct (o_side o); lia|]. split; discriminate.
  - destruct (Hslide _ _ _ _ Hp E) as [Hs1 Hs2]. apply fixed_price_data_ok in E2; [|lia]. destruct E2 as [_ ->].
    split; [lia|]. split; [lia|]. split; [intros q Eq; injection Eq as <-; exact Hs2|]. split; [|discriminate].
    intros t' l n Et Hn Ek. injection Et as <-. destruct (Hk Fixed l n ltac:(lia) Hn Ek ltac:(rewrite pow63; lia)) as [K1 K2].
    split; [exact K1|]. cbn [price_is]. symmetry. exact K2.
  - destruct oracle as [op|]; cbn [bind option_map] in *; [|discriminate E].
    apply bind_ok in E as (p & Ep & E). destruct (in_i64 (op + off)) eqn:Ei; [|discriminate Ep]. injection Ep as <-.
    unfold in_i64, in_range, i64_min, i64_max in Ei. apply andb_prop in Ei as [Ei1 Ei2]. apply Z.leb_le in Ei1, Ei2.
    destruct (Hslide (o_side o) (op + off) t pl) as [Hs1 Hs2]; [unfold is_i64; rewrite pow63; lia|exact E|].
    apply bind_ok in E2 as (op' & Eo & E2). apply unwrap_ok in Eo. injection Eo as <-.
    apply bind_ok in E2 as (dd & Ed & E2). apply chk_i64_ok in Ed as [-> Rd]. injection E2 as <-.
    rewrite oracle_pegged_price_data_eq in * by exact Rd.
    split; [lia|]. split; [lia|]. split; [intros q Eq; injection Eq as <-; exact Hs2|]. split; [|discriminate].
    intros t' l n Et Hn Ek. injection Et as <-. destruct (Hk OraclePegged l n ltac:(lia) Hn Ek I) as [K1 K2].
    split; [exact K1|]. cbn [price_is]. exists op. split; [reflexivity|]. unfold exact_price. rewrite K2, pow63. lia.
  - injection E as <-. unfold is_i64 in Hp. rewrite pow63 in Hp. apply fixed_price_data_ok in E2; [|lia]. destruct E2 as [_ ->].
    split; [lia|]. split; [lia|]. split; [intros q Eq; injection Eq as <-; destruct (o_side o); lia|]. split; discriminate.
Qed.

(** ** Orders of a side listed once *)
Lemma oleaves_nodup bs T t : bs_ok bs T -> NoDup (map lf_key (oleaves (T t))).
Proof.
  intros H. destruct H as (F & Hb). pose proof (oleaves_sorted _ _ _ _ _ (Hb t)) as Hs. unfold oleaves.
  unfold keys_sorted in Hs. induction Hs as [|x l Hs IH Hf]; cbn [map]; constructor; auto.
  intros Hin. apply in_map_iff in Hin as (y & E & Hy). apply in_map_iff in Hy as (z & <- & Hz).
  rewrite Forall_forall in Hf. specialize (Hf z Hz). lia.
Qed.

Lemma nodup_app {A} (l m : list A) : NoDup l -> NoDup m -> (forall x, In x l -> In x m -> False) -> NoDup (l ++ m).
Proof.
  induction l as [|x l IH]; cbn [app]; intros Hl Hm Hd; [exact Hm|]. inversion Hl as [|? ? N1 N2]; subst. constructor.
  - rewrite in_app_iff. intros [H|H]; [contradiction|]. exact (Hd x (or_introl eq_refl) H).
  - apply IH; auto. intros y Hy. apply Hd. right. exact Hy.
Qed.
Lemma nodup_app_inv {A} (l m : list A) : NoDup (l ++ m) -> NoDup l /\ NoDup m /\ forall x, In x l -> In x m -> False.
Proof.
  induction l as [|x l IH]; cbn [app]; intros H; [split; [constructor|split; [exact H|intros x []]]|].
  inversion H as [|? ? N1 N2]; subst. destruct (IH N2) as (H1 & H2 & H3). rewrite in_app_iff in N1.
  split; [constructor; tauto|]. split; [exact H2|]. intros y [<-|Hy] Hm; [tauto|eauto].
Qed.

Lemma nodup_map_pair {A B} (t : A) (l : list B) : NoDup l -> NoDup (map (pair t) l).
Proof.
  induction 1 as [|x l N1 N2 IH]; cbn [map]; constructor; auto.
  intros H. apply in_map_iff in H as (y & E & Hy). injection E as ->. contradiction.
Qed.

Lemma all_leaves_nodup bs T : bs_ok bs T -> NoDup (all_leaves T).
Proof.
  intros H. unfold all_leaves. apply nodup_app.
  1,2: apply nodup_map_pair; apply (NoDup_map_inv lf_key); eapply oleaves_nodup; exact H.
  intros x H1 H2. apply in_map_iff in H1 as (a & <- & _). apply in_map_iff in H2 as (b & E & _). discriminate E.
Qed.

(** ** Everything about a successful placement *)
Lemma cfg_sound_eq m m' : m_cfg m' = m_cfg m -> cfg_sound (m_cfg m) -> cfg_sound (m_cfg m').
Proof. intros ->. auto. Qed.
Lemma locks_eq m m' x : m_cfg m' = m_cfg m -> maker_locks m' x = maker_locks m x.
Proof. intros E. unfold maker_locks, maker_fee. rewrite E. reflexivity. Qed.
Lemma bls_eq m m' : m_cfg m' = m_cfg m -> bls m' = bls m.
Proof. intros E. unfold bls. rewrite E. reflexivity. Qed.
Lemma qls_eq m m' : m_cfg m' = m_cfg m -> qls m' = qls m.
Proof. intros E. unfold qls. rewrite E. reflexivity. Qed.
Lemma taker_pays_eq m m' x : m_cfg m' = m_cfg m -> taker_pays m' x = taker_pays m x.
Proof. intros E. unfold taker_pays, taker_fee. rewrite E. reflexivity. Qed.

Lemma maxq_facts w o maxq : cfg_sound (m_cfg (w_mkt w)) -> 0 <= o_max_quote o ->
  (match o_side o with
   | Bid => if is_post_only o then Ok (o_max_quote o) else subtract_taker_fees (w_mkt w) (o_max_quote o)
   | Ask => Ok (o_max_quote o)
   end) = Ok maxq ->
  0 <= maxq <= o_max_quote o /\
  (o_side o = Bid -> is_post_only o = false -> forall x, 0 <= x <= maxq -> x + taker_pays (w_mkt w) x <= o_max_quote o).
Proof.
  intros Hc Hq H. destruct (o_side o).
  - destruct (is_post_only o); [injection H as <-; split; [lia|discriminate]|].
    pose proof (cs_taker _ Hc) as C4. change (c_taker_fee (m_cfg (w_mkt w))) with (taker_fee (w_mkt w)) in C4.
    apply subtract_taker_fees_ok in H; [|exact (proj1 C4)|exact Hq]. subst maxq.
    destruct (budget_fee (w_mkt w) (o_max_quote o) (proj1 C4) Hq) as [B1 B2]. split; [exact B1|]. intros _ _. exact B2.
  - injection H as <-. split; [lia|discriminate].
Qed.

Lemma own_quote_bounds o price tk owner acts : Forall (act_fact o price tk owner) acts ->
  0 <= sumZ (map (self_quote tk owner) acts) <= quote_lots acts /\ 0 <= base_lots acts.
Proof.
  induction 1 as [|a l Ha _ [IH IH2]]; [cbn; lia|]. rewrite quote_lots_cons, base_lots_cons.
  cbn [map sumZ fold_right]. fold (sumZ (map (self_quote tk owner) l)).
  destruct a as [i q|i|i]; cbn [self_quote act_quote act_base]; try lia.
  cbn [act_fact] in Ha. destruct (own_trade tk owner i); nia.
Qed.

(** The pieces of a placement, with their numbers. *)
Lemma placed_numbers w o oracle taker owner now limit rem T price pd maxq acts ms lf w2 bt qt tf ra rq mf b2 T2 :
  sound_call w o taker owner -> fits (invert_side (o_side o)) (w_book w (invert_side (o_side o))) T ->
  placed w o oracle taker owner now limit rem T price pd maxq acts ms lf w2 bt qt tf ra rq mf b2 T2 ->
  let m := w_mkt w in
  Forall (act_fact o price taker owner) acts /\
  ms_base ms = o_max_base o - base_lots acts /\ ms_quote ms = maxq - quote_lots acts /\
  0 <= ms_base ms /\ 0 <= ms_quote ms /\ 0 <= base_lots acts /\ 0 <= quote_lots acts /\
  bt = base_lots acts * bls m /\ qt = quote_lots acts * qls m /\
  bt <= 9223372036854775807 /\ qt <= 9223372036854775807 /\
  tf = taker_pays m ((quote_lots acts - sumZ (map (self_quote taker owner) acts)) * qls m) /\
  rq = o_max_quote o - quote_lots acts - (tf + qls m - 1) / qls m /\
  m_cfg (w_mkt w2) = m_cfg m /\ m_seq (w_mkt w2) = m_seq m + 1 /\
  (forall s, w_book w2 s = w_book w s) /\
  effects o taker owner rem now (w_set_mkt w (m_set_seq m (m_seq m + 1))) acts (ms_w ms) /\
  quiet taker (ms_w ms) w2.
Proof.
  intros Hsc Hfit [Hp Hseq Hmq Hcap Hit Htr Hst Hfit2 Hlv Hmf Hlp Hfok] m.
  destruct Hsc as [Hc Hsd Hso Htk]. destruct Hso as [Hb0 Hq0 _].
  pose proof (maxq_facts w o maxq Hc Hq0 Hmq) as [Hmx _].
  pose proof (lt_acts _ _ _ _ _ _ _ _ _ _ _ Htr (merged_items_ok _ _ _ _ _ Hfit) Hb0 (proj1 Hmx)) as (Haf & Hb & Hq).
  pose proof (lt_amounts _ _ _ _ _ _ Htk _ _ _ _ _ Htr) as (A1 & A2 & A3 & A4 & _).
  cbn [start_ms ms_base ms_quote ms_dec] in A1, A2, A3. rewrite Z.add_0_l in A3.
  pose proof (own_quote_bounds _ _ _ _ _ Haf) as [Hown Hbl].
  pose proof (lt_effects _ _ _ _ _ _ Htk _ _ _ _ _ Htr) as Hef.
  pose proof (effects_rest _ _ _ _ _ _ _ _ Hef) as (R1 & R2 & R3 & R4 & _).
  pose proof (settle_taker_rest _ _ _ _ _ _ _ _ _ _ Hst) as [(S1 & S2 & S3 & S4 & S5) Sh].
  cbn [start_ms ms_w w_set_mkt w_bids w_asks w_mkt m_cfg m_set_seq m_seq] in *.
  assert (Hcm : m_cfg (w_mkt (ms_w ms)) = m_cfg m) by exact R3.
  assert (Hst' := Hst). apply settle_taker_inv in Hst; [|rewrite Hcm; exact Hc|exact Hq|rewrite A2, A3; lia].
  destruct Hst as (T1 & T2' & E1 & E2 & E3 & E4 & E5 & E6 & E7 & E8 & E9).
  rewrite (bls_eq _ _ Hcm) in E1. rewrite (qls_eq _ _ Hcm) in E2, E5, E8. rewrite (taker_pays_eq _ _ _ Hcm) in E5.
  replace (o_max_base o - ms_base ms) with (base_lots acts) in E1 by lia.
  replace (maxq - ms_quote ms) with (quote_lots acts) in E2, E5, E8 by lia. rewrite A3 in E5.
  split; [exact Haf|]. split; [exact A1|]. split; [exact A2|]. split; [exact Hb|]. split; [exact Hq|]. split; [exact Hbl|]. split; [lia|].
  split; [exact E1|]. split; [exact E2|]. split; [exact E3|]. split; [exact E4|]. split; [exact E5|]. split; [exact E8|].
  split; [congruence|]. split; [rewrite S4; exact R4|].
  split; [intros []; cbn; congruence|]. split; [exact Hef|].
  split; [exact Sh|]. split; [exact S5|]. intros k Hk.
  destruct ((0 <? maxq - ms_quote ms) || (0 <? o_max_base o - ms_base ms)); [|subst w2; reflexivity].
  destruct E9 as (m1 & _ & E9). destruct taker as [t|].
  - destruct E9 as (a & a' & m' & _ & _ & ->). cbn [w_set_acct w_set_accts w_set_mkt w_accts].
    assert (Hne : k <> t) by (intros ->; apply Hk; reflexivity). clear - Hne.
    induction (w_accts (ms_w ms)) as [|[k' x] l IH]; [reflexivity|]. cbn [acct_set].
    destruct (Z.eqb_spec t k') as [->|]; cbn [acct_get].
    + destruct (Z.eqb_spec k k'); [contradiction|reflexivity].
    + destruct (Z.eqb_spec k k'); [reflexivity|exact IH].
  - rewrite E9. reflexivity.
Qed.

Lemma acct_get_set_other k t a l : k <> t -> acct_get k (acct_set t a l) = acct_get k l.
Proof.
  intros Hne. induction l as [|[k' x] l IH]; [reflexivity|]. cbn [acct_set].
  destruct (Z.eqb_spec t k') as [->|]; cbn [acct_get].
  - destruct (Z.eqb_spec k k'); [contradiction|reflexivity].
  - destruct (Z.eqb_spec k k'); [reflexivity|exact IH].
Qed.
Lemma acct_get_set_same t a b l : acct_get t l = Some b -> acct_get t (acct_set t a l) = Some a.
Proof.
  induction l as [|[k' x] l IH]; [discriminate|]. cbn [acct_set acct_get].
  destruct (Z.eqb_spec t k') as [->|Hne]; cbn [acct_get].
  - rewrite Z.eqb_refl. reflexivity.
  - intros H. destruct (Z.eqb_spec t k'); [contradiction|auto].
Qed.

Lemma quiet_refl tk w : quiet tk w w.
Proof. repeat split. Qed.
Lemma quiet_trans tk w1 w2 w3 : quiet tk w1 w2 -> quiet tk w2 w3 -> quiet tk w1 w3.
Proof.
  intros (A1 & A2 & A3) (B1 & B2 & B3). split; [congruence|]. split; [exact (same_terms_trans _ _ _ A2 B2)|].
  intros k Hk. rewrite B3, A3 by exact Hk. reflexivity.
Qed.
Lemma quiet_book tk w s b : quiet tk w (w_set_book w s b).
Proof. destruct s; repeat split. Qed.
Lemma quiet_acct k w a : quiet (Some k) w (w_set_acct w k a).
Proof.
  split; [reflexivity|]. split; [apply same_terms_refl|]. intros k' Hk. apply acct_get_set_other. congruence.
Qed.
Lemma quiet_locks s k w mf w' : locks s w k mf w' -> quiet (Some k) w w' /\ (forall u, w_book w' u = w_book w u) /\ w_mkt w' = w_mkt w.
Proof.
  destruct s; cbn [locks].
  - intros (a & _ & _ & ->). split; [apply quiet_acct|]. split; [intros []|]; reflexivity.
  - intros ->. split; [apply quiet_refl|]. split; [intros []|]; reflexivity.
Qed.

(** Facts about the order put on the book. *)
Record put_facts (o : order) (oracle : option Z) (price pd : Z) (w : world) (ms : mstate) (rq mf : Z)
  (r : order_amounts) (t : otree_id) (l : leaf) : Prop := {
  pf_price : price_is oracle t l price;
  pf_qty : lf_qty l = post_qty o price ms rq mf;
  pf_pos : 0 < lf_qty l;
  pf_target : ms_target ms = Some t;
  pf_key : lf_key l = new_node_key (o_side o) pd (m_seq (w_mkt w) + 1);
  pf_ok : order_ok t l;
  pf_quote : oa_posted_quote r = lf_qty l * lock_price o price * qls (w_mkt w);
  pf_fees : oa_maker_fees r = match o_side o with Bid => maker_locks (w_mkt w) (oa_posted_quote r) | Ask => 0 end;
  pf_peg : own_peg o = true -> is_price_better (o_side o) price (order_peg_limit o) = false }.

Lemma invert_neq s : invert_side s <> s.
Proof. destruct s; discriminate. Qed.

Lemma sc_other_fits w o taker owner : sound_call w o taker owner ->
  exists T, fits (invert_side (o_side o)) (w_book w (invert_side (o_side o))) T /\
   forall t l, In l (oleaves (T t)) -> seq_of (invert_side (o_side o)) l <= m_seq (w_mkt w).
Proof. intros [_ Hs _ _]. apply sound_fits. apply Hs. Qed.

Lemma lock_price_pos o price : sane_order o -> 1 <= price -> 1 <= lock_price o price.
Proof.
  intros [_ _ Hp] H. unfold lock_price, own_peg, order_peg_limit. destruct (o_params o); cbn [negb Z.eqb andb]; try exact H.
  destruct (Z.eqb_spec peg_limit (-1)); cbn [negb andb]; [exact H|]. destruct (side_eqb (o_side o) Bid); [lia|exact H].
Qed.

Lemma new_order_full w o oracle taker owner now limit rem w' r :
  sound_call w o taker owner -> new_order w o oracle taker owner now limit rem = Ok (w', r) ->
  exists T T0 price pd maxq acts ms lf w2 bt qt tf ra rq mf b2 T2 T3 gone put,
    fits (invert_side (o_side o)) (w_book w (invert_side (o_side o))) T /\
    fits (o_side o) (w_book w (o_side o)) T0 /\
    placed w o oracle taker owner now limit rem T price pd maxq acts ms lf w2 bt qt tf ra rq mf b2 T2 /\
    explained w o oracle taker owner now rem w' r (merged (w_book w (invert_side (o_side o))) T now oracle) acts gone put /\
    oa_base_taken r = bt /\ oa_quote_taken r = qt /\ oa_taker_fees r = tf /\ oa_referrer r = ra /\
    makes_room (o_side o) oracle now price T0 gone /\
    w_book w' (invert_side (o_side o)) = b2 /\ fits (o_side o) (w_book w' (o_side o)) T3 /\
    Permutation (match put with Some x => [x] | None => [] end ++ all_leaves T0) (all_leaves T3 ++ gone) /\
    m_cfg (w_mkt w') = m_cfg (w_mkt w) /\ m_seq (w_mkt w') = m_seq (w_mkt w) + 1 /\
    match put with
    | None => post_qty o price ms rq mf <= 0 \/ ms_target ms = None \/
        (own_peg o = true /\ is_price_better (o_side o) price (order_peg_limit o) = true)
    | Some (t, l) => put_facts o oracle price pd w ms rq mf r t l
    end.
Proof.
  intros Hsc H. pose proof Hsc as [Hc Hsd Hso Htk]. pose proof Hso as [Hb0 Hq0 _].
  destruct (sound_fits _ _ (Hsd (o_side o))) as (T0 & Hf0 & Hage0).
  destruct (sc_other_fits _ _ _ _ Hsc) as (T & Hf & Hage).
  destruct (new_order_inv _ _ _ _ _ _ _ _ _ _ _ Hf Htk Hc Hb0 Hq0 H)
    as (price & pd & maxq & acts & ms & lf & w2 & bt & qt & tf & ra & rq & mf & b2 & T2 & Hpl & Hfin).
  destruct (placed_numbers _ _ _ _ _ _ _ _ _ _ _ _ _ _ _ _ _ _ _ _ _ _ _ _ Hsc Hf Hpl)
    as (Haf & Eb & Eq & Hb & Hq & Hbl & Hql & Ebt & Eqt & Bbt & Bqt & Etf & Erq & Ecfg & Eseq & Ebk & Hef & Hqu).
  pose proof Hpl as [Hp Hseq Hmq Hcap Hit Htr Hst Hf2 Hlv Hmf Hlp Hfok].
  destruct (order_price_facts _ _ _ _ _ _ Hso Hp) as (Rp & Rpd & Hlim & Hkey & _).
  pose proof (lt_sub _ _ _ _ _ _ _ _ _ _ _ Htr) as Hsub.
  set (s := o_side o) in *. set (os := invert_side s) in *.
  assert (Hother : forall t L, lists (w_book w os) t L -> lists b2 t (residues acts t L)).
  { intros t L HL. rewrite (lists_fun _ _ _ _ HL (bs_lists _ _ t (ft_ok _ _ _ Hf))).
    rewrite (ft_side _ _ _ Hf), residues_dir, <- Hlv, <- (ft_side _ _ _ Hf2). apply bs_lists. exact (ft_ok _ _ _ Hf2). }
  destruct Hfin as [Hno|t w4 pb pq mfees Hpos Htg Hpeg Hpost].
  - (* nothing posted *)
    exists T, T0, price, pd, maxq, acts, ms, lf, w2, bt, qt, tf, ra, rq, mf, b2, T2, T0, [], None.
    cbn [oa_base_taken oa_quote_taken oa_taker_fees oa_referrer].
    split; [exact Hf|]. split; [exact Hf0|]. split; [exact Hpl|]. split.
    { constructor; cbn [oa_base_taken oa_quote_taken oa_taker_fees oa_referrer oa_order_id oa_posted_base oa_posted_quote oa_maker_fees].
      - exact Hit.
      - exact Hsub.
      - intros t L HL. fold s os. rewrite w_book_set. apply Hother. exact HL.
      - fold s. intros t L L' HL HL'. unfold os in HL'. rewrite w_book_set_inv', Ebk in HL'.
        rewrite (lists_fun _ _ _ _ HL' HL). intros l. split; [intros Hl; left; split; [exact Hl|intros []]|].
        intros [[Hl _]|E]; [exact Hl|discriminate E].
      - repeat split.
      - split; [cbn; lia|]. split; [reflexivity|]. intros t l L [].
      - exists (w_set_mkt w (m_set_seq (w_mkt w) (m_seq (w_mkt w) + 1))), (ms_w ms), w2, w2.
        split; [reflexivity|]. split; [exact Hef|]. split; [exact Hqu|]. split; [constructor|]. apply quiet_book.
      - exact Ebt.
      - exact Eqt. }
    do 4 (split; [reflexivity|]).
    split; [exists [], []; split; [reflexivity|]; split; [cbn; lia|]; split; [constructor|left; reflexivity]|]. split; [apply w_book_set|].
    split; [unfold os; rewrite w_book_set_inv', Ebk; exact Hf0|]. split; [rewrite app_nil_r; reflexivity|].
    split; [rewrite w_set_book_mkt; exact Ecfg|]. split; [rewrite w_set_book_mkt; exact Eseq|exact Hno].
  - (* posted *)
    assert (Hf0' : fits (o_side o) (w_book (w_set_book w2 os b2) (o_side o)) T0).
    { fold s. unfold os. rewrite w_book_set_inv', Ebk. exact Hf0. }
    assert (Hpt : post_target o = Some t).
    { destruct (lt_target _ _ _ _ _ _ _ _ _ _ _ Htr) as [E|E]; [cbn [start_ms ms_target] in E; congruence|congruence]. }
    set (id := new_node_key s pd (m_seq (w_mkt w) + 1)) in *.
    set (qty := post_qty o price ms rq mf) in *.
    assert (Hoko : forall slot, order_ok t (posted_leaf o owner now id slot qty) /\ price_is oracle t (posted_leaf o owner now id slot qty) price).
    { intros slot. apply (Hkey t _ _ Hpt Hseq). reflexivity. }
    apply post_order_inv with (T := T0) in Hpost.
    2: exact Hf0'. 2: exact Htk. 2: rewrite w_set_book_mkt, Ecfg; exact Hc. 2: apply (Hoko 0).
    2:{ intros t' l Hl E. pose proof (Hage0 t' l Hl) as Hle. pose proof (seq_of_new s pd _ l Hseq E) as Hsq. lia. }
    2: exact Hpos. 2: apply lock_price_pos; [exact Hso|lia].
    rewrite w_set_book_mkt in Hpost. fold s in Hpost.
    destruct Hpost as (Etk & Epb & Epq & Bpb & Bpq & Emf & gone & w1 & wB & a & slot & a' & b3 & T3 & Hlk & Hdr & Ha & Hslot & Hadd & -> & Hf3 & Hperm & Hlen & Hroom & Hincl).
    rewrite (bls_eq _ _ Ecfg) in Epb. rewrite (qls_eq _ _ Ecfg) in Epq. rewrite (locks_eq _ _ _ Ecfg) in Emf.
    set (nl := posted_leaf o owner now id slot qty) in *.
    assert (Hnew : ~ In (t, nl) (all_leaves T0)).
    { intros Hin. apply in_all_leaves in Hin. pose proof (Hage0 _ _ Hin) as Hle.
      rewrite (seq_of_new s pd (m_seq (w_mkt w) + 1) nl Hseq eq_refl) in Hle. lia. }
    assert (N : NoDup (all_leaves T3 ++ gone)).
    { eapply Permutation_NoDup; [exact Hperm|]. constructor; [exact Hnew|eapply all_leaves_nodup; exact (ft_ok _ _ _ Hf0)]. }
    pose proof (lock_price_pos o price Hso ltac:(lia)) as Hlp1.
    destruct Hc as [C1 C2 C3 C4 C5] eqn:HcE. clear HcE. change (c_qls (m_cfg (w_mkt w))) with (qls (w_mkt w)) in C1. change (c_bls (m_cfg (w_mkt w))) with (bls (w_mkt w)) in C2.
    assert (Ub : as_u64 pb = pb) by (apply as_u64_id; nia).
    assert (Uq : as_u64 pq = pq) by (apply as_u64_id; nia).
    rewrite Ub, Uq.
    rewrite Etk in *. apply quiet_locks in Hlk as (Q1 & Q2 & Q3).
    pose proof (drops_rest _ _ _ _ _ _ _ Hdr) as [Sd Md].
    exists T, T0, price, pd, maxq, acts, ms, lf, w2, bt, qt, tf, ra, rq, mf, b2, T2, T3, gone, (Some (t, nl)).
    cbn [oa_base_taken oa_quote_taken oa_taker_fees oa_referrer].
    assert (Eother : w_book (w_set_acct (w_set_book wB s b3) owner a') os = b2).
    { rewrite w_book_acct. unfold os. rewrite w_book_set_inv, (same_rest_book _ _ _ Sd), Q2. unfold os. apply w_book_set. }
    assert (Eown : w_book (w_set_acct (w_set_book wB s b3) owner a') s = b3).
    { rewrite w_book_acct. apply w_book_set. }
    split; [exact Hf|]. split; [exact Hf0|]. split; [exact Hpl|]. split.
    { constructor; cbn [oa_base_taken oa_quote_taken oa_taker_fees oa_referrer oa_order_id oa_posted_base oa_posted_quote oa_maker_fees].
      - exact Hit.
      - exact Hsub.
      - intros u L HL. fold s os. rewrite Eother. apply Hother. exact HL.
      - fold s. intros u L L' HL HL' l. rewrite Eown in HL'.
        rewrite (lists_fun _ _ _ _ HL (bs_lists _ _ u (ft_ok _ _ _ Hf0))).
        rewrite (lists_fun _ _ _ _ HL' (bs_lists _ _ u (ft_ok _ _ _ Hf3))). rewrite !in_dir.
        rewrite <- !in_all_leaves.
        apply nodup_app_inv in N as (_ & _ & Hdis). split.
        + intros Hl. assert (Hin : In (u, l) ((t, nl) :: all_leaves T0)).
          { apply (Permutation_in _ (Permutation_sym Hperm)). apply in_or_app. left. exact Hl. }
          destruct Hin as [E|Hin]; [right; congruence|left]. split; [exact Hin|]. intros Hg. exact (Hdis _ Hl Hg).
        + intros [[Hl Hg]|E].
          * assert (Hin : In (u, l) (all_leaves T3 ++ gone)).
            { apply (Permutation_in _ Hperm). right. exact Hl. }
            apply in_app_or in Hin as [Hin|Hin]; [exact Hin|contradiction].
          * injection E as <- <-. assert (Hin : In (t, nl) (all_leaves T3 ++ gone)) by (apply (Permutation_in _ Hperm); left; reflexivity).
            apply in_app_or in Hin as [Hin|Hin]; [exact Hin|]. exfalso.
            apply Hnew. apply Hincl. exact Hin.
      - split; [exact Hpt|]. split; [reflexivity|]. split; [exact Hpos|]. split; [exact Epb|reflexivity].
      - split; [exact Hlen|]. split; [discriminate|]. intros u l L Hg HL. fold s in HL.
        rewrite (lists_fun _ _ _ _ HL (bs_lists _ _ u (ft_ok _ _ _ Hf0))), in_dir, <- in_all_leaves.
        apply Hincl. exact Hg.
      - exists (w_set_mkt w (m_set_seq (w_mkt w) (m_seq (w_mkt w) + 1))), (ms_w ms), w1, wB.
        split; [reflexivity|]. split; [exact Hef|]. split; [|split; [exact Hdr|]].
        + eapply quiet_trans; [exact Hqu|]. eapply quiet_trans; [|exact Q1]. apply quiet_book.
        + eapply quiet_trans; [apply quiet_book|]. apply quiet_acct.
      - exact Ebt.
      - exact Eqt. }
    do 4 (split; [reflexivity|]). split; [exact Hroom|]. split; [exact Eother|].
    split; [rewrite Eown; exact Hf3|]. split; [exact Hperm|].
    assert (EmB : w_mkt (w_set_acct (w_set_book wB s b3) owner a') = w_mkt wB).
    { transitivity (w_mkt (w_set_book wB s b3)); [reflexivity|]. apply w_set_book_mkt. }
    assert (Em2 : m_cfg (w_mkt wB) = m_cfg (w_mkt w2) /\ m_seq (w_mkt wB) = m_seq (w_mkt w2)).
    { rewrite Md, Q3, w_set_book_mkt. split; reflexivity. }
    rewrite EmB. destruct Em2 as [-> ->]. split; [exact Ecfg|]. split; [exact Eseq|].
    constructor; cbn [oa_posted_quote oa_maker_fees].
    + apply Hoko.
    + reflexivity.
    + exact Hpos.
    + exact Htg.
    + reflexivity.
    + apply Hoko.
    + exact Epq.
    + exact Emf.
    + exact Hpeg.
Qed.
