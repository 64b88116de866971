(** The matching loop as a trace of happenings. *)
From Coq Require Import ZArith List Bool Lia.
From Verif Require Import Base Nodes OrderTree BookSide Heap Market OpenOrders Order Book
  BaseFacts SpecBook SpecOrder.
Import ListNotations.
Open Scope Z_scope.

Definition to_fill (s : mstate) (i : item) (mbq : Z) : Z :=
  Z.min (Z.min (ms_base s) (lf_qty (im_leaf i))) mbq.

Definition own_trade (taker : option Z) (owner : Z) (i : item) : bool :=
  match taker with None => false | Some _ => owner =? lf_owner (im_leaf i) end.

Section Trace.
Variables (o : order) (price : Z) (taker : option Z) (owner : Z) (rem : list Z) (now : Z).

Definition busy (s : mstate) : Prop := ms_base s <> 0 /\ ms_quote s <> 0.

Definition after_drop (i : item) (w : world) (s : mstate) : mstate :=
  mkMs w (ms_base s) (ms_quote s) (ms_dec s) (ms_rebates s) (ms_changes s)
    (ms_deletes s ++ [(im_tree i, lf_key (im_leaf i))]) (ms_dropped s + 1) (ms_processed s)
    (ms_limit s) (ms_target s).
Definition after_own (i : item) (w : world) (s : mstate) : mstate :=
  mkMs w (ms_base s) (ms_quote s) (ms_dec s) (ms_rebates s) (ms_changes s)
    (ms_deletes s ++ [(im_tree i, lf_key (im_leaf i))]) (ms_dropped s) (ms_processed s)
    (ms_limit s) (ms_target s).
Definition after_fill (i : item) (q dec reb : Z) (w : world) (np : Z) (s : mstate) : mstate :=
  mkMs w (ms_base s - q) (ms_quote s - q * im_price i) dec reb
    (if lf_qty (im_leaf i) - q =? 0 then ms_changes s
     else ms_changes s ++ [(im_handle i, lf_qty (im_leaf i) - q)])
    (if lf_qty (im_leaf i) - q =? 0 then ms_deletes s ++ [(im_tree i, lf_key (im_leaf i))]
     else ms_deletes s)
    (ms_dropped s) np (ms_limit s - 1) (ms_target s).

Definition drop_event (s : mstate) (i : item) : out_event :=
  mkOut (invert_side (o_side o)) (lf_slot (im_leaf i)) now (h_seq (w_heap (ms_w s)))
    (lf_owner (im_leaf i)) (lf_qty (im_leaf i)).

(** [ltrace items s acts s' left]: the loop over [items] from [s] ends in [s'] before [left]. *)
Inductive ltrace : list item -> mstate -> list act -> mstate -> list item -> Prop :=
| lt_end s : ltrace [] s [] s []
| lt_done i r s : ms_base s = 0 \/ ms_quote s = 0 -> ltrace (i :: r) s [] s (i :: r)
| lt_limit i r s : busy s -> is_valid i = true ->
    is_price_within_limit (o_side o) (im_price i) price = false -> ltrace (i :: r) s [] s (i :: r)
| lt_stop i r s : busy s -> is_valid i = true ->
    is_price_within_limit (o_side o) (im_price i) price = true ->
    is_post_only o = true \/ ms_limit s = 0 \/ Z.quot (ms_quote s) (im_price i) = 0 ->
    ltrace (i :: r) s [] (ms_stop s) (i :: r)
| lt_skip i r s acts s' lf : busy s -> is_valid i = false -> 5 <= ms_dropped s ->
    ltrace r s acts s' lf -> ltrace (i :: r) s acts s' lf
| lt_drop i r s w acts s' lf : busy s -> is_valid i = false -> ms_dropped s < 5 ->
    process_out_event (ms_w s) taker owner rem (drop_event s i) = Ok w ->
    ltrace r (after_drop i w s) acts s' lf -> ltrace (i :: r) s (ADrop i :: acts) s' lf
| lt_own i r s t a a' acts s' lf : busy s -> is_valid i = true ->
    is_price_within_limit (o_side o) (im_price i) price = true -> is_post_only o = false ->
    ms_limit s <> 0 -> Z.quot (ms_quote s) (im_price i) <> 0 ->
    taker = Some t -> owner = lf_owner (im_leaf i) -> o_self_trade o = CancelProvide ->
    acct_load t (w_accts (ms_w s)) = Ok a ->
    ooa_cancel_order a (lf_slot (im_leaf i)) (lf_qty (im_leaf i)) (w_mkt (ms_w s)) = Ok a' ->
    ltrace r (after_own i (w_set_acct (ms_w s) t a') s) acts s' lf ->
    ltrace (i :: r) s (AOwn i :: acts) s' lf
| lt_fill i r s q dec reb w np acts s' lf : busy s -> is_valid i = true ->
    is_price_within_limit (o_side o) (im_price i) price = true -> is_post_only o = false ->
    1 <= ms_limit s -> im_price i <> 0 -> Z.quot (ms_quote s) (im_price i) <> 0 ->
    q = to_fill s i (Z.quot (ms_quote s) (im_price i)) ->
    0 <= ms_quote s - q * im_price i ->
    (own_trade taker owner i = true -> o_self_trade o = DecrementTake /\
       dec = ms_dec s + q * im_price i /\ reb = ms_rebates s) ->
    (own_trade taker owner i = false -> dec = ms_dec s /\
       exists x, maker_rebate_floor (w_mkt (ms_w s)) (as_u64 (q * im_price i * qls (w_mkt (ms_w s)))) = Ok x /\
         reb = ms_rebates s + x) ->
    process_fill_event (ms_w s) taker rem (ms_processed s)
      (fill_of o owner now (m_seq (w_mkt (ms_w s))) i q) = Ok (w, np) ->
    ltrace r (after_fill i q dec reb w np s) acts s' lf ->
    ltrace (i :: r) s (AFill i q :: acts) s' lf.

Lemma eqb_sub_zero a b : (a - b =? 0) = (a =? b).
Proof. destruct (Z.eqb_spec a b), (Z.eqb_spec (a - b) 0); lia. Qed.

Lemma match_fill_inv i mb mq dec reb s s' : mq = mb * im_price i ->
  match_fill o taker owner rem now i mb mq dec reb s = Ok s' ->
  exists w np, process_fill_event (ms_w s) taker rem (ms_processed s)
      (fill_of o owner now (m_seq (w_mkt (ms_w s))) i mb) = Ok (w, np) /\
    s' = after_fill i mb dec reb w np s /\ 1 <= ms_limit s /\ 0 <= ms_quote s - mb * im_price i.
Proof.
  intros -> H. unfold match_fill in H.
  apply bind_ok in H as (rb & E1 & H). apply chk_i64_ok in E1 as [-> _].
  apply bind_ok in H as (rq & E2 & H). apply chk_i64_ok in E2 as [-> _].
  apply bind_ok in H as (u & E3 & H). apply massert_ok in E3. apply Z.leb_le in E3.
  apply bind_ok in H as (nq & E4 & H). apply chk_i64_ok in E4 as [-> _].
  cbv zeta in H. apply bind_ok in H as ([w np] & E5 & H).
  apply bind_ok in H as (lim & E6 & H). apply chk_ok in E6 as [-> E6].
  unfold in_range in E6. apply andb_prop in E6 as [E6 _]. apply Z.leb_le in E6.
  injection H as <-. exists w, np.
  unfold fill_of. rewrite <- eqb_sub_zero. split; [exact E5|].
  split; [reflexivity|]. split; [lia|exact E3].
Qed.

Lemma match_loop_trace items : forall s s',
  match_loop o price taker owner rem now items s = Ok s' ->
  exists acts lf, ltrace items s acts s' lf.
Proof.
  induction items as [|i r IH]; intros s s' H; cbn [match_loop] in H.
  - injection H as <-. exists [], []. constructor.
  - destruct ((ms_base s =? 0) || (ms_quote s =? 0)) eqn:B.
    { injection H as <-. exists [], (i :: r). apply lt_done.
      apply orb_prop in B as [B|B]; apply Z.eqb_eq in B; auto. }
    apply orb_false_elim in B as [B1 B2]. apply Z.eqb_neq in B1, B2.
    assert (Hb : busy s) by (split; assumption).
    destruct (is_valid i) eqn:V; cbn [negb] in H.
    2:{ apply bind_ok in H as (s1 & E & H). unfold match_invalid in E.
        destruct (ms_dropped s <? DROP_EXPIRED_ORDER_LIMIT) eqn:D.
        - apply Z.ltb_lt in D. unfold DROP_EXPIRED_ORDER_LIMIT in D. cbv zeta in E.
          apply bind_ok in E as (w & E & E'). injection E' as <-.
          destruct (IH _ _ H) as (acts & lf & HT).
          exists (ADrop i :: acts), lf. eapply lt_drop; eauto.
        - apply Z.ltb_ge in D. unfold DROP_EXPIRED_ORDER_LIMIT in D. injection E as <-.
          destruct (IH _ _ H) as (acts & lf & HT).
          exists acts, lf. eapply lt_skip; eauto. }
    destruct (is_price_within_limit (o_side o) (im_price i) price) eqn:W; cbn [negb] in H.
    2:{ injection H as <-. exists [], (i :: r). apply lt_limit; assumption. }
    destruct (is_post_only o) eqn:PO.
    { injection H as <-. exists [], (i :: r). apply lt_stop; auto. }
    destruct (ms_limit s =? 0) eqn:L.
    { injection H as <-. apply Z.eqb_eq in L. exists [], (i :: r). apply lt_stop; auto. }
    apply Z.eqb_neq in L.
    apply bind_ok in H as (mbq & E & H). apply div_i64_ok in E as (Hp0 & -> & _).
    destruct (Z.quot (ms_quote s) (im_price i) =? 0) eqn:Q.
    { injection H as <-. apply Z.eqb_eq in Q. exists [], (i :: r). apply lt_stop; auto. }
    apply Z.eqb_neq in Q. cbv zeta in H.
    apply bind_ok in H as (mq & E & H). apply chk_i64_ok in E as [-> _].
    fold (to_fill s i (Z.quot (ms_quote s) (im_price i))) in H.
    set (q := to_fill s i (Z.quot (ms_quote s) (im_price i))) in *.
    destruct (negb match taker with Some _ => false | None => true end && (owner =? lf_owner (im_leaf i))) eqn:S.
    + apply andb_prop in S as [S1 S2].
      assert (S0 : own_trade taker owner i = true).
      { unfold own_trade. destruct taker; [exact S2|discriminate S1]. }
      destruct (o_self_trade o) eqn:ST.
      * apply bind_ok in H as (dec & E & H). apply chk_i64_ok in E as [-> _].
        apply bind_ok in H as (s1 & E & H).
        apply match_fill_inv in E as (w & np & E & -> & Hl & Hq); [|reflexivity].
        destruct (IH _ _ H) as (acts & lf & HT).
        exists (AFill i q :: acts), lf.
        eapply (lt_fill i r s q (ms_dec s + q * im_price i) (ms_rebates s) w np acts s' lf); auto.
        intros F. rewrite F in S0. discriminate S0.
      * apply bind_ok in H as (t & E & H). apply unwrap_ok in E.
        apply bind_ok in H as (a & E1 & H). apply bind_ok in H as (a' & E2 & H).
        destruct (IH _ _ H) as (acts & lf & HT).
        exists (AOwn i :: acts), lf. apply Z.eqb_eq in S2.
        eapply lt_own; eauto.
      * discriminate H.
    + assert (S0 : own_trade taker owner i = false).
      { unfold own_trade. destruct taker; [exact S|reflexivity]. }
      apply bind_ok in H as (qn & E & H). apply chk_i64_ok in E as [-> _].
      apply bind_ok in H as (x & E1 & H). apply bind_ok in H as (reb & E2 & H).
      apply chk_u64_ok in E2 as [-> _]. apply bind_ok in H as (s1 & E & H).
      apply match_fill_inv in E as (w & np & E & -> & Hl & Hq); [|reflexivity].
      destruct (IH _ _ H) as (acts & lf & HT).
      exists (AFill i q :: acts), lf.
      eapply (lt_fill i r s q (ms_dec s) (ms_rebates s + x) w np acts s' lf); auto.
      * intros F. rewrite F in S0. discriminate S0.
      * intros _. split; [reflexivity|]. exists x. split; [exact E1|reflexivity].
Qed.

End Trace.

(** ** What a trace does to the world *)
Definition tk_ok (taker : option Z) (owner : Z) : Prop := taker = Some owner \/ taker = None.

Lemma mem_key_in k l : mem_key k l = true -> In k l.
Proof.
  unfold mem_key. intros H. apply existsb_exists in H as (x & H & E). apply Z.eqb_eq in E as ->. exact H.
Qed.
Lemma acct_load_ok k l a : acct_load k l = Ok a -> acct_get k l = Some a.
Proof. unfold acct_load. destruct (acct_get k l); congruence. Qed.
Lemma acct_get_load k l a : acct_get k l = Some a -> acct_load k l = Ok a.
Proof. unfold acct_load. intros ->. reflexivity. Qed.
Lemma load_remaining_ok w tk k a : load_remaining w tk k = Ok a -> acct_get k (w_accts w) = Some a.
Proof. unfold load_remaining. destruct (is_taker tk k); [discriminate|apply acct_load_ok]. Qed.

Lemma process_out_effect w tk owner rem s now l w' : tk_ok tk owner ->
  process_out_event w tk owner rem (mkOut s (lf_slot l) now (h_seq (w_heap w)) (lf_owner l) (lf_qty l)) = Ok w' ->
  drop_effect tk rem now s l w w'.
Proof.
  intros Ht H. unfold process_out_event in H. cbn [oe_owner oe_slot oe_qty] in H.
  assert (Hpush : bind (push_back (w_heap w)
      (EOut (mkOut s (lf_slot l) now (h_seq (w_heap w)) (lf_owner l) (lf_qty l))))
      (fun h => Ok (w_set_heap w h)) = Ok w' -> drop_effect tk rem now s l w w').
  { intros G. apply bind_ok in G as (h & E & G). injection G as <-. apply de_queued. exact E. }
  assert (Hrem : mem_key (lf_owner l) rem = true ->
    bind (load_remaining w tk (lf_owner l)) (fun a =>
      bind (ooa_cancel_order a (lf_slot l) (lf_qty l) (w_mkt w)) (fun a' =>
        Ok (w_set_acct w (lf_owner l) a'))) = Ok w' -> drop_effect tk rem now s l w w').
  { intros M G. apply bind_ok in G as (a & E & G). apply bind_ok in G as (a' & E' & G). injection G as <-.
    eapply de_now; [right; apply mem_key_in; exact M|eapply load_remaining_ok; exact E|exact E']. }
  destruct tk as [t|].
  - destruct Ht as [Ht|Ht]; [injection Ht as ->|discriminate Ht].
    destruct (owner =? lf_owner l) eqn:O.
    + apply Z.eqb_eq in O. rewrite O in *. apply bind_ok in H as (a & E & H).
      apply bind_ok in H as (a' & E' & H). injection H as <-.
      apply acct_load_ok in E. eapply de_now; eauto. left. reflexivity.
    + destruct (mem_key (lf_owner l) rem) eqn:M; auto.
  - destruct (mem_key (lf_owner l) rem) eqn:M; auto.
Qed.

Lemma process_fill_effect w tk owner rem np o now i q w' np' :
  process_fill_event w tk rem np (fill_of o owner now (m_seq (w_mkt w)) i q) = Ok (w', np') ->
  effect o tk owner rem now w (AFill i q) w'.
Proof.
  intros H. unfold process_fill_event in H. cbn [fe_maker fill_of] in H.
  destruct ((np <? FILL_EVENT_REMAINING_LIMIT) && mem_key (lf_owner (im_leaf i)) rem) eqn:C.
  - apply andb_prop in C as [_ M]. apply bind_ok in H as (a & E & H).
    apply bind_ok in H as ([a' m'] & E' & H). injection H as <- <-.
    eapply ef_fill_now; [apply mem_key_in; exact M|eapply load_remaining_ok; exact E|exact E'].
  - apply bind_ok in H as (h & E & H). injection H as <- <-. apply ef_fill_queued. exact E.
Qed.

Lemma execute_maker_mkt a m f a' m' : execute_maker a m f = Ok (a', m') ->
  m_cfg m' = m_cfg m /\ m_seq m' = m_seq m /\ same_terms m m'.
Proof.
  unfold execute_maker. intros H. cbv zeta in H.
  repeat (apply bind_ok in H as (? & _ & H)).
  repeat match type of H with
  | context [let (_, _) := ?p in _] => destruct p
  | bind _ _ = Ok _ => apply bind_ok in H as (? & _ & H)
  end.
  injection H as <- <-. repeat split.
Qed.

Definition same_rest (w w' : world) : Prop :=
  w_bids w' = w_bids w /\ w_asks w' = w_asks w /\ m_cfg (w_mkt w') = m_cfg (w_mkt w) /\
  m_seq (w_mkt w') = m_seq (w_mkt w) /\ same_terms (w_mkt w) (w_mkt w').

Lemma same_terms_refl m : same_terms m m.
Proof. repeat split. Qed.
Lemma same_terms_trans m1 m2 m3 : same_terms m1 m2 -> same_terms m2 m3 -> same_terms m1 m3.
Proof. intros (A1 & A2 & A3 & A4 & A5) (B1 & B2 & B3 & B4 & B5). repeat split; congruence. Qed.
Lemma same_rest_refl w : same_rest w w.
Proof. repeat split. Qed.
Lemma same_rest_trans w1 w2 w3 : same_rest w1 w2 -> same_rest w2 w3 -> same_rest w1 w3.
Proof.
  intros (A1 & A2 & A3 & A4 & A5) (B1 & B2 & B3 & B4 & B5). do 4 (split; [congruence|]).
  exact (same_terms_trans _ _ _ A5 B5).
Qed.

Lemma drop_effect_rest tk rem now s l w w' : drop_effect tk rem now s l w w' ->
  same_rest w w' /\ w_mkt w' = w_mkt w.
Proof. intros [w1 a a' _ _ _|w1 h _]; repeat split. Qed.

Lemma effect_rest o tk owner rem now w a w' : effect o tk owner rem now w a w' -> same_rest w w'.
Proof.
  intros [w1 i q a1 a' m' _ _ E|w1 i q h _|w1 i w2 H|w1 i a1 a' _ _ _]; try (repeat split; fail).
  - apply execute_maker_mkt in E as (E1 & E2 & E3). split; [reflexivity|]. split; [reflexivity|]. auto.
  - apply (drop_effect_rest _ _ _ _ _ _ _ H).
Qed.

Lemma effects_rest o tk owner rem now w acts w' : effects o tk owner rem now w acts w' -> same_rest w w'.
Proof.
  induction 1 as [|w a w1 r w2 H _ IH]; [apply same_rest_refl|].
  eapply same_rest_trans; [eapply effect_rest; exact H|exact IH].
Qed.

Definition change_of (a : act) : list (Z * Z) :=
  match a with
  | AFill i q => if lf_qty (im_leaf i) - q =? 0 then [] else [(im_handle i, lf_qty (im_leaf i) - q)]
  | _ => []
  end.
Definition delete_of (a : act) : list (otree_id * Z) :=
  match a with
  | AFill i q => if lf_qty (im_leaf i) - q =? 0 then [(im_tree i, lf_key (im_leaf i))] else []
  | _ => [(im_tree (act_item a), lf_key (im_leaf (act_item a)))]
  end.
(** Quote lots of fills with the taker's own orders. *)
Definition self_quote (taker : option Z) (owner : Z) (a : act) : Z :=
  match a with AFill i q => if own_trade taker owner i then q * im_price i else 0 | _ => 0 end.
Definition rebate_of (m : market) (taker : option Z) (owner : Z) (a : act) : Z :=
  match a with
  | AFill i q => if own_trade taker owner i then 0
                 else match maker_rebate_floor m (as_u64 (q * im_price i * qls m)) with Ok x => x | Err _ => 0 end
  | _ => 0
  end.

Lemma rebate_of_cfg m m' tk owner a : m_cfg m' = m_cfg m -> rebate_of m' tk owner a = rebate_of m tk owner a.
Proof. intros E. unfold rebate_of, maker_rebate_floor, unsigned_maker_fees_floor, maker_fee, qls. rewrite E. reflexivity. Qed.

Lemma base_lots_cons a l : base_lots (a :: l) = act_base a + base_lots l.
Proof. reflexivity. Qed.
Lemma quote_lots_cons a l : quote_lots (a :: l) = act_quote a + quote_lots l.
Proof. reflexivity. Qed.

Section TraceFacts.
Variables (o : order) (price : Z) (taker : option Z) (owner : Z) (rem : list Z) (now : Z).
Hypothesis Htk : tk_ok taker owner.

Lemma lt_sub items s acts s' lf : ltrace o price taker owner rem now items s acts s' lf ->
  sublist (map act_item acts) items.
Proof.
  induction 1; cbn [map act_item]; try constructor; assumption.
Qed.

Lemma lt_effects items s acts s' lf : ltrace o price taker owner rem now items s acts s' lf ->
  effects o taker owner rem now (ms_w s) acts (ms_w s').
Proof.
  induction 1 as [s|i r s Hd|i r s Hb V W|i r s Hb V W St|i r s acts s' lf Hb V D HT IH
    |i r s w acts s' lf Hb V D P HT IH|i r s t a a' acts s' lf Hb V W PO L Q Tk Ow ST Ld Cn HT IH
    |i r s q dec reb w np acts s' lf Hb V W PO L P0 Q Eq Hq S1 S2 P HT IH].
  - constructor.
  - constructor.
  - constructor.
  - cbn [ms_stop ms_w]. constructor.
  - exact IH.
  - econstructor; [|exact IH]. cbn [after_drop ms_w]. constructor.
    eapply process_out_effect; [exact Htk|exact P].
  - econstructor; [|exact IH]. cbn [after_own ms_w].
    assert (E : t = lf_owner (im_leaf i)).
    { destruct Htk as [Htk'|Htk']; rewrite Htk' in Tk; [injection Tk as <-; exact Ow|discriminate Tk]. }
    rewrite E in *. apply acct_load_ok in Ld. eapply ef_own; eauto.
  - econstructor; [|exact IH]. cbn [after_fill ms_w]. eapply process_fill_effect. exact P.
Qed.

Lemma lt_target items s acts s' lf : ltrace o price taker owner rem now items s acts s' lf ->
  ms_target s' = ms_target s \/ ms_target s' = None.
Proof. induction 1; cbn in *; auto. Qed.

Lemma lt_amounts items s acts s' lf : ltrace o price taker owner rem now items s acts s' lf ->
  ms_base s' = ms_base s - base_lots acts /\ ms_quote s' = ms_quote s - quote_lots acts /\
  ms_dec s' = ms_dec s + sumZ (map (self_quote taker owner) acts) /\
  ms_rebates s' = ms_rebates s + sumZ (map (rebate_of (w_mkt (ms_w s)) taker owner) acts) /\
  ms_changes s' = ms_changes s ++ concat (map change_of acts) /\
  ms_deletes s' = ms_deletes s ++ concat (map delete_of acts) /\
  ms_dropped s' = ms_dropped s + Z.of_nat (length (filter is_drop acts)) /\
  ms_limit s' = ms_limit s - Z.of_nat (length (filter is_fill acts)).
Proof.
  induction 1 as [s|i r s Hd|i r s Hb V W|i r s Hb V W St|i r s acts s' lf Hb V D HT IH
    |i r s w acts s' lf Hb V D P HT IH|i r s t a a' acts s' lf Hb V W PO L Q Tk Ow ST Ld Cn HT IH
    |i r s q dec reb w np acts s' lf Hb V W PO L P0 Q Eq Hq S1 S2 P HT IH];
  try (cbn [ms_stop ms_base ms_quote ms_dec ms_rebates ms_changes ms_deletes ms_dropped ms_limit map concat filter length];
       change (base_lots []) with 0; change (quote_lots []) with 0; cbn [sumZ fold_right]; rewrite ?app_nil_r;
       repeat split; lia).
  - exact IH.
  - assert (C : m_cfg (w_mkt w) = m_cfg (w_mkt (ms_w s))).
    { apply process_out_effect in P; [|exact Htk]. apply drop_effect_rest in P as [(_ & _ & C & _) _]. exact C. }
    destruct IH as (I1 & I2 & I3 & I4 & I5 & I6 & I7 & I8).
    cbn [after_drop ms_w ms_base ms_quote ms_dec ms_rebates ms_changes ms_deletes ms_dropped ms_limit] in *.
    rewrite base_lots_cons, quote_lots_cons. cbn [map sumZ fold_right concat self_quote rebate_of change_of delete_of act_item act_base act_quote filter is_drop is_fill length].
    fold (sumZ (map (self_quote taker owner) acts)). fold (sumZ (map (rebate_of (w_mkt (ms_w s)) taker owner) acts)).
    rewrite (map_ext _ (rebate_of (w_mkt (ms_w s)) taker owner)) in I4 by (intros x; apply rebate_of_cfg; exact C).
    rewrite I5, I6, <- !app_assoc. repeat split; try lia.
  - destruct IH as (I1 & I2 & I3 & I4 & I5 & I6 & I7 & I8).
    cbn [after_own w_set_acct w_set_accts w_mkt ms_w ms_base ms_quote ms_dec ms_rebates ms_changes ms_deletes ms_dropped ms_limit] in *.
    rewrite base_lots_cons, quote_lots_cons. cbn [map sumZ fold_right concat self_quote rebate_of change_of delete_of act_item act_base act_quote filter is_drop is_fill length].
    fold (sumZ (map (self_quote taker owner) acts)). fold (sumZ (map (rebate_of (w_mkt (ms_w s)) taker owner) acts)).
    rewrite I5, I6, <- !app_assoc. repeat split; try lia.
  - assert (C : m_cfg (w_mkt w) = m_cfg (w_mkt (ms_w s))).
    { apply (process_fill_effect _ taker owner) in P. apply effect_rest in P as (_ & _ & C & _). exact C. }
    destruct IH as (I1 & I2 & I3 & I4 & I5 & I6 & I7 & I8).
    cbn [after_fill ms_w ms_base ms_quote ms_dec ms_rebates ms_changes ms_deletes ms_dropped ms_limit] in *.
    rewrite base_lots_cons, quote_lots_cons. cbn [map sumZ fold_right concat self_quote rebate_of change_of delete_of act_item act_base act_quote filter is_drop is_fill length].
    fold (sumZ (map (self_quote taker owner) acts)). fold (sumZ (map (rebate_of (w_mkt (ms_w s)) taker owner) acts)).
    rewrite (map_ext _ (rebate_of (w_mkt (ms_w s)) taker owner)) in I4 by (intros x; apply rebate_of_cfg; exact C).
    rewrite I5, I6.
    split; [lia|]. split; [lia|].
    split; [|split; [|split; [|split; [|lia]]]].
    + destruct (own_trade taker owner i).
      * destruct S1 as (_ & -> & _); [reflexivity|]. lia.
      * destruct S2 as (-> & _); [reflexivity|]. lia.
    + destruct (own_trade taker owner i).
      * destruct S1 as (_ & _ & ->); [reflexivity|]. lia.
      * destruct S2 as (_ & x & -> & ->); [reflexivity|]. lia.
    + destruct (lf_qty (im_leaf i) - q =? 0); rewrite <- ?app_assoc; reflexivity.
    + destruct (lf_qty (im_leaf i) - q =? 0); rewrite <- ?app_assoc; reflexivity.
Qed.

End TraceFacts.
