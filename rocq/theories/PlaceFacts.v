(** Posting the remainder of an order, and placing an order as a whole. *)
From Coq Require Import ZArith List Bool Lia Sorted Permutation.
From Verif Require Import Base Nodes OrderTree BookSide Heap Market OpenOrders Order Book
  BaseFacts NodesFacts TreeRep TreeFacts TreeOps TreeIter BookSideFacts BookSideOrder SpecBook
  BookSpecProofs SpecOrder SpecFees FeeFacts MatchFacts MatchBook OrderFacts.
Import ListNotations.
Open Scope Z_scope.

(** ** Worlds *)
Lemma w_book_set w s b : w_book (w_set_book w s b) s = b.
Proof. destruct s; reflexivity. Qed.
Lemma w_book_set_inv w s b : w_book (w_set_book w s b) (invert_side s) = w_book w (invert_side s).
Proof. destruct s; reflexivity. Qed.
Lemma w_book_set_inv' w s b : w_book (w_set_book w (invert_side s) b) s = w_book w s.
Proof. destruct s; reflexivity. Qed.
Lemma w_book_acct w s k a : w_book (w_set_acct w k a) s = w_book w s.
Proof. destruct s; reflexivity. Qed.
Lemma w_set_book_set w s b b' : w_set_book (w_set_book w s b) s b' = w_set_book w s b'.
Proof. destruct s; reflexivity. Qed.
Lemma w_set_book_acct w s b k a : w_set_acct (w_set_book w s b) k a = w_set_book (w_set_acct w k a) s b.
Proof. destruct s; reflexivity. Qed.
Lemma w_set_book_heap w s b h : w_set_heap (w_set_book w s b) h = w_set_book (w_set_heap w h) s b.
Proof. destruct s; reflexivity. Qed.
Lemma w_set_book_mkt w s b : w_mkt (w_set_book w s b) = w_mkt w.
Proof. destruct s; reflexivity. Qed.
Lemma w_set_book_accts w s b : w_accts (w_set_book w s b) = w_accts w.
Proof. destruct s; reflexivity. Qed.
Lemma w_set_book_hp w s b : w_heap (w_set_book w s b) = w_heap w.
Proof. destruct s; reflexivity. Qed.
Lemma w_set_book_id w s : w_set_book w s (w_book w s) = w.
Proof. destruct s, w; reflexivity. Qed.

Lemma drop_effect_book tk rem now s l w sd b w' :
  drop_effect tk rem now s l (w_set_book w sd b) w' ->
  exists w1, w' = w_set_book w1 sd b /\ drop_effect tk rem now s l w w1.
Proof.
  intros H. inversion H as [w0 a a' H1 H2 H3 E1 E2|w0 h H1 E1 E2]; subst.
  - rewrite w_set_book_accts in H2. rewrite w_set_book_mkt in H3. rewrite w_set_book_acct.
    eexists. split; [reflexivity|]. eapply de_now; eauto.
  - rewrite w_set_book_hp in H1. rewrite w_set_book_heap. eexists. split; [reflexivity|]. apply de_queued. exact H1.
Qed.

Lemma drops_rest tk rem now s w l w' : drops tk rem now s w l w' -> same_rest w w' /\ w_mkt w' = w_mkt w.
Proof.
  induction 1 as [w|w t l w1 r w2 H1 _ [IH1 IH2]]; [split; [apply same_rest_refl|reflexivity]|].
  apply drop_effect_rest in H1 as [A B]. split; [eapply same_rest_trans; eauto|congruence].
Qed.
Lemma drops_app tk rem now s w l1 w1 l2 w2 :
  drops tk rem now s w l1 w1 -> drops tk rem now s w1 l2 w2 -> drops tk rem now s w (l1 ++ l2) w2.
Proof. induction 1; [auto|]. intros H2. cbn [app]. econstructor; eauto. Qed.

Lemma same_rest_book w w' s : same_rest w w' -> w_book w' s = w_book w s.
Proof. intros (A & B & _). destruct s; cbn; auto. Qed.

(** ** The orders of a side, with their trees *)
Definition all_leaves (T : trees) : list (otree_id * leaf) :=
  map (pair Fixed) (oleaves (T Fixed)) ++ map (pair OraclePegged) (oleaves (T OraclePegged)).

Lemma in_all_leaves T t l : In (t, l) (all_leaves T) <-> In l (oleaves (T t)).
Proof.
  unfold all_leaves. rewrite in_app_iff, !in_map_iff. split.
  - intros [(x & E & H)|(x & E & H)]; injection E as <- <-; exact H.
  - intros H. destruct t; [left|right]; exists l; auto.
Qed.

Lemma all_leaves_ext T T' : (forall t, oleaves (T' t) = oleaves (T t)) -> all_leaves T' = all_leaves T.
Proof. intros H. unfold all_leaves. rewrite !H. reflexivity. Qed.

Lemma perm_cons_mid {A} (x : A) L1 L2 L3 : Permutation (L1 ++ (L2 ++ x :: L3)) (x :: (L1 ++ (L2 ++ L3))).
Proof. rewrite !app_assoc. symmetry. apply Permutation_middle. Qed.

Lemma taken_perm t x T T' : taken_out t x T T' -> Permutation (all_leaves T) ((t, x) :: all_leaves T').
Proof.
  intros (Hf & A & B & HA & HB). unfold all_leaves. destruct t; cbn [flip] in Hf; rewrite HA, HB, <- ?Hf, !map_app; cbn [map].
  - rewrite <- !app_assoc. cbn [app]. symmetry. apply Permutation_middle.
  - apply perm_cons_mid.
Qed.

Lemma inserted_perm t nl T o' : inserted nl None (oleaves (T t)) (oleaves o') ->
  Permutation (all_leaves (tupd T t o')) ((t, nl) :: all_leaves T).
Proof.
  intros (A & B & HA & HB). unfold all_leaves. destruct t; cbn [tupd otree_eqb]; rewrite HA, HB, !map_app; cbn [map].
  - rewrite <- !app_assoc. cbn [app]. symmetry. apply Permutation_middle.
  - apply perm_cons_mid.
Qed.

Lemma fits_sub s bs T b T' : fits s bs T -> bs_ok b T' -> bs_side b = bs_side bs -> book_reach s b ->
  (forall t l, In l (oleaves (T' t)) -> In l (oleaves (T t))) -> fits s b T'.
Proof.
  intros [Hok Hs Hr Hl Hq] Hok' Hs' Hr' Hsub.
  constructor; [exact Hok'|congruence|exact Hr'| |]; intros t l H; [apply Hl|eapply Hq]; apply Hsub; exact H.
Qed.

Lemma fits_insert s bs T b t nl o' : fits s bs T -> bs_ok b (tupd T t o') -> bs_side b = bs_side bs -> book_reach s b ->
  inserted nl None (oleaves (T t)) (oleaves o') -> leaf_ok t nl -> 0 < lf_qty nl -> fits s b (tupd T t o').
Proof.
  intros [Hok Hs Hr Hl Hq] Hok' Hs' Hr' Hi Hnl Hnq.
  assert (G : forall u l, In l (oleaves (tupd T t o' u)) -> leaf_ok u l /\ 0 < lf_qty l).
  { intros u l H. apply in_all_leaves in H. apply (Permutation_in _ (inserted_perm t nl T o' Hi)) in H.
    destruct H as [E|H]; [injection E as <- <-; auto|]. apply in_all_leaves in H. split; [apply Hl|eapply Hq]; exact H. }
  constructor; [exact Hok'|congruence|exact Hr'| |]; intros u l H; apply (G u l H).
Qed.

(** ** Posting *)
(** At most one order that had expired is dropped, and then, if the side is still full, its
    worst order, which is worse than the new one. *)
Definition makes_room (s : side) (oracle : option Z) (now price : Z) (T : trees) (gone : list (otree_id * leaf)) : Prop :=
  exists ge gw, gone = ge ++ gw /\ (length ge <= 1)%nat /\ Forall (fun x => leaf_expiry (snd x) < now) ge /\
    (gw = [] \/
     exists t l p, gw = [(t, l)] /\ worst_price s oracle t l = Some p /\ is_price_better s price p = true /\
       (512 + length ge <= length (all_leaves T))%nat /\
       forall u x q, In (u, x) (all_leaves T) -> ~ In (u, x) ge -> worst_price s oracle u x = Some q ->
         no_worse s q p /\
         (q = p -> 2 <= p < 9223372036854775807 -> no_worse s (low_of_key (lf_key x)) (low_of_key (lf_key l)))).

Definition locks (s : side) (w : world) (owner : Z) (mf : Z) (w1 : world) : Prop :=
  match s with
  | Bid => exists a, acct_get owner (w_accts w) = Some a /\
      p_locked_fees (a_pos a) + mf <= 18446744073709551615 /\
      w1 = w_set_acct w owner (a_set_pos a (p_set_locked_fees (a_pos a) (p_locked_fees (a_pos a) + mf)))
  | Ask => w1 = w
  end.

Definition posted_leaf (o : order) (owner now id slot qty : Z) : leaf :=
  mkLeaf slot (o_tif o) id owner qty now (order_peg_limit o) (o_client_id o).

Lemma post_order_inv w o taker owner rem oracle now id pl price qty target w' pb pq mf T :
  fits (o_side o) (w_book w (o_side o)) T -> tk_ok taker owner -> cfg_sound (m_cfg (w_mkt w)) ->
  order_ok target (posted_leaf o owner now id 0 qty) ->
  (forall t l, In l (oleaves (T t)) -> lf_key l <> id) -> 0 < qty -> 1 <= price ->
  post_order w o taker owner rem oracle now id pl price qty target = Ok (w', pb, pq, mf) ->
  let s := o_side o in let m := w_mkt w in
  taker = Some owner /\ pb = qty * bls m /\ pq = qty * price * qls m /\
  pb <= 9223372036854775807 /\ pq <= 9223372036854775807 /\
  mf = match s with Bid => maker_locks m pq | Ask => 0 end /\
  exists gone w1 wB a slot a' b3 T3,
    locks s w owner mf w1 /\ drops taker rem now s w1 gone wB /\
    acct_get owner (w_accts wB) = Some a /\ next_order_slot a = Ok slot /\
    add_order a s target (posted_leaf o owner now id slot qty) (o_client_id o) price = Ok a' /\
    w' = w_set_acct (w_set_book wB s b3) owner a' /\ fits s b3 T3 /\
    Permutation ((target, posted_leaf o owner now id slot qty) :: all_leaves T) (all_leaves T3 ++ gone) /\
    (length gone <= 2)%nat /\ makes_room s oracle now pl T gone /\ incl gone (all_leaves T).
Proof.
  intros Hfit Htk Hc Hkey Hfresh Hqty Hpr H s m. unfold post_order in H. fold s in H. cbv zeta in H. fold m in H.
  apply bind_ok in H as (cap & _ & H).
  apply bind_ok in H as (x & E & H). apply chk_i64_ok in E as [-> R1].
  apply bind_ok in H as (u1 & _ & H).
  apply bind_ok in H as (x1 & E & H). apply chk_i64_ok in E as [-> R2].
  apply bind_ok in H as (x2 & E & H). apply chk_i64_ok in E as [-> R3].
  apply bind_ok in H as (t & E & H). apply unwrap_ok in E.
  assert (Et : taker = Some owner) by (destruct Htk as [Ht|Ht]; [exact Ht|rewrite Ht in E; discriminate E]).
  rewrite Et in E. injection E as <-.
  apply bind_ok in H as ([w1 mf1] & E & H).
  pose proof (cs_qls _ Hc) as C1. change (c_qls (m_cfg (w_mkt w))) with (qls m) in C1.
  assert (G1 : mf1 = match s with Bid => maker_locks m (qty * price * qls m) | Ask => 0 end /\ locks s w owner mf1 w1).
  { destruct s.
    - apply bind_ok in E as (f & E1 & E). apply maker_fees_ceil_ok in E1; [|nia]. fold m in E1.
      apply bind_ok in E as (f' & E2 & E). apply chk_u64_ok in E2 as [-> _].
      apply bind_ok in E as (a & E3 & E). apply acct_load_ok in E3.
      apply bind_ok in E as (lk & E4 & E). apply chk_u64_ok in E4 as [-> R4]. injection E as <- <-.
      split; [exact E1|]. exists a. split; [exact E3|]. split; [lia|reflexivity].
    - injection E as <- <-. split; reflexivity. }
  clear E. destruct G1 as [G1 G2].
  assert (Hb1 : w_book w1 s = w_book w s).
  { unfold locks in G2. destruct s; [destruct G2 as (a & _ & _ & ->); reflexivity|subst; reflexivity]. }
  pose proof Hfit as [Hok Hs Hr Hl Hq]. fold s in Hok, Hs, Hr, Hfit.
  apply bind_ok in H as ([b1 expired] & E & H). rewrite Hb1 in E.
  destruct (bs_remove_one_expired_spec _ _ target now Hok) as (b1' & old & T1 & E1 & Hok1 & Hs1 & Hm1).
  rewrite E1 in E. injection E as -> ->.
  pose proof (br_expire s _ _ _ _ _ Hr E1) as Hr1. clear E1.
  (* the expired order *)
  apply bind_ok in H as (w3 & E & H).
  assert (G3 : exists wa ge, w3 = w_set_book wa s b1 /\ drops taker rem now s w1 ge wa /\
    Permutation (all_leaves T) (all_leaves T1 ++ ge) /\ (length ge <= 1)%nat /\ Forall (fun x => leaf_expiry (snd x) < now) ge).
  { destruct expired as [x|].
    - destruct Hm1 as (u & (Hx & Hxf & HAB) & _).
      apply process_out_effect in E; [|exact Htk]. apply drop_effect_book in E as (wa & -> & E).
      exists wa, [(u, x)]. split; [reflexivity|]. split; [econstructor; [exact E|constructor]|].
      split; [|split; [cbn; lia|constructor; [exact Hx|constructor]]].
      rewrite (taken_perm u x T T1) by (split; auto). apply Permutation_cons_append.
    - injection E as <-. destruct Hm1 as [Hm1 _]. exists w1, []. split; [reflexivity|]. split; [constructor|].
      rewrite app_nil_r, (all_leaves_ext _ _ Hm1). split; [reflexivity|]. split; [cbn; lia|constructor]. }
  clear E Hm1. destruct G3 as (wa & ge & -> & D1 & P1 & L1 & F1).
  assert (S1 : forall u l, In l (oleaves (T1 u)) -> In l (oleaves (T u))).
  { intros u l Hin. apply in_all_leaves. apply in_all_leaves in Hin.
    apply (Permutation_in _ (Permutation_sym P1)). apply in_or_app. left. exact Hin. }
  pose proof (fits_sub _ _ _ _ _ Hfit Hok1 Hs1 Hr1 S1) as Hfit1.
  (* the worst order *)
  rewrite w_book_set in H. apply bind_ok in H as (w4 & E & H).
  assert (G4 : exists wb gw b2 T2, w4 = w_set_book wb s b2 /\ drops taker rem now s wa gw wb /\ fits s b2 T2 /\
    Permutation (all_leaves T1) (all_leaves T2 ++ gw) /\ (length gw <= 1)%nat /\
    (gw = [] \/
     exists t l p, gw = [(t, l)] /\ worst_price s oracle t l = Some p /\ is_price_better s pl p = true /\
       (512 <= length (all_leaves T1))%nat /\
       forall u x q, In (u, x) (all_leaves T1) -> worst_price s oracle u x = Some q ->
         no_worse s q p /\
         (q = p -> 2 <= p < 9223372036854775807 -> no_worse s (low_of_key (lf_key x)) (low_of_key (lf_key l))))).
  { destruct (is_full (bs_nodes b1)) eqn:Fu.
    2:{ injection E as <-. exists wa, [], b1, T1. split; [reflexivity|]. split; [constructor|]. split; [exact Hfit1|].
        rewrite app_nil_r. split; [reflexivity|]. split; [cbn; lia|left; reflexivity]. }
    destruct (bs_remove_worst_spec _ _ now oracle Hok1 (ft_leaves _ _ _ Hfit1)) as (b2 & ow & T2 & E1 & Hok2 & Hs2 & Hm2).
    rewrite E1 in E. cbn [bind] in E. pose proof (br_worst s _ _ _ _ _ Hr1 E1) as Hr2. clear E1.
    apply bind_ok in E as ([x p] & E1 & E). apply unwrap_ok in E1. subst ow.
    apply bind_ok in E as (u2 & E1 & E). apply require_ok in E1.
    destruct Hm2 as (u & Ht & Hwp & _ & Hall).
    pose proof (worst_over_all _ _ _ _ _ Hok1 (ft_leaves _ _ _ Hfit1) Hall) as Hwst. rewrite (ft_side _ _ _ Hfit1) in Hwp, Hwst.
    pose proof (full_count _ _ Hok1 Fu) as Hcnt.
    rewrite w_set_book_set in E. apply process_out_effect in E; [|exact Htk].
    apply drop_effect_book in E as (wb & -> & E).
    exists wb, [(u, x)], b2, T2. split; [reflexivity|]. split; [econstructor; [exact E|constructor]|].
    split; [eapply fits_sub; [exact Hfit1|exact Hok2|exact Hs2|exact Hr2|eapply taken_out_sub; exact Ht]|].
    split; [rewrite (taken_perm u x T1 T2 Ht); apply Permutation_cons_append|].
    split; [cbn; lia|]. right. exists u, x, p. split; [reflexivity|]. split; [exact Hwp|]. split; [exact E1|].
    split; [unfold all_leaves; rewrite app_length, !map_length; exact Hcnt|].
    intros u' x' q Hin. apply in_all_leaves in Hin. exact (Hwst u' x' q Hin). }
  clear E. destruct G4 as (wb & gw & b2 & T2 & -> & D2 & Hfit2 & P2 & L2 & F2).
  rewrite w_set_book_accts, w_book_set in H.
  apply bind_ok in H as (a & E & H). apply acct_load_ok in E. rename E into Ea.
  apply bind_ok in H as (slot & E & H). rename E into Es.
  fold (posted_leaf o owner now id slot qty) in H. set (nl := posted_leaf o owner now id slot qty) in *.
  apply bind_ok in H as ([[b3 hh] old3] & E & H).
  assert (Hnl : order_ok target nl) by exact Hkey.
  pose proof (order_ok_leaf_ok _ _ Hnl) as Hnl'.
  pose proof (br_insert s _ _ _ _ _ _ (ft_reach _ _ _ Hfit2) Hnl E) as Hr3.
  assert (P12 : Permutation (all_leaves T) (all_leaves T2 ++ gw ++ ge)).
  { rewrite P1, P2, <- !app_assoc. reflexivity. }
  apply bs_insert_spec with (T := T2) in E; [|exact (ft_ok _ _ _ Hfit2)|exact (proj1 Hnl')].
  destruct E as (o' & Hok3 & Hs3 & _ & Hins).
  assert (Eold : old3 = None).
  { destruct old3 as [y|]; [|reflexivity]. exfalso. destruct Hins as (Hk & A & B & HA & _).
    apply (Hfresh target y); [|exact Hk]. apply in_all_leaves. apply (Permutation_in _ (Permutation_sym P12)).
    apply in_or_app. left. apply in_all_leaves. rewrite HA. apply in_or_app. right. left. reflexivity. }
  subst old3.
  apply bind_ok in H as (a' & E & H). injection H as <- <- <- <-.
  split; [exact Et|]. split; [reflexivity|]. split; [reflexivity|]. split; [lia|]. split; [lia|]. split; [exact G1|].
  exists (ge ++ gw), w1, wb, a, slot, a', b3, (tupd T2 target o').
  split; [exact G2|]. split; [eapply drops_app; eassumption|]. split; [exact Ea|]. split; [exact Es|]. split; [exact E|].
  split; [rewrite w_set_book_set; reflexivity|].
  split; [eapply fits_insert; [exact Hfit2|exact Hok3|exact Hs3|exact Hr3|exact Hins|exact Hnl'|exact Hqty]|].
  split; [|split; [rewrite app_length; lia|split; [|]]].
  2:{ exists ge, gw. split; [reflexivity|]. split; [exact L1|]. split; [exact F1|].
      destruct F2 as [F2|(t & l & p & F2 & F3 & F4 & F5 & F6)]; [left; exact F2|right].
      exists t, l, p. split; [exact F2|]. split; [exact F3|]. split; [exact F4|].
      split; [rewrite (Permutation_length P1), app_length; lia|].
      intros u x q Hin Hng Hq'. apply (F6 u x q); [|exact Hq']. apply (Permutation_in _ P1) in Hin.
      apply in_app_or in Hin as [Hin|Hin]; [exact Hin|contradiction]. }
  2:{ intros y Hy. apply (Permutation_in _ (Permutation_sym P12)). apply in_or_app. right.
      apply in_or_app. apply in_app_or in Hy. tauto. }
  rewrite (inserted_perm _ _ _ _ Hins). cbn [app]. apply perm_skip.
  rewrite P12. apply Permutation_app_head. apply Permutation_app_comm.
Qed.

(** ** Placing *)
Definition start_ms (w : world) (o : order) (maxq limit : Z) : mstate :=
  mkMs (w_set_mkt w (m_set_seq (w_mkt w) (m_seq (w_mkt w) + 1))) (o_max_base o) maxq 0 0 [] [] 0 0 limit (post_target o).

Definition own_peg (o : order) : bool := negb (order_peg_limit o =? -1).
Definition lock_price (o : order) (price : Z) : Z :=
  if own_peg o && side_eqb (o_side o) Bid then order_peg_limit o else price.

(** What is settled: everything before the posting. *)
Record placed (w : world) (o : order) (oracle taker : option Z) (owner now limit : Z) (rem : list Z)
  (T : trees) (price pd maxq : Z) (acts : list act) (ms : mstate) (lf : list item)
  (w2 : world) (bt qt tf ra rq mf : Z) (b2 : bookside) (T2 : trees) : Prop := {
  pc_price : order_price o (w_book w (invert_side (o_side o))) now oracle = Ok (price, pd);
  pc_seq : 0 <= m_seq (w_mkt w) + 1 <= 18446744073709551615;
  pc_maxq : (match o_side o with
             | Bid => if is_post_only o then Ok (o_max_quote o) else subtract_taker_fees (w_mkt w) (o_max_quote o)
             | Ask => Ok (o_max_quote o)
             end) = Ok maxq;
  pc_caps : o_max_base o * bls (w_mkt w) <= 9223372036854775807 /\ maxq * qls (w_mkt w) <= 9223372036854775807;
  pc_items : iter_all (w_book w (invert_side (o_side o))) now oracle =
               Ok (merged (w_book w (invert_side (o_side o))) T now oracle);
  pc_trace : ltrace o price taker owner rem now (merged (w_book w (invert_side (o_side o))) T now oracle)
               (start_ms w o maxq limit) acts ms lf;
  pc_settle : settle_taker o taker maxq ms = Ok (w2, bt, qt, tf, ra, rq);
  pc_other : fits (invert_side (o_side o)) b2 T2;
  pc_left : forall t, oleaves (T2 t) = residues acts t (oleaves (T t));
  pc_mf : maker_fees_ceil chk_i64 (w_mkt w2) rq = Ok mf;
  pc_lp : lock_price o price <> 0;
  pc_fok : is_fill_or_kill o = true -> ms_base ms <= 0 }.

Definition post_qty (o : order) (price : Z) (ms : mstate) (rq mf : Z) : Z :=
  Z.min (ms_base ms) (Z.quot (rq - mf) (lock_price o price)).

(** What is posted, if anything. *)
Inductive finished (w : world) (o : order) (oracle taker : option Z) (owner now : Z) (rem : list Z)
  (price pd : Z) (ms : mstate) (w2 : world) (bt qt tf ra rq mf : Z) (b2 : bookside) : world -> order_amounts -> Prop :=
| fin_none :
    post_qty o price ms rq mf <= 0 \/ ms_target ms = None \/
    (own_peg o = true /\ is_price_better (o_side o) price (order_peg_limit o) = true) ->
    finished w o oracle taker owner now rem price pd ms w2 bt qt tf ra rq mf b2
      (w_set_book w2 (invert_side (o_side o)) b2) (mkAmounts None 0 0 bt qt tf 0 ra)
| fin_post t w4 pb pq mfees :
    0 < post_qty o price ms rq mf -> ms_target ms = Some t ->
    (own_peg o = true -> is_price_better (o_side o) price (order_peg_limit o) = false) ->
    post_order (w_set_book w2 (invert_side (o_side o)) b2) o taker owner rem oracle now
      (new_node_key (o_side o) pd (m_seq (w_mkt w) + 1)) price (lock_price o price) (post_qty o price ms rq mf) t
      = Ok (w4, pb, pq, mfees) ->
    finished w o oracle taker owner now rem price pd ms w2 bt qt tf ra rq mf b2 w4
      (mkAmounts (Some (new_node_key (o_side o) pd (m_seq (w_mkt w) + 1))) (as_u64 pb) (as_u64 pq) bt qt tf mfees ra).

Lemma settle_taker_rest o taker maxq s w' bt qt tf ra rq :
  settle_taker o taker maxq s = Ok (w', bt, qt, tf, ra, rq) ->
  same_rest (ms_w s) w' /\ w_heap w' = w_heap (ms_w s).
Proof.
  intros H. unfold settle_taker in H. cbv zeta in H.
  do 6 (apply bind_ok in H as (? & _ & H)). apply bind_ok in H as ([[w1 f1] r1] & E & H).
  do 5 (apply bind_ok in H as (? & _ & H)). injection H as <- _ _ _ _ _.
  match type of E with (if ?c then _ else _) = _ => destruct c end.
  2:{ injection E as <- _ _. split; [apply same_rest_refl|reflexivity]. }
  do 2 (apply bind_ok in E as (? & _ & E)). apply bind_ok in E as ([[w2 f2] r2] & E1 & E).
  assert (G : same_rest (ms_w s) w2 /\ w_heap w2 = w_heap (ms_w s)).
  { match type of E1 with (if ?c then _ else _) = _ => destruct c end.
    - do 3 (apply bind_ok in E1 as (? & _ & E1)). injection E1 as <- _ _. repeat split.
    - injection E1 as <- _ _. split; [apply same_rest_refl|reflexivity]. }
  apply bind_ok in E as (w3 & E2 & E). apply bind_ok in E as (? & _ & E). injection E as <- _ _.
  destruct G as [G1 G2]. destruct taker as [t|].
  - apply bind_ok in E2 as (a & _ & E2). apply bind_ok in E2 as ([a' m'] & E3 & E2). injection E2 as <-.
    unfold execute_taker in E3. cbv zeta in E3. do 4 (apply bind_ok in E3 as (? & _ & E3)). injection E3 as _ <-.
    split; [|exact G2]. eapply same_rest_trans; [exact G1|]. repeat split.
  - apply bind_ok in E2 as (tv & _ & E2). injection E2 as <-. split; [|exact G2].
    eapply same_rest_trans; [exact G1|]. repeat split.
Qed.

Lemma new_order_book w o oracle taker owner now limit rem w' r T :
  fits (invert_side (o_side o)) (w_book w (invert_side (o_side o))) T -> tk_ok taker owner ->
  cfg_sound (m_cfg (w_mkt w)) -> 0 <= o_max_base o -> 0 <= o_max_quote o ->
  new_order w o oracle taker owner now limit rem = Ok (w', r) ->
  exists price pd maxq acts ms lf w2 bt qt tf ra rq mf b2 T2,
    placed w o oracle taker owner now limit rem T price pd maxq acts ms lf w2 bt qt tf ra rq mf b2 T2 /\
    finished w o oracle taker owner now rem price pd ms w2 bt qt tf ra rq mf b2 w' r /\
    exists b1, apply_changes (w_book w (invert_side (o_side o))) (concat (map change_of acts)) = Ok b1 /\
      apply_deletes b1 (concat (map delete_of acts)) = Ok b2.
Proof.
  intros Hfit Htk Hc Hmb Hmq H. unfold new_order in H. cbv zeta in H.
  apply bind_ok in H as ([price pd] & Hp & H).
  apply bind_ok in H as ([m1 id] & E & H). unfold gen_order_id in E. apply bind_ok in E as (sq & E1 & E).
  apply chk_u64_ok in E1 as [-> Hseq]. injection E as <- <-.
  apply bind_ok in H as (maxq & Hmax & H).
  apply bind_ok in H as (capb & E1 & H). apply bind_ok in H as (u1 & E2 & H). apply require_ok in E2. apply Z.leb_le in E2.
  apply bind_ok in H as (capq & E3 & H). apply bind_ok in H as (u2 & E4 & H). apply require_ok in E4. apply Z.leb_le in E4.
  apply bind_ok in H as (items & Hit & H).
  assert (Eit : iter_all (w_book w (invert_side (o_side o))) now oracle =
    Ok (merged (w_book w (invert_side (o_side o))) T now oracle)).
  { apply iter_all_spec; [exact (ft_ok _ _ _ Hfit)|exact (ft_leaves _ _ _ Hfit)]. }
  assert (Hit' : iter_all (w_book w (invert_side (o_side o))) now oracle = Ok items).
  { rewrite <- Hit. destruct (o_side o); reflexivity. }
  rewrite Eit in Hit'. injection Hit' as <-. clear Hit.
  apply bind_ok in H as (ms & E & H).
  fold (start_ms w o maxq limit) in E. apply match_loop_trace in E as (acts & lf & Htr).
  apply bind_ok in H as ([[[[[w2 bt] qt] tf] ra] rq] & Hst & H).
  apply bind_ok in H as (b1 & Eb1 & H). apply bind_ok in H as (b2 & Eb2 & H).
  apply bind_ok in H as (mf & Emf & H). apply bind_ok in H as (rq' & E & H). apply chk_i64_ok in E as [-> _].
  apply bind_ok in H as (q & E & H). fold (own_peg o) in E, H. fold (lock_price o price) in E, H.
  apply div_i64_ok in E as (Hlp & -> & _).
  apply bind_ok in H as (u3 & E & H). apply require_ok in E. rename E into Hfok.
  (* the opposing book *)
  pose proof (settle_taker_rest _ _ _ _ _ _ _ _ _ _ Hst) as [Sr2 _].
  pose proof (lt_effects _ _ _ _ _ _ Htk _ _ _ _ _ Htr) as Hef.
  pose proof (effects_rest _ _ _ _ _ _ _ _ Hef) as Sr1.
  assert (Hbk : w_book w2 (invert_side (o_side o)) = w_book w (invert_side (o_side o))).
  { rewrite (same_rest_book _ _ _ Sr2), (same_rest_book _ _ _ Sr1). unfold start_ms. cbn [ms_w]. destruct (o_side o); reflexivity. }
  pose proof (lt_sub _ _ _ _ _ _ _ _ _ _ _ Htr) as Hsub.
  pose proof (merged_on_book _ _ _ _ _ (ft_ok _ _ _ Hfit) Hsub) as Hon.
  pose proof (acts_akey_nodup _ _ _ _ _ (ft_ok _ _ _ Hfit) Hsub) as Hnd.
  destruct (book_apply _ _ acts (ft_ok _ _ _ Hfit) Hon Hnd) as (c1 & c2 & T2 & A1 & A2 & Hok2 & Hs2 & Hlv & Hre).
  pose proof (lt_amounts _ _ _ _ _ _ Htk _ _ _ _ _ Htr) as (_ & _ & _ & _ & Ech & Ede & _).
  cbn [start_ms ms_changes ms_deletes app] in Ech, Ede.
  rewrite Hbk, Ech in Eb1. rewrite A1 in Eb1. injection Eb1 as <-. rewrite Ede, A2 in Eb2. injection Eb2 as <-.
  assert (Hmaxq : 0 <= maxq).
  { destruct (o_side o); [|injection Hmax as <-; exact Hmq]. destruct (is_post_only o); [injection Hmax as <-; exact Hmq|].
    destruct Hc as [_ _ _ C4 _]. apply subtract_taker_fees_ok in Hmax; [|exact (proj1 C4)|exact Hmq]. subst maxq.
    change (taker_fee (m_set_seq (w_mkt w) (m_seq (w_mkt w) + 1))) with (taker_fee (w_mkt w)).
    exact (proj1 (proj1 (budget_fee (w_mkt w) (o_max_quote o) (proj1 C4) Hmq))). }
  pose proof (lt_acts _ _ _ _ _ _ _ _ _ _ _ Htr (merged_items_ok _ _ _ _ _ Hfit) Hmb Hmaxq) as (Haf & _ & _).
  assert (Hfit2 : fits (invert_side (o_side o)) c2 T2).
  { eapply fits_residues; [exact Hfit|exact Hok2|exact Hs2|apply Hre; exact (ft_reach _ _ _ Hfit)|exact Hlv|exact Hon|].
    intros i z Hi. rewrite Forall_forall in Haf. specialize (Haf _ Hi). cbn [act_fact] in Haf. lia. }
  exists price, pd, maxq, acts, ms, lf, w2, bt, qt, tf, ra, rq, mf, c2, T2. split; [|split; [|exists c1; split; [exact A1|exact A2]]].
  - constructor; try assumption.
    + clear - E1 E2 E3 E4 Hc. unfold max_base_lots in E1. unfold max_quote_lots in E3.
      apply div_i64_ok in E1 as (_ & -> & _). apply div_i64_ok in E3 as (_ & -> & _). unfold i64_max in *.
      change (bls (m_set_seq (w_mkt w) (m_seq (w_mkt w) + 1))) with (bls (w_mkt w)) in *.
      change (qls (m_set_seq (w_mkt w) (m_seq (w_mkt w) + 1))) with (qls (w_mkt w)) in *.
      destruct Hc as [C1 C2 _ _ _]. change (c_qls (m_cfg (w_mkt w))) with (qls (w_mkt w)) in C1.
      change (c_bls (m_cfg (w_mkt w))) with (bls (w_mkt w)) in C2. rewrite quot_nonneg in * by lia.
      pose proof (Z.mul_div_le 9223372036854775807 (bls (w_mkt w)) ltac:(lia)).
      pose proof (Z.mul_div_le 9223372036854775807 (qls (w_mkt w)) ltac:(lia)). nia.
    + rewrite w_set_book_mkt in Emf. exact Emf.
    + intros F. rewrite F in Hfok. cbn [andb] in Hfok. destruct (Z.ltb_spec 0 (ms_base ms)); [discriminate Hfok|assumption].
  - fold (post_qty o price ms rq mf) in H.
    destruct (own_peg o && is_price_better (o_side o) price (order_peg_limit o)) eqn:Pg.
    { injection H as <- <-. apply andb_prop in Pg as [P1 P2]. apply fin_none. right. right. split; assumption. }
    destruct (Z.leb_spec (post_qty o price ms rq mf) 0) as [Lq|Lq].
    { injection H as <- <-. apply fin_none. left. exact Lq. }
    destruct (ms_target ms) as [t|] eqn:Et.
    2:{ injection H as <- <-. apply fin_none. right. left. exact Et. }
    apply bind_ok in H as ([[[w4 pb] pq] mfees] & E & H). injection H as <- <-.
    eapply fin_post; [exact Lq|exact Et| |exact E].
    intros P. rewrite P in Pg. exact Pg.
Qed.
Lemma new_order_inv w o oracle taker owner now limit rem w' r T :
  fits (invert_side (o_side o)) (w_book w (invert_side (o_side o))) T -> tk_ok taker owner ->
  cfg_sound (m_cfg (w_mkt w)) -> 0 <= o_max_base o -> 0 <= o_max_quote o ->
  new_order w o oracle taker owner now limit rem = Ok (w', r) ->
  exists price pd maxq acts ms lf w2 bt qt tf ra rq mf b2 T2,
    placed w o oracle taker owner now limit rem T price pd maxq acts ms lf w2 bt qt tf ra rq mf b2 T2 /\
    finished w o oracle taker owner now rem price pd ms w2 bt qt tf ra rq mf b2 w' r.
Proof.
  intros H1 H2 H3 H4 H5 H.
  destruct (new_order_book _ _ _ _ _ _ _ _ _ _ _ H1 H2 H3 H4 H5 H) as (a1 & a2 & a3 & a4 & a5 & a6 & a7 & a8 & a9 & a10 & a11 & a12 & a13 & a14 & a15 & A & B & _).
  exists a1, a2, a3, a4, a5, a6, a7, a8, a9, a10, a11, a12, a13, a14, a15. split; [exact A|exact B].
Qed.
