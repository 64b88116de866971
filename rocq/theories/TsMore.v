(** Facts about what the TypeScript client shows of an account and what it sends. *)
From Coq Require Import ZArith List Bool Lia ZifyBool Permutation Sorted.
From Verif Require Import Base Nodes OrderTree BookSide Heap Market OpenOrders Order Book Instructions
  BaseFacts NodesFacts HeapFacts SpecBook SpecFees SpecOrder
  OrderFacts Steps StepFacts SpecLedger SpecEvents Ledger LedgerOrder LedgerInv SpecSystem SystemFacts ConsumeFacts SpecControl SpecExit SpecTs Ts TsFacts.
Import ListNotations.
Open Scope Z_scope.

(** ** The waiting events *)
Lemma raw_loop n h : forall i l, heap_iter_loop n h i = Ok l -> ts_raw_loop n h i = Ok (map fst l).
Proof.
  induction n as [|n IH]; intros i l H; cbn [heap_iter_loop ts_raw_loop] in *; [injection H as <-; reflexivity|].
  apply bind_ok in H as (u & E & H). apply bind_ok in H as (rest & Er & H). injection H as <-.
  unfold heap_idx in E. rewrite E. cbn [bind]. rewrite (IH _ _ Er). reflexivity.
Qed.
Theorem raw_events s : reachable s -> ts_raw_events (w_heap (s_w s)) = Ok (waiting (s_w s)).
Proof.
  intros Hr. destruct (bk_read _ (reachable_backed s Hr)) as [_ (l & E)]. unfold waiting, queue_of, ts_raw_events. rewrite E.
  exact (raw_loop _ _ _ _ E).
Qed.

(** ** Balances *)
Lemma sum_lin {A} (c : Z) (a b d : A -> Z) l : (forall x, In x l -> a x * c = b x - d x) ->
  sumZ (map a l) * c = sumZ (map b l) - sumZ (map d l).
Proof.
  induction l as [|x l IH]; intros H; [reflexivity|]. cbn [map]. rewrite !sumZ_cons. rewrite Z.mul_add_distr_r, (H x (or_introl eq_refl)).
  rewrite IH by (intros y Hy; apply H; right; exact Hy). lia.
Qed.
Lemma own_sum k w g : sumZ (map g (own_fills k w)) =
  sumZ (map (fun e => match e with EFill f => if fe_maker f =? k then g f else 0 | EOut _ => 0 end) (waiting w)).
Proof.
  unfold own_fills. induction (waiting w) as [|e l IH]; [reflexivity|]. cbn [flat_map map]. rewrite map_app, sumZ_app, IH, sumZ_cons.
  destruct e as [f|o]; [|reflexivity]. destruct (fe_maker f =? k); cbn [map]; rewrite ?sumZ_cons; cbn [sumZ fold_right]; lia.
Qed.

Lemma sum_zeros {A} (l : list A) : sumZ (map (fun _ => 0) l) = 0.
Proof. induction l as [|x l IH]; [reflexivity|]. cbn [map]. rewrite sumZ_cons, IH. reflexivity. Qed.
Lemma sum_lin3 {A} (c : Z) (a b d g : A -> Z) l : (forall x, In x l -> a x * c = b x - d x - g x) ->
  sumZ (map a l) * c = sumZ (map b l) - sumZ (map d l) - sumZ (map g l).
Proof.
  induction l as [|x l IH]; intros H; [reflexivity|]. cbn [map]. rewrite !sumZ_cons. rewrite Z.mul_add_distr_r, (H x (or_introl eq_refl)).
  rewrite IH by (intros y Hy; apply H; right; exact Hy). lia.
Qed.
Lemma asks_shown k w : lots k Ask w * bls (w_mkt w) = open_base k w - base_arriving k w.
Proof.
  unfold lots, open_base, base_arriving, things_sum. rewrite own_sum. rewrite !Z.mul_add_distr_r.
  rewrite (sum_lin (bls (w_mkt w)) _ (fun x => if (lf_owner (snd x) =? k) && side_eqb Bid Ask then lf_qty (snd x) * bls (w_mkt w) else 0) (fun _ => 0) (orders w Bid)).
  2:{ intros x _. destruct ((lf_owner (snd x) =? k) && side_eqb Bid Ask); lia. }
  rewrite (sum_lin (bls (w_mkt w)) _ (fun x => if (lf_owner (snd x) =? k) && side_eqb Ask Ask then lf_qty (snd x) * bls (w_mkt w) else 0) (fun _ => 0) (orders w Ask)).
  2:{ intros x _. destruct ((lf_owner (snd x) =? k) && side_eqb Ask Ask); lia. }
  rewrite (sum_lin (bls (w_mkt w)) _ (fun e => if ev_owner e =? k then event_base (w_mkt w) e else 0)
    (fun e => match e with EFill f => if fe_maker f =? k then base_on_way (w_mkt w) f else 0 | EOut _ => 0 end) (waiting w)).
  2:{ intros e _. destruct e as [f|o]; cbn [ev_owner ev_side event_base ev_qty].
      - unfold base_on_way. destruct (fe_maker f =? k); [|reflexivity]. destruct (fill_side f); cbn [side_eqb andb]; lia.
      - destruct (oe_owner o =? k); [|reflexivity]. destruct (oe_side o); cbn [side_eqb andb]; lia. }
  rewrite !sum_zeros. lia.
Qed.

Lemma bids_shown k w : bid_quote k w * qls (w_mkt w) = open_quote k w - fees_to_come k w - quote_arriving k w.
Proof.
  unfold bid_quote, open_quote, fees_to_come, quote_arriving, things_sum. cbv zeta. rewrite own_sum, !Z.mul_add_distr_r.
  set (m := w_mkt w).
  set (f1 := fun (sd : side) x => if (lf_owner (snd x) =? k) && side_eqb sd Bid then with_fees m (lf_qty (snd x) * order_lock (fst x) (snd x) * qls m) else 0).
  set (f2 := fun (sd : side) x => if (lf_owner (snd x) =? k) && side_eqb sd Bid then maker_locks m (lf_qty (snd x) * order_lock (fst x) (snd x) * qls m) else 0).
  rewrite (sum_lin3 (qls m) _ (f1 Bid) (f2 Bid) (fun _ => 0) (orders w Bid)).
  2:{ intros x _. unfold f1, f2, with_fees. destruct ((lf_owner (snd x) =? k) && side_eqb Bid Bid); lia. }
  rewrite (sum_lin3 (qls m) _ (f1 Ask) (f2 Ask) (fun _ => 0) (orders w Ask)).
  2:{ intros x _. unfold f1, f2, with_fees. destruct ((lf_owner (snd x) =? k) && side_eqb Ask Bid); lia. }
  rewrite (sum_lin3 (qls m) _ (fun e => if ev_owner e =? k then event_quote w e else 0)
    (fun e => if (ev_owner e =? k) && side_eqb (ev_side e) Bid then
       match e with
       | EFill f => if fill_pegged f then maker_pays m (fill_locked m f) else fill_fee m f
       | EOut o => maker_locks m (oe_qty o * event_lock w e * qls m)
       end else 0)
    (fun e => match e with EFill f => if fe_maker f =? k then quote_on_way m f - fill_fee m f else 0 | EOut _ => 0 end) (waiting w)).
  2:{ intros e _. destruct e as [f|o]; unfold event_quote; cbn [ev_owner ev_side ev_qty event_lock].
      - fold m. unfold quote_on_way. destruct (fe_maker f =? k); [|reflexivity].
        destruct (fill_side f) eqn:Es; cbn [side_eqb andb].
        + unfold fill_locked. destruct (fill_pegged f); lia.
        + lia.
      - fold m. destruct (oe_owner o =? k); [|reflexivity]. destruct (oe_side o); cbn [side_eqb andb]; unfold with_fees; lia. }
  rewrite !sum_zeros. unfold f1, f2. clear. lia.
Qed.

Lemma balance_start m h a es : ts_raw_events h = Ok es -> (forall f, In (EFill f) es -> fe_maker f <> a_owner a) ->
  ts_balance m h a = Ok (p_asks_base (a_pos a) * bls m + p_base_free (a_pos a),
    p_bids_quote (a_pos a) * qls m + p_quote_free (a_pos a) + p_locked_fees (a_pos a)).
Proof.
  intros E Hn. unfold ts_balance. cbv zeta. rewrite E. cbn [bind]. f_equal. generalize (p_asks_base (a_pos a) * bls m + p_base_free (a_pos a),
    p_bids_quote (a_pos a) * qls m + p_quote_free (a_pos a) + p_locked_fees (a_pos a)) as b. clear E.
  induction es as [|e es IH]; intros b; [reflexivity|]. cbn [fold_left].
  assert (Ee : ts_event_balance m a e b = b).
  { destruct e as [f|o]; [|reflexivity]. cbn [ts_event_balance]. pose proof (Hn f (or_introl eq_refl)).
    replace (fe_maker f =? a_owner a) with false by lia. reflexivity. }
  rewrite Ee. apply IH. intros f Hf. apply Hn. right. exact Hf.
Qed.

Theorem shown_balance s k a : reachable s -> acct_get k (w_accts (s_w s)) = Some a ->
  acct_get (a_owner a) (w_accts (s_w s)) = None ->
  exists base quote, ts_balance (w_mkt (s_w s)) (w_heap (s_w s)) a = Ok (base, quote) /\
    base = base_due k a (s_w s) - base_arriving k (s_w s) /\
    quote = quote_due k a (s_w s) - quote_arriving k (s_w s) + (p_locked_fees (a_pos a) - fees_to_come k (s_w s)) /\
    fees_to_come k (s_w s) <= p_locked_fees (a_pos a).
Proof.
  intros Hr Ha Ho. pose proof (reachable_backed s Hr) as Hb.
  assert (Hn : forall f, In (EFill f) (waiting (s_w s)) -> fe_maker f <> a_owner a).
  { intros f Hf E. destruct (bk_event _ Hb _ Hf) as (x & Hx). cbn [ev_owner] in Hx. congruence. }
  do 2 eexists. split; [exact (balance_start _ _ _ _ (raw_events s Hr) Hn)|].
  rewrite (bk_asks _ Hb k a Ha), (bk_quote _ Hb k a Ha). pose proof (bk_fees _ Hb k a Ha) as Hf.
  pose proof (asks_shown k (s_w s)) as E1. pose proof (bids_shown k (s_w s)) as E2. unfold base_due, quote_due. lia.
Qed.

(** ** Own orders *)
Lemma book_sides w sd : match sd with Bid => w_book w Bid | Ask => w_book w Ask end = w_book w sd.
Proof. destruct sd; reflexivity. Qed.

Section Own.
Context (s : sys) (Hr : reachable s) (clock : Z).
Let w := s_w s.
Let find_id (sd : side) (id : Z) := find (fun l => lf_key l =? id) (tree_orders (w_book w sd) Fixed).

Lemma slot_spec oo : oo_free oo = false -> oo_tree oo = Fixed ->
  ts_slot_order (w_book w Bid) (w_book w Ask) clock oo =
  Ok (match find_id (oo_side oo) (oo_id oo) with Some l => [ts_order_of (oo_side oo) clock l] | None => [] end).
Proof using Hr.
  intros Hf Ht. unfold ts_slot_order. rewrite Hf, Ht. cbv zeta. rewrite book_sides.
  destruct (reachable_fits s (oo_side oo) Hr) as (T & HF). fold w in HF. rewrite (fixed_spec _ _ _ HF clock). cbn [bind]. f_equal.
  unfold find_id. induction (tree_orders (w_book w (oo_side oo)) Fixed) as [|l L IH]; [reflexivity|]. cbn [map find].
  cbn [ts_order_of to_leaf] in *. destruct (lf_key l =? oo_id oo); [reflexivity|]. exact IH.
Qed.
Lemma fixed_in sd l : In l (tree_orders (w_book w sd) Fixed) <-> In (Fixed, l) (orders w sd).
Proof.
  unfold orders. rewrite in_app_iff. split; intros H.
  - left. apply in_map. exact H.
  - destruct H as [H|H]; apply in_map_iff in H as (x & E & Hx); [injection E as <-; exact Hx|discriminate E].
Qed.
Lemma same_key sd l l' : In l (tree_orders (w_book w sd) Fixed) -> In l' (tree_orders (w_book w sd) Fixed) -> lf_key l = lf_key l' -> l = l'.
Proof using Hr.
  destruct (reachable_fits s sd Hr) as (T & HF). pose proof (fixed_sorted _ _ _ HF) as Hs. fold w in Hs.
  induction Hs as [|x L Hs IH HFx]; [intros []|]. rewrite Forall_forall in HFx. intros [E|H] [E'|H'] Ek; subst.
  - reflexivity.
  - specialize (HFx _ H'). unfold better_id in HFx. destruct sd; lia.
  - specialize (HFx _ H). unfold better_id in HFx. destruct sd; lia.
  - exact (IH H H' Ek).
Qed.

Context (k : Z) (a : ooa) (Ha : acct_get k (w_accts w) = Some a).

Lemma own_loop : forall slots n, 0 <= n ->
  (forall j, nth_error slots j = nth_error (a_orders a) (Z.to_nat n + j)) ->
  (forall oo, In oo slots -> oo_free oo = false -> oo_tree oo = Fixed) ->
  exists L, ts_slots_orders (w_book w Bid) (w_book w Ask) clock slots = Ok L /\
    NoDup (map (fun o => (to_side o, to_leaf o)) L) /\
    (forall o, In o L -> o = ts_order_of (to_side o) clock (to_leaf o)) /\
    forall sd l, In (sd, l) (map (fun o => (to_side o, to_leaf o)) L) <->
      In (Fixed, l) (orders w sd) /\ lf_owner l = k /\ n <= lf_slot l < n + Z.of_nat (length slots).
Proof using Hr Ha.
  pose proof (reachable_backed s Hr) as Hb. fold w in Hb.
  induction slots as [|oo slots IH]; intros n Hn Hnth Hfix.
  - exists []. split; [reflexivity|]. split; [constructor|]. split; [intros o []|]. intros sd l. cbn [map In length]. lia.
  - destruct (IH (n + 1) ltac:(lia)) as (L & E & Hnd & Hof & HL).
    { intros j. specialize (Hnth (S j)). cbn [nth_error] in Hnth. rewrite Hnth. f_equal. lia. }
    { intros x Hx. apply Hfix. right. exact Hx. }
    assert (Hat : order_at a n = Ok oo).
    { unfold order_at. replace (0 <=? n) with true by lia. cbn [massert bind]. pose proof (Hnth 0%nat) as H0. cbn [nth_error] in H0.
      rewrite Nat.add_0_r in H0. rewrite <- H0. reflexivity. }
    assert (Hslot : forall sd l, In (Fixed, l) (orders w sd) -> lf_owner l = k -> lf_slot l = n -> holds oo sd Fixed l).
    { intros sd l Hl Ho Hs. destruct (bk_order _ Hb sd Fixed l Hl) as (b & oo' & Hk & Hi & Hh & _). rewrite Ho, Ha in Hk. injection Hk as <-.
      rewrite Hs, Hat in Hi. injection Hi as <-. exact Hh. }
    cbn [ts_slots_orders length]. destruct (oo_free oo) eqn:Hfree.
    + exists L. unfold ts_slot_order. rewrite Hfree. cbn [bind]. rewrite E. cbn [bind app]. split; [reflexivity|]. split; [exact Hnd|].
      split; [exact Hof|]. intros sd l. rewrite HL. split; intros (H1 & H2 & H3); (split; [exact H1|split; [exact H2|]]); [lia|].
      assert (lf_slot l <> n) by (intros Es; destruct (Hslot sd l H1 H2 Es) as (Hc & _); congruence). lia.
    + rewrite (slot_spec oo Hfree (Hfix oo (or_introl eq_refl) Hfree)), E. cbn [bind].
      unfold find_id. destruct (find (fun l => lf_key l =? oo_id oo) (tree_orders (w_book w (oo_side oo)) Fixed)) as [l0|] eqn:Ef.
      * apply find_some in Ef as [Hin Hkey]. apply Z.eqb_eq in Hkey. pose proof (proj1 (fixed_in _ _) Hin) as Hin'.
        destruct (bk_order _ Hb _ _ _ Hin') as (b & oo' & Hk & Hi & Hh & Hu).
        destruct (Hu k a n oo Ha Hat Hfree eq_refl (eq_sym Hkey)) as [Ek En].
        exists (ts_order_of (oo_side oo) clock l0 :: L). cbn [app]. split; [reflexivity|]. cbn [map ts_order_of to_side to_leaf]. split; [|split].
        -- constructor; [|exact Hnd]. rewrite HL. lia.
        -- intros o [<-|Ho]; [reflexivity|exact (Hof o Ho)].
        -- intros sd l. cbn [In]. rewrite HL. split.
           ++ intros [Ee|(H1 & H2 & H3)]; [injection Ee as <- <-; split; [exact Hin'|]; lia|split; [exact H1|]; lia].
           ++ intros (H1 & H2 & H3). destruct (Z.eq_dec (lf_slot l) n) as [Es|Hne]; [left|right; split; [exact H1|]; lia].
              destruct (Hslot sd l H1 H2 Es) as (_ & Hid & Hsd & _). subst sd. f_equal.
              apply (same_key (oo_side oo)); [exact Hin|apply fixed_in; exact H1|lia].
      * exists L. cbn [app]. split; [reflexivity|]. split; [exact Hnd|]. split; [exact Hof|].
        intros sd l. rewrite HL. split; intros (H1 & H2 & H3); (split; [exact H1|split; [exact H2|]]); [lia|].
        assert (lf_slot l <> n); [|lia]. intros Es. destruct (Hslot sd l H1 H2 Es) as (_ & Hid & Hsd & _). subst sd.
        pose proof (find_none _ _ Ef l (proj2 (fixed_in _ _) H1)) as Hc. cbn beta in Hc. lia.
Qed.

Lemma slot_cases oo : (exists L, ts_slot_order (w_book w Bid) (w_book w Ask) clock oo = Ok L) \/
  ts_slot_order (w_book w Bid) (w_book w Ask) clock oo = Err SomeError.
Proof using Hr.
  unfold ts_slot_order. destruct (oo_free oo); [left; eauto|]. cbv zeta. rewrite book_sides.
  destruct (reachable_fits s (oo_side oo) Hr) as (T & HF). fold w in HF. destruct (oo_tree oo).
  - rewrite (fixed_spec _ _ _ HF clock). cbn [bind]. left. eauto.
  - rewrite (pegged_spec _ _ _ HF clock). destruct (tree_orders (w_book w (oo_side oo)) OraclePegged); cbn [bind]; [left; eauto|right; reflexivity].
Qed.
Lemma own_fails : forall slots oo, In oo slots -> ts_slot_order (w_book w Bid) (w_book w Ask) clock oo = Err SomeError ->
  ts_slots_orders (w_book w Bid) (w_book w Ask) clock slots = Err SomeError.
Proof using Hr.
  induction slots as [|x slots IH]; intros oo Hin E; [destruct Hin|]. cbn [ts_slots_orders]. destruct Hin as [->|Hin]; [rewrite E; reflexivity|].
  destruct (slot_cases x) as [(L & Ex)|Ex]; rewrite Ex; [|reflexivity]. cbn [bind]. rewrite (IH oo Hin E). reflexivity.
Qed.
End Own.

Theorem own_orders s k a clock : reachable s -> acct_get k (w_accts (s_w s)) = Some a ->
  (forall i oo, order_at a i = Ok oo -> oo_free oo = false -> oo_tree oo = Fixed) ->
  exists L, ts_account_items (w_book (s_w s) Bid) (w_book (s_w s) Ask) clock a = Ok L /\
    NoDup (map (fun o => (to_side o, to_leaf o)) L) /\
    (forall o, In o L -> lf_key (to_leaf o) = new_node_key (to_side o) (to_price o) (to_seq o)) /\
    forall sd l, In (sd, l) (map (fun o => (to_side o, to_leaf o)) L) <-> In (Fixed, l) (orders (s_w s) sd) /\ lf_owner l = k.
Proof.
  intros Hr Ha Hfix. destruct (own_loop s Hr clock k a Ha (a_orders a) 0 ltac:(lia)) as (L & E & Hnd & Hof & HL).
  - intros j. reflexivity.
  - intros oo Hin. apply In_nth_error in Hin as (n & Hn). apply (Hfix (Z.of_nat n)). unfold order_at.
    replace (0 <=? Z.of_nat n) with true by lia. cbn [massert bind]. rewrite Nat2Z.id, Hn. reflexivity.
  - exists L. split; [exact E|]. split; [exact Hnd|]. split.
    + intros o Ho. pose proof (in_map (fun o => (to_side o, to_leaf o)) _ _ Ho) as Hi. cbn beta in Hi. apply HL in Hi as (Hi & _).
      apply (fixed_in s) in Hi. destruct (reachable_fits s (to_side o) Hr) as (T & HF). destruct (fixed_key _ _ _ HF _ Hi) as (Hk & _).
      rewrite (Hof o Ho) at 3 4. cbn [ts_order_of to_price to_seq]. exact (proj2 (key_parts (to_side o) _ Hk)).
    + intros sd l. rewrite HL. split; [intros (H1 & H2 & _); auto|]. intros (H1 & H2). split; [exact H1|]. split; [exact H2|].
      destruct (bk_order _ (reachable_backed s Hr) sd Fixed l H1) as (b & oo & Hk & Hi & _). rewrite H2, Ha in Hk. injection Hk as <-.
      unfold order_at in Hi. destruct (0 <=? lf_slot l) eqn:E0; [|discriminate Hi]. cbn [massert bind] in Hi.
      destruct (nth_error (a_orders a) (Z.to_nat (lf_slot l))) eqn:En; [|discriminate Hi].
      assert (Hlt : (Z.to_nat (lf_slot l) < length (a_orders a))%nat) by (apply nth_error_Some; congruence). lia.
Qed.

Theorem own_pegged_fails s k a clock sd l : reachable s -> acct_get k (w_accts (s_w s)) = Some a ->
  In (OraclePegged, l) (orders (s_w s) sd) -> lf_owner l = k ->
  ts_account_items (w_book (s_w s) Bid) (w_book (s_w s) Ask) clock a = Err SomeError.
Proof.
  intros Hr Ha Hl Ho. destruct (bk_order _ (reachable_backed s Hr) sd _ l Hl) as (b & oo & Hk & Hi & (Hfree & _ & Hsd & Ht & _) & _).
  rewrite Ho, Ha in Hk. injection Hk as <-. apply (own_fails s Hr clock (a_orders a) oo).
  - unfold order_at in Hi. destruct (0 <=? lf_slot l); [|discriminate Hi]. cbn [massert bind] in Hi.
    destruct (nth_error (a_orders a) (Z.to_nat (lf_slot l))) eqn:En; [|discriminate Hi]. injection Hi as <-. exact (nth_error_In _ _ En).
  - unfold ts_slot_order. rewrite Hfree, Ht. cbv zeta. rewrite book_sides, Hsd. destruct (reachable_fits s sd Hr) as (T & HF).
    rewrite (pegged_spec _ _ _ HF clock). unfold orders in Hl. apply in_app_or in Hl as [Hl|Hl]; apply in_map_iff in Hl as (x & E & Hx); [discriminate E|].
    destruct (tree_orders (w_book (s_w s) sd) OraclePegged); [destruct Hx|reflexivity].
Qed.
