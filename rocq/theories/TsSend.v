(** Facts about the crank helpers, the market finders and the transactions of the TypeScript client. *)
From Coq Require Import ZArith List Bool Lia ZifyBool Permutation Sorted.
From Verif Require Import Base Nodes OrderTree BookSide Heap Market OpenOrders Order Book Instructions
  BaseFacts NodesFacts HeapFacts SpecBook SpecFees SpecOrder
  OrderFacts Steps StepFacts SpecLedger SpecEvents Ledger LedgerOrder LedgerInv SpecSystem SystemFacts ConsumeFacts CancelFacts SpecControl ControlFacts SystemProofs SpecTs Ts TsFacts TsMore.
Import ListNotations.
Open Scope Z_scope.

(** ** The crank *)
Lemma accounts_loop : forall nodes new accounts, (length accounts <= 20)%nat -> (forall a, In a accounts -> jk_object a < new) ->
  map jk_address (ts_accounts_loop nodes new accounts) =
  map jk_address accounts ++ map (fun n => node_owner (hn_event n)) (firstn (21 - length accounts) nodes).
Proof.
  induction nodes as [|n nodes IH]; intros new accounts Hl Hn; cbn [ts_accounts_loop].
  - rewrite firstn_nil, app_nil_r. reflexivity.
  - cbv zeta. cbn [jk_object]. assert (Ef : filter (fun a => negb (jk_object a =? new)) accounts = accounts).
    { clear - Hn. induction accounts as [|a l IHl]; [reflexivity|]. cbn [filter]. pose proof (Hn a (or_introl eq_refl)).
      replace (negb (jk_object a =? new)) with true by lia. f_equal. apply IHl. intros x Hx. apply Hn. right. exact Hx. }
    rewrite Ef. rewrite app_length. cbn [length]. destruct (21 - length accounts)%nat as [|d] eqn:Ed; [lia|].
    cbn [firstn map]. destruct (20 <? Z.of_nat (length accounts + 1)) eqn:E20.
    + replace d with 0%nat by lia. rewrite map_app. reflexivity.
    + rewrite IH.
      * rewrite map_app, app_length. cbn [map length jk_address]. replace (21 - (length accounts + 1))%nat with d by lia.
        rewrite <- app_assoc. reflexivity.
      * rewrite app_length. cbn [length]. lia.
      * intros a Ha. apply in_app_or in Ha as [Ha|[<-|[]]]; [specialize (Hn a Ha); lia|cbn [jk_object]; lia].
Qed.
Theorem accounts_listed h new : map jk_address (ts_accounts_to_consume h new) =
  map (fun i => node_owner (hn_event (h_nodes h (Z.of_nat i)))) (seq 0 21).
Proof.
  unfold ts_accounts_to_consume. rewrite accounts_loop; [|cbn [length]; lia|intros a []]. cbn [map app length]. change (21 - 0)%nat with 21%nat.
  unfold all_nodes. rewrite firstn_map, map_map. reflexivity.
Qed.
Lemma iter_events n h : forall i l, heap_iter_loop n h i = Ok l -> forall e j, In (e, j) l -> e = hn_event (h_nodes h j) /\ 0 <= j < 600.
Proof.
  induction n as [|n IH]; intros i l H; cbn [heap_iter_loop] in *; [injection H as <-; intros e j []|].
  apply bind_ok in H as (u & E & H). apply bind_ok in H as (rest & Er & H). injection H as <-. unfold heap_idx, massert, MAX_EVENTS in E.
  intros e j [Eq|Hin]; [|exact (IH _ _ Er e j Hin)]. injection Eq as <- <-. split; [reflexivity|].
  destruct ((0 <=? i) && (i <? 600)) eqn:Eb; [lia|discriminate E].
Qed.
Theorem early_listed s e i new : reachable s -> In (e, i) (queue_of (s_w s)) -> i < 21 ->
  In (ev_owner e) (map jk_address (ts_accounts_to_consume (w_heap (s_w s)) new)).
Proof.
  intros Hr Hin Hi. destruct (bk_read _ (reachable_backed s Hr)) as [_ (l & El)]. unfold queue_of in Hin. rewrite El in Hin.
  destruct (iter_events _ _ _ _ El e i Hin) as [-> Hb]. rewrite accounts_listed. apply in_map_iff. exists (Z.to_nat i).
  split; [rewrite Z2Nat.id by lia; reflexivity|]. apply in_seq. lia.
Qed.

Theorem no_slots h key new : jk_object key < new -> ts_slots_to_consume h key new = [].
Proof.
  unfold ts_slots_to_consume. generalize (all_nodes h) 0. intros l. revert new. induction l as [|n l IH]; intros new z H; [reflexivity|].
  cbn [ts_slots_loop]. cbv zeta. cbn [jk_object]. replace (jk_object key =? new) with false by lia. apply IH. lia.
Qed.
Theorem for_account_nothing e s admin key new rem s' out : jk_object key < new ->
  exec e s (IConsumeGiven admin (ts_slots_to_consume (w_heap (s_w s)) key new) rem) = Ok (s', out) -> s' = s.
Proof.
  intros Hk H. rewrite (no_slots _ _ _ Hk) in H. unfold exec in H. destruct (s_closed s && needs_market _); [discriminate H|].
  unfold exec_open in H. cbv zeta in H. apply bind_ok in H as (u & _ & H). apply bind_ok in H as (v & _ & H).
  unfold lift_w in H. apply bind_ok in H as (w' & E & H). unfold consume_events_ix in E. apply bind_ok in E as (ss & Es & E).
  unfold slots_to_consume in Es. apply bind_ok in Es as (it & _ & Es).
  change (Z.to_nat (Z.min (Z.of_nat (length (@nil Z))) MAX_EVENTS_CONSUME)) with 0%nat in Es. cbn [firstn] in Es.
  injection Es as <-. cbn [consume_loop] in E. injection E as <-. injection H as <- _. destruct s; reflexivity.
Qed.

(** ** Finding markets *)
Lemma batches_concat n sigs : concat (ts_batches_loop n sigs) = concat (repeat (firstn 50 sigs) n).
Proof. induction n as [|n IH]; [reflexivity|]. cbn [ts_batches_loop repeat concat]. rewrite IH. reflexivity. Qed.
Theorem few_signatures sigs : (length sigs <= 50)%nat -> concat (ts_batches sigs) = sigs.
Proof.
  intros H. unfold ts_batches. cbn [concat app]. rewrite batches_concat.
  destruct sigs as [|x l]; [reflexivity|]. rewrite (firstn_all2 (x :: l) H).
  assert (E : (Z.of_nat (length (x :: l)) + 49) / 50 = 1).
  { cbn [length] in *. symmetry. apply (Z.div_unique _ _ _ (Z.of_nat (S (length l)) + 49 - 50)); lia. }
  rewrite E. change (Z.to_nat 1) with 1%nat. cbn [repeat concat]. apply app_nil_r.
Qed.
Lemma repeat_in {A} (x : A) l n : In x (concat (repeat l n)) -> In x l.
Proof. induction n as [|n IH]; [intros []|]. cbn [repeat concat]. intros H. apply in_app_or in H as [H|H]; auto. Qed.
Theorem many_signatures sigs : NoDup sigs -> (50 < length sigs)%nat ->
  (forall i, (50 <= i)%nat -> forall x, nth_error sigs i = Some x -> ~ In x (concat (ts_batches sigs))) /\ ~ NoDup (concat (ts_batches sigs)).
Proof.
  intros Hnd Hl. unfold ts_batches. cbn [concat app]. rewrite batches_concat. split.
  - intros i Hi x Hx Hin. apply repeat_in in Hin. apply In_nth_error in Hin as (j & Hj).
    assert (Hj50 : (j < 50)%nat).
    { assert (j < length (firstn 50 sigs))%nat by (apply nth_error_Some; congruence). rewrite firstn_length in H. lia. }
    assert (Ej : nth_error sigs j = Some x).
    { rewrite <- (firstn_skipn 50 sigs). rewrite nth_error_app1; [exact Hj|]. rewrite firstn_length. lia. }
    assert (i = j); [|lia]. apply (proj1 (NoDup_nth_error sigs) Hnd); [apply nth_error_Some; congruence|congruence].
  - assert (Hd : 2 <= (Z.of_nat (length sigs) + 49) / 50) by (apply Z.div_le_lower_bound; lia).
    destruct (Z.to_nat ((Z.of_nat (length sigs) + 49) / 50)) as [|[|n]] eqn:En; [lia|lia|].
    cbn [repeat concat]. destruct sigs as [|x l]; [cbn in Hl; lia|]. change (firstn 50 (x :: l)) with (x :: firstn 49 l).
    cbn [app]. intros Hc. inversion Hc as [|? ? Hx _]; subst. apply Hx. apply in_or_app. right. left. reflexivity.
Qed.

Lemma bytes_length disc contents : sized disc contents -> length (market_bytes disc contents) = 848%nat.
Proof.
  intros [Hd Hc]. unfold market_bytes. rewrite app_length, Hd.
  assert (E : forall L, (forall f n, In (f, n) L -> length (contents f) = n) ->
    length (flat_map (fun x => contents (fst x)) L) = fold_right (fun x n => (snd x + n)%nat) 0%nat L).
  { induction L as [|[f n] L IH]; intros H; [reflexivity|]. cbn [flat_map fold_right fst snd]. rewrite app_length.
    rewrite (H f n (or_introl eq_refl)), IH; [reflexivity|]. intros g m Hg. apply H. right. exact Hg. }
  rewrite (E market_layout Hc). reflexivity.
Qed.
Theorem never_found base quote disc contents : length base = 32%nat -> length quote = 32%nat -> sized disc contents ->
  ts_by_mints base quote (market_bytes disc contents) = false.
Proof.
  intros Hb Hq Hs. unfold ts_by_mints. apply andb_false_intro2. unfold memcmp. rewrite (bytes_length _ _ Hs), Hq. reflexivity.
Qed.

Lemma combine_eq : forall (x y : list Z), length x = length y -> forallb (fun p => fst p =? snd p) (combine x y) = true -> x = y.
Proof.
  induction x as [|a x IH]; intros [|b y] Hl H; cbn [length combine forallb fst snd] in *; try lia; [reflexivity|].
  apply andb_prop in H as [H1 H2]. apply Z.eqb_eq in H1. subst b. f_equal. apply IH; [lia|exact H2].
Qed.
Lemma combine_same : forall x : list Z, forallb (fun p => fst p =? snd p) (combine x x) = true.
Proof. induction x as [|a x IH]; [reflexivity|]. cbn [combine forallb fst snd]. rewrite Z.eqb_refl. exact IH. Qed.
(** The bytes before a field, the field, and the bytes behind it. *)
Lemma field_at before f after disc contents bytes : sized disc contents ->
  market_layout = before ++ f :: after -> length bytes = snd f ->
  memcmp (8 + fold_right (fun x n => (snd x + n)%nat) 0%nat before) bytes (market_bytes disc contents) = true <-> bytes = contents (fst f).
Proof.
  intros [Hd Hc] E Hb.
  assert (El : forall L, (forall f n, In (f, n) L -> length (contents f) = n) ->
    length (flat_map (fun x => contents (fst x)) L) = fold_right (fun x n => (snd x + n)%nat) 0%nat L).
  { induction L as [|[g n] L IH]; intros H; [reflexivity|]. cbn [flat_map fold_right fst snd]. rewrite app_length.
    rewrite (H g n (or_introl eq_refl)), IH; [reflexivity|]. intros g' m Hg. apply H. right. exact Hg. }
  unfold market_bytes. rewrite E in *. rewrite flat_map_app. cbn [flat_map].
  assert (H1 : length (flat_map (fun x => contents (fst x)) before) = fold_right (fun x n => (snd x + n)%nat) 0%nat before).
  { apply El. intros g n Hg. apply Hc. apply in_or_app. left. exact Hg. }
  assert (H2 : length (contents (fst f)) = snd f) by (apply Hc; apply in_or_app; right; left; destruct f; reflexivity).
  set (pre := disc ++ flat_map (fun x => contents (fst x)) before).
  set (post := flat_map (fun x => contents (fst x)) after).
  assert (Hp : length pre = (8 + fold_right (fun x n => (snd x + n)%nat) 0%nat before)%nat) by (unfold pre; rewrite app_length, Hd, H1; reflexivity).
  rewrite <- Hp. rewrite app_assoc. fold pre. unfold memcmp.
  rewrite skipn_app, skipn_all, Nat.sub_diag. cbn [app skipn]. rewrite firstn_app, Hb, <- H2, firstn_all, Nat.sub_diag. cbn [firstn].
  rewrite app_nil_r. rewrite !app_length. replace (Nat.leb (length pre + length (contents (fst f))) _) with true by (symmetry; apply Nat.leb_le; lia).
  cbn [andb]. split; [apply combine_eq; lia|intros ->; apply combine_same].
Qed.
Definition before_base : list (market_field * nat) := firstn 29 market_layout.
Definition before_quote : list (market_field * nat) := firstn 30 market_layout.
Theorem right_offsets base quote disc contents : length base = 32%nat -> length quote = 32%nat -> sized disc contents ->
  memcmp 576 base (market_bytes disc contents) && memcmp 608 quote (market_bytes disc contents) = true <->
  base = contents FBaseMint /\ quote = contents FQuoteMint.
Proof.
  intros Hb Hq Hs.
  pose proof (field_at before_base (FBaseMint, 32%nat) (skipn 30 market_layout) disc contents base Hs eq_refl Hb) as E1.
  pose proof (field_at before_quote (FQuoteMint, 32%nat) (skipn 31 market_layout) disc contents quote Hs eq_refl Hq) as E2.
  change (8 + _)%nat with 576%nat in E1. change (8 + _)%nat with 608%nat in E2. cbn [fst] in E1, E2.
  rewrite andb_true_iff, E1, E2. reflexivity.
Qed.

(** ** Sending *)
Theorem owner_must_sign c e s k a : mem_key (a_owner a) (ts_signatures c) = false ->
  (forall id, ts_send c e s [ts_cancel k a id] = Err Constraint) /\
  (forall cid, ts_send c e s [ts_cancel_client k a cid] = Err Constraint) /\
  (forall so ub uq ref, ts_send c e s (ts_cancel_all_orders c k a so ub uq ref) = Err Constraint).
Proof.
  intros H. unfold ts_send, ts_cancel, ts_cancel_client, ts_cancel_all_orders, ts_cancel_all. cbn [forallb fst]. rewrite H.
  cbn [andb require bind]. auto.
Qed.
Lemma same_orders w w' sd : w_bids w' = w_bids w -> w_asks w' = w_asks w -> orders w' sd = orders w sd.
Proof. intros E1 E2. unfold orders. destruct sd; cbn [w_book]; rewrite ?E1, ?E2; reflexivity. Qed.
Theorem cancels_and_settles c e s k a so ub uq ref s' : reachable s -> s_closed s = false ->
  acct_get k (w_accts (s_w s)) = Some a -> p_bids_base (a_pos a) + p_asks_base (a_pos a) < 2 ^ 63 ->
  ts_send c e s (ts_cancel_all_orders c k a so ub uq ref) = Ok s' ->
  (forall sd t l, In (t, l) (orders (s_w s') sd) -> lf_owner l = k -> exists sd', so = Some sd' /\ sd <> sd') /\
  exists a', acct_get k (w_accts (s_w s')) = Some a' /\ p_base_free (a_pos a') = 0 /\ p_quote_free (a_pos a') = 0.
Proof.
  intros Hr Hc Ha Hb H. unfold ts_send in H. apply bind_ok in H as (u & _ & H). unfold ts_cancel_all_orders, ts_cancel_all in H.
  cbn [ts_run] in H. apply bind_ok in H as ([s1 o1] & E1 & H).
  destruct (cancel_all_allowed e s (a_owner a) k so 24 a Hr Hc Ha (or_introl eq_refl) ltac:(lia) Hb) as (s1' & gone & E & _ & _ & _ & _ & Hall).
  rewrite E1 in E. injection E as <- ->.
  destruct (ts_settle c k a ub uq ref) as [sg i] eqn:Es. unfold ts_settle in Es. injection Es as Esg Ei. apply bind_ok in H as ([s2 o2] & E2 & H). injection H as <-.
  assert (Hr1 : reachable s1) by (exact (reach_step e s _ s1 _ Hr E1)).
  destruct (settle_exact e s1 i k ub uq ref s2 o2 Hr1 E2) as (a1 & Ha1 & Hst).
  { left. exists sg. subst. reflexivity. }
  destruct (st_rest _ _ _ _ _ _ _ Hst) as (B1 & B2 & _). split.
  - intros sd t l Hl Ho. rewrite (same_orders _ _ sd B1 B2) in Hl. pose proof (Hall ltac:(lia) sd t l Hl) as Hn.
    unfold selected in Hn. destruct so as [sd'|]; [|exfalso; apply Hn; auto]. exists sd'. split; [reflexivity|]. intros ->. apply Hn. auto.
  - eexists. split; [exact (st_acct _ _ _ _ _ _ _ Hst)|]. split; reflexivity.
Qed.

(** ** Accounts passed along *)
Lemma owners_loop : forall l acc, NoDup acc -> (length acc < 3)%nat ->
  let r := ts_owners_loop acc l in
  NoDup r /\ (length r <= 3)%nat /\ incl acc r /\ (forall k, In k r -> In k acc \/ exists o, In o l /\ lf_owner (to_leaf o) = k) /\
  ((length r < 3)%nat -> forall o, In o l -> In (lf_owner (to_leaf o)) r) /\
  forall o t, l = o :: t -> In (lf_owner (to_leaf o)) r.
Proof.
  induction l as [|o l IH]; intros acc Hn Hl r.
  - subst r. cbn [ts_owners_loop]. split; [exact Hn|]. split; [lia|]. split; [intros x Hx; exact Hx|]. split; [auto|].
    split; [intros _ x []|discriminate].
  - subst r. cbn [ts_owners_loop]. cbv zeta. set (k := lf_owner (to_leaf o)).
    set (acc' := if mem_key k acc then acc else acc ++ [k]).
    assert (Hk : In k acc').
    { unfold acc'. destruct (mem_key k acc) eqn:E; [|apply in_or_app; right; left; reflexivity].
      unfold mem_key in E. apply existsb_exists in E as (x & Hx & Ex). apply Z.eqb_eq in Ex. subst x. exact Hx. }
    assert (Hsub : incl acc acc') by (unfold acc'; destruct (mem_key k acc); [intros x Hx; exact Hx|intros x Hx; apply in_or_app; left; exact Hx]).
    assert (Hfrom : forall x, In x acc' -> In x acc \/ x = k).
    { unfold acc'. destruct (mem_key k acc); intros x Hx; [left; exact Hx|]. apply in_app_or in Hx as [Hx|[<-|[]]]; auto. }
    assert (Hn' : NoDup acc').
    { unfold acc'. destruct (mem_key k acc) eqn:E; [exact Hn|]. apply (Permutation_NoDup (Permutation_cons_append acc k)). constructor; [|exact Hn]. intros Hin.
      assert (mem_key k acc = true) by (unfold mem_key; apply existsb_exists; exists k; split; [exact Hin|apply Z.eqb_refl]). congruence. }
    assert (Hl' : (length acc' <= 3)%nat) by (unfold acc'; destruct (mem_key k acc); rewrite ?app_length; cbn [length]; lia).
    destruct (3 <=? Z.of_nat (length acc')) eqn:E3.
    + split; [exact Hn'|]. split; [exact Hl'|]. split; [exact Hsub|]. split.
      { intros x Hx. destruct (Hfrom x Hx) as [H| ->]; [left; exact H|right; exists o; split; [left; reflexivity|reflexivity]]. }
      split; [intros H; lia|]. intros o' t E. injection E as <- _. exact Hk.
    + destruct (IH acc' Hn' ltac:(lia)) as (H1 & H2 & H3 & H4 & H5 & _). split; [exact H1|]. split; [exact H2|].
      split; [intros x Hx; apply H3, Hsub; exact Hx|]. split.
      { intros x Hx. destruct (H4 x Hx) as [H|(o' & Ho & E)]; [|right; exists o'; split; [right; exact Ho|exact E]].
        destruct (Hfrom x H) as [H'| ->]; [left; exact H'|right; exists o; split; [left; reflexivity|reflexivity]]. }
      split; [intros H o' [<-|Ho]; [apply H3; exact Hk|exact (H5 H o' Ho)]|].
      intros o' t E. injection E as <- _. apply H3. exact Hk.
Qed.

Theorem passed_along s clock t sd L : reachable s ->
  ts_remaining (w_book (s_w s) Bid) (w_book (s_w s) Ask) clock t sd = Ok L ->
  let other := invert_side sd in
  NoDup L /\ (length L <= 3)%nat /\
  (forall k, In k L -> exists t l, In (t, l) (orders (s_w s) other) /\ lf_owner l = k) /\
  (t <> POPostOnly -> t <> POPostOnlySlide ->
    (forall x l, orders (s_w s) other = x :: l -> In (lf_owner (snd x)) L) /\
    ((length L < 3)%nat -> forall t l, In (t, l) (orders (s_w s) other) -> In (lf_owner l) L)).
Proof.
  intros Hr H other.
  assert (Hpost : L = [] /\ (t = POPostOnly \/ t = POPostOnlySlide) \/
    (l <- ts_items (w_book (s_w s) other) other clock ;; Ok (ts_owners_loop [] l)) = Ok L).
  { unfold ts_remaining in H. unfold other. destruct t; auto; try (left; injection H as <-; auto; fail);
      right; rewrite <- H; destruct sd; reflexivity. }
  destruct Hpost as [(-> & Hp)|H'].
  - split; [constructor|]. split; [cbn; lia|]. split; [intros k []|]. intros N1 N2. destruct Hp; congruence.
  - apply bind_ok in H' as (l & El & E). injection E as <-. destruct (reachable_fits s other Hr) as (T & HF).
    rewrite (items_spec _ _ _ HF) in El. destruct (tree_orders (w_book (s_w s) other) OraclePegged) as [|pl pL] eqn:Ep; [|discriminate El].
    injection El as <-. set (F := tree_orders (w_book (s_w s) other) Fixed).
    assert (Eo : orders (s_w s) other = map (pair Fixed) F) by (unfold orders; rewrite Ep; apply app_nil_r).
    destruct (owners_loop (map (ts_order_of other clock) F) [] (NoDup_nil _) ltac:(cbn; lia)) as (H1 & H2 & _ & H4 & H5 & H6).
    split; [exact H1|]. split; [exact H2|]. split.
    + intros k Hk. destruct (H4 k Hk) as [[]|(o & Ho & <-)]. apply in_map_iff in Ho as (x & <- & Hx). exists Fixed, x.
      rewrite Eo. split; [apply in_map; exact Hx|reflexivity].
    + intros _ _. rewrite Eo. split.
      * intros x l E. destruct F as [|f F']; [discriminate E|]. cbn [map] in E. injection E as <- <-.
        exact (H6 (ts_order_of other clock f) (map (ts_order_of other clock) F') eq_refl).
      * intros Hlen t' l' Hin. apply in_map_iff in Hin as (x & E & Hx). injection E as _ <-.
        exact (H5 Hlen (ts_order_of other clock x) (in_map _ _ _ Hx)).
Qed.

(** Consuming with accounts that no waiting event is about changes nothing. *)
Theorem strangers_consume_nothing e s admin limit rem s' out : reachable s ->
  (forall ev, In ev (waiting (s_w s)) -> ~ In (ev_owner ev) rem) ->
  exec e s (IConsume admin limit rem) = Ok (s', out) -> s' = s.
Proof.
  intros Hr Hn H. destruct (reachable_queue s Hr) as (_ & _ & _ & _ & (F & Hh) & _).
  assert (Hone : forall slot w', consume_one (s_w s) rem slot = Ok w' -> w' = s_w s).
  { intros slot w' E. unfold consume_one in E. apply bind_ok in E as (ev & Ev & E).
    destruct (at_slot (w_heap (s_w s)) slot) as [ev'|] eqn:Ea; [|discriminate Ev]. injection Ev as ->.
    pose proof (at_slot_nonneg _ _ _ Ea) as Hs. rewrite (at_slot_rep _ _ _ _ Hh Hs) in Ea.
    destruct (find (fun p => snd p =? slot) (queue_of (s_w s))) as [p|] eqn:Ef; [|discriminate Ea]. injection Ea as <-.
    apply find_some in Ef as [Hp _]. pose proof (Hn (fst p) (in_map fst _ _ Hp)) as Hno.
    assert (Hm : mem_key (ev_owner (fst p)) rem = false).
    { destruct (mem_key (ev_owner (fst p)) rem) eqn:Em; [|reflexivity]. exfalso. apply Hno. unfold mem_key in Em.
      apply existsb_exists in Em as (x & Hx & Ex). apply Z.eqb_eq in Ex. rewrite Ex. exact Hx. }
    destruct (fst p) as [f|o]; cbn [ev_owner] in Hm; rewrite Hm in E; injection E as <-; reflexivity. }
  assert (Hloop : forall ss w', consume_loop (s_w s) rem ss = Ok w' -> w' = s_w s).
  { induction ss as [|x ss IH]; intros w' E; cbn [consume_loop] in E; [injection E as <-; reflexivity|].
    apply bind_ok in E as (w1 & E1 & E). apply Hone in E1. subst w1. exact (IH _ E). }
  unfold exec in H. destruct (s_closed s && needs_market _); [discriminate H|].
  unfold exec_open in H. cbv zeta in H. apply bind_ok in H as (u & _ & H). apply bind_ok in H as (v & _ & H).
  unfold lift_w in H. apply bind_ok in H as (w' & E & H). unfold consume_events_ix in E. apply bind_ok in E as (ss & _ & E).
  apply Hloop in E. subst w'. injection H as <- _. destruct s; reflexivity.
Qed.

Lemma stuck s Q R : reachable s -> map (fun x => (snd x, ev_owner (fst x))) (queue_of (s_w s)) = Q ->
  map (fun i => node_owner (hn_event (h_nodes (w_heap (s_w s)) (Z.of_nat i)))) (seq 0 21) = R ->
  (forall i k, In (i, k) Q -> ~ In k R) -> Q <> [] ->
  waiting (s_w s) <> [] /\
  (forall new, map jk_address (ts_accounts_to_consume (w_heap (s_w s)) new) = R) /\
  forall new e admin limit s' out,
    exec e s (IConsume admin limit (map jk_address (ts_accounts_to_consume (w_heap (s_w s)) new))) = Ok (s', out) -> s' = s.
Proof.
  intros Hr EQ ER Hn Hne. split; [|split].
  - unfold waiting. intros H. apply Hne. rewrite <- EQ. destruct (queue_of (s_w s)); [reflexivity|discriminate H].
  - intros new. rewrite accounts_listed. exact ER.
  - intros new e admin limit s' out H. refine (strangers_consume_nothing e s admin limit _ s' out Hr _ H).
    rewrite accounts_listed, ER. intros ev Hev Hin. unfold waiting in Hev. apply in_map_iff in Hev as (x & <- & Hx).
    apply (in_map (fun x => (snd x, ev_owner (fst x)))) in Hx. rewrite EQ in Hx. exact (Hn _ _ Hx Hin).
Qed.
