(** Cancelling always works and gives back exactly what was locked. *)
From Coq Require Import ZArith List Bool Lia ZifyBool Permutation.
From Verif Require Import Base Nodes OrderTree BookSide Heap Market OpenOrders Order Book Instructions
  BaseFacts NodesFacts HeapFacts TreeRep TreeFacts TreeOps TreeIter BookSideFacts BookSideOrder BookSpecProofs SpecBook SpecFees FeeFacts SpecOrder MatchFacts MatchBook OrderFacts PlaceFacts OrderSpecProofs
  Steps StepFacts SpecLedger SpecEvents Ledger LedgerOps LedgerMoves LedgerPlace LedgerOrder LedgerInv SpecSystem SystemFacts ConsumeFacts.
Import ListNotations.
Open Scope Z_scope.

Lemma book_cancel_ok w cl ct P s t l lp ex : Inv w 0 0 cl ct P -> In (PLeaf s t l lp) P ->
  match ex with Some k => k = lf_owner l | None => True end ->
  exists w', book_cancel_order w (lf_owner l) (lf_key l) s t ex = Ok (w', l) /\ taken_off w s t l w' /\
  exists P', Inv w' 0 0 cl ct P' /\ Permutation P (PLeaf s t l lp :: P').
Proof.
  intros HI Hp Hex. pose proof HI as [HR HL HB HQ _ _ _ _].
  apply in_split in Hp as (Pa & Pb & EP). set (P0 := Pa ++ Pb).
  assert (HP : Permutation P (PLeaf s t l lp :: P0)) by (rewrite EP; symmetry; apply Permutation_middle).
  destruct (rp_side _ _ HR s) as (T & Hf & HPT).
  assert (Hin : In l (oleaves (T t))).
  { apply in_all_leaves. apply (Permutation_in _ (Permutation_sym HPT)). rewrite (pleaves_perm s _ _ HP), pleaves_cons, side_eqb_refl. left. reflexivity. }
  destruct (bs_remove_spec (w_book w s) T t (lf_key l) (ft_ok _ _ _ Hf)) as (b & old & o' & Erm & Hok & Hsd & Hr).
  assert (old = Some l) as ->.
  { destruct old as [x|]; cbn [removed] in Hr; [|destruct Hr as [_ Hr]; exfalso; exact (Hr l Hin eq_refl)].
    f_equal. destruct Hr as (Hk & A & B & HA & _).
    pose proof (oleaves_nodup _ _ t (ft_ok _ _ _ Hf)) as Hnd. clear -Hk HA Hnd Hin. rewrite HA in Hin, Hnd.
    rewrite map_app in Hnd. cbn [map] in Hnd. apply NoDup_remove_2 in Hnd. rewrite Hk in Hnd.
    apply in_app_or in Hin as [H|[H|H]]; [exfalso|exact H|exfalso]; apply Hnd; apply in_or_app; [left|right]; apply in_map; exact H. }
  pose proof (led_perm _ _ _ _ HP HL) as HL0.
  destruct (ld_back _ _ _ HL0 _ (or_introl eq_refl)) as (a & Ha & Hsl). cbn [pc_owner pc_slot] in Ha, Hsl.
  destruct (Hsl eq_refl) as (oo & Hoo & Hs1 & Hs2 & Hs3 & Hs4 & Hs5). cbn [pc_side pc_id] in Hs2, Hs3.
  destruct (led_drop _ _ _ _ _ _ _ 0 0 HL0) as [HL1 B1].
  destruct (cancel_out_ok (w_mkt w) (w_accts w) P0 (out_of s l 0 0) lp (lf_key l) a HL1 Ha) as (a' & Hx).
  1-2: destruct (gaps_perm (w_mkt w) (w_accts w) _ _ HP) as (G1 & G2 & _ & _); destruct B1 as [B1 B2 _ _ _ _]; lia.
  destruct (led_out (w_mkt w) (w_accts w) P0 (out_of s l 0 0) lp (lf_key l) a HL1 Ha a' Hx) as (_ & _ & Ea).
  assert (H : book_cancel_order w (lf_owner l) (lf_key l) s t ex = Ok (w_set_acct (w_set_book w s b) (lf_owner l) a', l)).
  { unfold book_cancel_order. rewrite Erm. cbn [bind].
    replace (match ex with Some e => require (lf_owner l =? e) Constraint | None => Ok tt end) with (Ok tt : res unit)
      by (destruct ex as [k|]; [subst k; rewrite Z.eqb_refl|]; reflexivity).
    cbn [bind]. unfold acct_load. rewrite Ha. cbn [bind]. cbn [out_of oe_slot oe_qty] in Hx. rewrite Hx. reflexivity. }
  exists (w_set_acct (w_set_book w s b) (lf_owner l) a'). split; [exact H|].
  assert (HI' : exists P', Inv (w_set_acct (w_set_book w s b) (lf_owner l) a') 0 0 cl ct P' /\ Permutation P (PLeaf s t l lp :: P')).
  { destruct (cancel_led w 0 0 cl ct P (lf_owner l) a oo ex (w_set_acct (w_set_book w s b) (lf_owner l) a') l HI Ha) as (P' & HI' & _ & _ & _ & HP').
    - unfold order_at in Hoo. apply bind_ok in Hoo as (u & _ & Hoo). apply unwrap_ok in Hoo. eapply nth_error_In. exact Hoo.
    - exact Hs1.
    - rewrite Hs3, Hs2, Hs5. exact H.
    - exists P'. split; [exact HI'|]. rewrite Hs2, Hs5, Hs4 in HP'. exact HP'. }
  split; [|exact HI']. destruct HI' as (P' & HI' & HP'). constructor.
  - rewrite (rep_orders _ _ s HR), (rep_orders _ _ s (iv_rep _ _ _ _ _ _ HI')), (pleaves_perm s _ _ HP'), pleaves_cons, side_eqb_refl. reflexivity.
  - destruct s; reflexivity.
  - exists a. split; [exact Ha|]. unfold cancelled. rewrite Hoo, Hs2, Hs4. cbn [out_of oe_side oe_slot oe_qty] in Ea. rewrite <- Ea. destruct s; reflexivity.
  - destruct s; reflexivity.
  - destruct s; reflexivity.
Qed.

(** ** Orders, pieces and slots *)
Lemma order_pleaf w P s t l : Rep w P -> In (t, l) (orders w s) -> exists lp, In (PLeaf s t l lp) P.
Proof. intros HR H. apply (Permutation_in _ (rep_orders _ _ s HR)) in H. apply leaf_piece in H. exact H. Qed.
Lemma pleaf_order w P s t l lp : Rep w P -> In (PLeaf s t l lp) P -> In (t, l) (orders w s).
Proof.
  intros HR H. apply (Permutation_in _ (Permutation_sym (rep_orders _ _ s HR))). apply in_split in H as (A & B & ->).
  apply (Permutation_in (l := pleaves s (PLeaf s t l lp :: A ++ B))).
  - apply pleaves_perm. apply Permutation_middle.
  - rewrite pleaves_cons, side_eqb_refl. left. reflexivity.
Qed.
(** The slot a resting order sits in. *)
Lemma pleaf_slot m ac P s t l lp a : Led m ac P -> In (PLeaf s t l lp) P -> acct_get (lf_owner l) ac = Some a ->
  exists oo, order_at a (lf_slot l) = Ok oo /\ oo_free oo = false /\ oo_side oo = s /\ oo_id oo = lf_key l /\ oo_locked_price oo = lp /\ oo_tree oo = t.
Proof.
  intros HL Hp Ha. destruct (ld_back _ _ _ HL _ Hp) as (b & Hb & H). cbn [pc_owner pc_slot] in Hb, H. rewrite Ha in Hb. injection Hb as <-.
  destruct (H eq_refl) as (oo & Ho & H1 & H2 & H3 & H4 & H5). exists oo. auto 6.
Qed.

Lemma key_positive m P ac s t l lp : Led m ac P -> In (PLeaf s t l lp) P -> m_seq m < 2 ^ 63 -> 0 <= lf_key l -> 0 < lf_key l.
Proof.
  intros HL Hp Hs Hk. pose proof (pk_seq _ _ (ld_piece _ _ _ HL _ Hp)) as H. cbn [pc_side pc_id] in H. unfold id_seq in H.
  destruct (Z.eq_dec (lf_key l) 0) as [E|]; [|lia]. rewrite E in H. rewrite Z.mod_0_l in H by (vm_compute; discriminate).
  change (2 ^ 64) with 18446744073709551616 in H. change (2 ^ 63) with 9223372036854775808 in Hs. destruct s; lia.
Qed.

Lemma find_resting m ac P s t l lp a : Led m ac P -> In (PLeaf s t l lp) P -> acct_get (lf_owner l) ac = Some a -> m_seq m < 2 ^ 63 ->
  exists oo, find_order_with_order_id a (lf_key l) = Some oo /\ oo_id oo = lf_key l /\ oo_side oo = s /\ oo_tree oo = t.
Proof.
  intros HL Hp Ha Hsq. destruct (pleaf_slot _ _ _ _ _ _ _ _ HL Hp Ha) as (oo & Ho & Hfr & Hsd & Hid & _ & Htr).
  unfold find_order_with_order_id. destruct (find _ (a_orders a)) as [oo'|] eqn:Ef.
  - apply find_some in Ef as [Hin Hc]. apply andb_prop in Hc as [Hc1 Hc2]. apply negb_true_iff in Hc1.
    apply in_order_at in Hin as (i & Hi). destruct (slot_piece _ _ _ _ _ _ _ HL Ha Hi Hc1) as (p & Hpi & Lp & _ & _ & Hsl).
    exists oo'. split; [reflexivity|]. assert (Eid : oo_id oo' = lf_key l) by lia. split; [exact Eid|].
    pose proof Hsl as (_ & S2 & S3 & _).
    assert (Es : pc_side p = s).
    { pose proof (pk_seq _ _ (ld_piece _ _ _ HL _ Hp)) as H1. pose proof (pk_seq _ _ (ld_piece _ _ _ HL _ Hpi)) as H2.
      cbn [pc_side pc_id] in H1. rewrite <- S3, Eid in H2. unfold id_seq in H1, H2. change (2 ^ 63) with 9223372036854775808 in Hsq.
      change (2 ^ 64) with 18446744073709551616 in *. destruct s, (pc_side p); try reflexivity; lia. }
    assert (p = PLeaf s t l lp) as -> by (eapply same_id; [exact HL|exact Hpi|exact Hp|exact Lp|reflexivity|exact Es|cbn [pc_id]; congruence]).
    destruct Hsl as (_ & _ & _ & _ & S5). split; [exact S2|exact S5].
  - exfalso. unfold order_at in Ho. apply bind_ok in Ho as (u & _ & Ho). apply unwrap_ok in Ho. apply nth_error_In in Ho.
    eapply find_none in Ef; [|exact Ho]. cbn beta in Ef. rewrite Hfr, Hid, Z.eqb_refl in Ef. discriminate Ef.
Qed.

Lemma resting_key w P s t l lp : Rep w P -> In (PLeaf s t l lp) P -> 0 <= lf_key l.
Proof.
  intros HR Hp. destruct (rp_side _ _ HR s) as (T & Hf & HP).
  assert (Hin : In l (oleaves (T t))).
  { apply in_all_leaves. apply (Permutation_in _ (Permutation_sym HP)). apply in_split in Hp as (A & B & ->).
    apply (Permutation_in (l := pleaves s (PLeaf s t l lp :: A ++ B))); [apply pleaves_perm, Permutation_middle|].
    rewrite pleaves_cons, side_eqb_refl. left. reflexivity. }
  exact (proj1 (proj1 (ft_leaves _ _ _ Hf t l Hin))).
Qed.

(** ** Cancelling one order *)
Lemma cancel_works e s signer sd t l a : reachable s -> s_closed s = false -> In (t, l) (orders (s_w s) sd) ->
  acct_get (lf_owner l) (w_accts (s_w s)) = Some a -> is_owner_or_delegate a signer = true -> m_seq (w_mkt (s_w s)) < 2 ^ 63 ->
  exists s', exec e s (ICancel signer (lf_owner l) (lf_key l)) = Ok (s', ONone) /\
    taken_off (s_w s) sd t l (s_w s') /\ s_tok s' = s_tok s /\ s_closed s' = s_closed s.
Proof.
  intros Hr Hc Hin Ha Hsg Hsq. apply reachable_inv in Hr as (cl & ct & P & HI). pose proof (iv_rep _ _ _ _ _ _ HI) as HR.
  pose proof (iv_led _ _ _ _ _ _ HI) as HL. destruct (order_pleaf _ _ _ _ _ HR Hin) as (lp & Hp).
  destruct (book_cancel_ok _ _ _ _ _ _ _ _ (Some (lf_owner l)) HI Hp eq_refl) as (w' & H & Ht & _).
  destruct (find_resting _ _ _ _ _ _ _ _ HL Hp Ha Hsq) as (oo & Hfo & Eid & Esd & Etr).
  exists (s_set_w s w'). split; [|auto]. unfold exec. rewrite Hc. cbn [andb]. unfold exec_open. cbn beta iota zeta.
  unfold cancel_order_ix, acct_load. rewrite Ha. cbn [bind]. rewrite Hsg. cbn [require bind].
  pose proof (key_positive _ _ _ _ _ _ _ HL Hp Hsq (resting_key _ _ _ _ _ _ HR Hp)) as Hk.
  replace (0 <? lf_key l) with true by lia. cbn [require bind]. rewrite Hfo, Eid, Esd, Etr, H. reflexivity.
Qed.

(** ** Cancelling all orders of an account *)
Lemma taken_sub w s t l w' : taken_off w s t l w' -> forall u x, In x (orders w' u) -> In x (orders w u).
Proof.
  intros [H1 H2 _ _ _] u x Hx. destruct (side_eqb u s) eqn:E.
  - apply side_eqb_ok in E as ->. apply (Permutation_in _ (Permutation_sym H1)). right. exact Hx.
  - assert (u = invert_side s) as -> by (destruct u, s; (reflexivity || discriminate)).
    unfold orders in *. rewrite H2 in Hx. exact Hx.
Qed.
Lemma taken_all_sub w gone w' : taken_off_all w gone w' -> forall u x, In x (orders w' u) -> In x (orders w u).
Proof. induction 1 as [w|w s t l w1 r w2 H _ IH]; intros u x Hx; [exact Hx|]. eapply taken_sub; [exact H|]. apply IH. exact Hx. Qed.

Lemma free_slot_no_order w cl ct P k a i s t l : Inv w 0 0 cl ct P -> acct_get k (w_accts w) = Some a ->
  (forall oo, order_at a i = Ok oo -> oo_free oo = true) -> In (t, l) (orders w s) -> lf_owner l = k -> lf_slot l <> i.
Proof.
  intros HI Ha Hf Hin Eo Es. destruct (order_pleaf _ _ _ _ _ (iv_rep _ _ _ _ _ _ HI) Hin) as (lp & Hp). subst k.
  destruct (pleaf_slot _ _ _ _ _ _ _ _ (iv_led _ _ _ _ _ _ HI) Hp Ha) as (oo & Ho & Hfr & _). rewrite Es in Ho.
  rewrite (Hf _ Ho) in Hfr. discriminate.
Qed.

Lemma sum_qty_nil : sumZ (map (fun x : side * otree_id * leaf => lf_qty (snd x)) []) = 0.
Proof. reflexivity. Qed.

Lemma order_at_in a i : length (a_orders a) = MAX_OPEN_ORDERS -> 0 <= i < 24 -> exists oo, order_at a i = Ok oo.
Proof.
  intros Hl Hi. unfold order_at, massert, require. replace (0 <=? i) with true by lia. cbn [bind].
  destruct (nth_error (a_orders a) (Z.to_nat i)) as [oo|] eqn:E; [exists oo; reflexivity|].
  apply nth_error_None in E. rewrite Hl in E. unfold MAX_OPEN_ORDERS in E. lia.
Qed.

Lemma lots_nonneg m ac P k a : Led m ac P -> acct_get k ac = Some a -> 0 <= p_bids_base (a_pos a) /\ 0 <= p_asks_base (a_pos a).
Proof.
  intros HL Ha. pose proof (ld_acct _ _ _ HL _ _ Ha) as [_ _ G1 G2 _ _ _]. rewrite G1, G2.
  split; apply psum_nonneg; intros p Hp; unfold of_side; destruct (_ && _); try lia; pose proof (pk_qty _ _ (ld_piece _ _ _ HL _ Hp)); lia.
Qed.

Lemma book_cancel_gone w db dq cl ct P k a i oo p : Inv w db dq cl ct P -> acct_get k (w_accts w) = Some a -> order_at a i = Ok oo ->
  In p P -> pc_last p = true -> slot_of oo p -> match p with PLeaf _ _ _ _ => False | _ => True end ->
  book_cancel_order w k (oo_id oo) (oo_side oo) (oo_tree oo) None = Err OrderIdNotFound.
Proof.
  intros HI Ha Ho Hp Lp (_ & S2 & S3 & _) Hnl. pose proof HI as [HR HL _ _ _ _ _ _].
  destruct (rp_side _ _ HR (oo_side oo)) as (T & Hf & HPT).
  destruct (bs_remove_spec (w_book w (oo_side oo)) T (oo_tree oo) (oo_id oo) (ft_ok _ _ _ Hf)) as (b & old & o' & Erm & _ & _ & Hr).
  unfold book_cancel_order. rewrite Erm. cbn [bind]. destruct old as [x|]; [exfalso|reflexivity].
  cbn [removed] in Hr. destruct Hr as (Hk & A & B & HA & _).
  assert (Hin : In (oo_tree oo, x) (pleaves (oo_side oo) P)).
  { apply (Permutation_in _ HPT). apply in_all_leaves. rewrite HA. apply in_or_app. right. left. reflexivity. }
  apply leaf_piece in Hin as (lp & Hl).
  assert (p = PLeaf (oo_side oo) (oo_tree oo) x lp) as ->.
  { eapply same_id; [exact HL|exact Hp|exact Hl|exact Lp|reflexivity| |]; cbn [pc_side pc_id]; congruence. }
  exact Hnl.
Qed.

Lemma cancel_all_ok n : forall i w cl ct P k a limit total so co, Inv w 0 0 cl ct P -> acct_get k (w_accts w) = Some a ->
  0 <= i -> i + Z.of_nat n = 24 -> 0 <= limit -> 0 <= total ->
  total + p_bids_base (a_pos a) + p_asks_base (a_pos a) <= 9223372036854775807 ->
  exists w' gone P', cancel_all_loop n i w k limit total so co = Ok (w', total + sumZ (map (fun x => lf_qty (snd x)) gone)) /\
    taken_off_all w gone w' /\ Inv w' 0 0 cl ct P' /\ Z.of_nat (length gone) <= limit /\
    (forall s t l, In (s, t, l) gone -> selected k so co a s l /\ i <= lf_slot l) /\
    (Z.of_nat n <= limit -> forall s t l, In (t, l) (orders w' s) -> selected k so co a s l -> lf_slot l < i).
Proof.
  induction n as [|n IH]; intros i w cl ct P k a limit total so co HI Ha Hi Hn Hlim Htot Hsum.
  - exists w, [], P. cbn [cancel_all_loop]. rewrite sum_qty_nil, Z.add_0_r. split; [reflexivity|]. split; [constructor|].
    split; [exact HI|]. split; [cbn [length]; lia|]. split; [intros s t l []|].
    intros _ s t l Hin (Eo & _). destruct (order_pleaf _ _ _ _ _ (iv_rep _ _ _ _ _ _ HI) Hin) as (lp & Hp). subst k.
    destruct (pleaf_slot _ _ _ _ _ _ _ _ (iv_led _ _ _ _ _ _ HI) Hp Ha) as (oo & Ho & _).
    pose proof (ac_len _ _ _ _ (ld_acct _ _ _ (iv_led _ _ _ _ _ _ HI) _ _ Ha)) as Hlen.
    unfold order_at in Ho. apply bind_ok in Ho as (u & E & Ho). apply massert_ok in E. apply unwrap_ok in Ho.
    assert (Hne : nth_error (a_orders a) (Z.to_nat (lf_slot l)) <> None) by congruence. apply nth_error_Some in Hne.
    rewrite Hlen in Hne. unfold MAX_OPEN_ORDERS in Hne. lia.
  - pose proof (iv_led _ _ _ _ _ _ HI) as HL. pose proof (ld_acct _ _ _ HL _ _ Ha) as Hac.
    destruct (order_at_in a i (ac_len _ _ _ _ Hac)) as (oo & Ho); [lia|].
    cbn [cancel_all_loop]. unfold acct_load at 1. rewrite Ha. cbn [bind]. rewrite Ho. cbn [bind]. cbv zeta.
    (* Slot i holds nothing that is to go. *)
    assert (Skip : forall lim, 0 <= lim -> lim <= limit -> limit <= lim + 1 ->
      (forall s t l, In (t, l) (orders w s) -> selected k so co a s l -> lf_slot l <> i) ->
      exists w' gone P', cancel_all_loop n (i + 1) w k lim total so co = Ok (w', total + sumZ (map (fun x => lf_qty (snd x)) gone)) /\
        taken_off_all w gone w' /\ Inv w' 0 0 cl ct P' /\ Z.of_nat (length gone) <= limit /\
        (forall s t l, In (s, t, l) gone -> selected k so co a s l /\ i <= lf_slot l) /\
        (Z.of_nat (S n) <= limit -> forall s t l, In (t, l) (orders w' s) -> selected k so co a s l -> lf_slot l < i)).
    { intros lim L1 L2 L3 Hno. destruct (IH (i + 1) w cl ct P k a lim total so co HI Ha) as (w' & gone & P' & H & Ht & HI' & Hlen & Hg & Hr); [lia|lia|lia|lia|lia|].
      exists w', gone, P'. split; [exact H|]. split; [exact Ht|]. split; [exact HI'|]. split; [lia|]. split.
      - intros s t l Hx. destruct (Hg s t l Hx) as [G1 G2]. split; [exact G1|lia].
      - intros Hl s t l Hx Hs. assert (lf_slot l < i + 1) by (apply (Hr ltac:(lia) s t l Hx Hs)).
        pose proof (Hno s t l (taken_all_sub _ _ _ Ht _ _ Hx) Hs). lia. }
    assert (Own : forall s t l, In (t, l) (orders w s) -> lf_owner l = k -> lf_slot l = i ->
      exists lp, In (PLeaf s t l lp) P /\ oo_free oo = false /\ oo_side oo = s /\ oo_id oo = lf_key l /\ oo_tree oo = t).
    { intros s t l Hin Eo Es. destruct (order_pleaf _ _ _ _ _ (iv_rep _ _ _ _ _ _ HI) Hin) as (lp & Hp). exists lp. split; [exact Hp|].
      rewrite <- Eo in Ha. destruct (pleaf_slot _ _ _ _ _ _ _ _ HL Hp Ha) as (oo' & Ho' & G1 & G2 & G3 & _ & G5).
      rewrite Es, Ho in Ho'. injection Ho' as <-. auto. }
    destruct (oo_free oo) eqn:Efr.
    { apply Skip; [lia|lia|lia|]. intros s t l Hin (Eo & _) Es. destruct (Own s t l Hin Eo Es) as (lp & _ & F & _). discriminate F. }
    destruct (match so with Some s => negb (side_eqb s (oo_side oo)) | None => false end) eqn:Eso.
    { apply Skip; [lia|lia|lia|]. intros s t l Hin (Eo & Hs & _) Es. destruct (Own s t l Hin Eo Es) as (lp & _ & _ & F & _).
      destruct so as [s'|]; [|discriminate]. subst s' s. rewrite side_eqb_refl in Eso. discriminate. }
    destruct (match co with Some c => negb (c =? oo_client_id oo) | None => false end) eqn:Eco.
    { apply Skip; [lia|lia|lia|]. intros s t l Hin (Eo & _ & Hc) Es. destruct co as [c|]; [|discriminate].
      destruct Hc as (oo' & Ho' & <-). rewrite Es, Ho in Ho'. injection Ho' as <-. rewrite Z.eqb_refl in Eco. discriminate. }
    destruct (Z.eqb_spec limit 0) as [El|El].
    { exists w, [], P. rewrite sum_qty_nil, Z.add_0_r. split; [reflexivity|]. split; [constructor|]. split; [exact HI|]. split; [cbn [length]; lia|].
      split; [intros s t l []|]. intros Hl. lia. }
    destruct (slot_piece _ _ _ _ _ _ _ HL Ha Ho Efr) as (p & Hp & Lp & Op & Sp & Hsl).
    destruct p as [s t l lp|o lp id|f id].
    + (* The order rests on the book. *)
      cbn [pc_owner pc_slot] in Op, Sp. destruct Hsl as (_ & S2 & S3 & S4 & S5). cbn [pc_side pc_id] in S2, S3.
      destruct (book_cancel_ok _ _ _ _ _ _ _ _ None HI Hp I) as (w1 & H1 & Ht1 & P1 & HI1 & HP1).
      rewrite S3, S2, S5, <- Op. rewrite H1. cbn [bind].
      destruct Ht1 as [T1 T2 (a0 & Ha0 & T3) T4 T5]. rewrite Op, Ha in Ha0. injection Ha0 as <-.
      assert (Ha1 : acct_get k (w_accts w1) = Some (cancelled (w_mkt w) a (lf_slot l) (lf_qty l))).
      { rewrite T3, Op. eapply get_set_same. exact Ha. }
      set (a1 := cancelled (w_mkt w) a (lf_slot l) (lf_qty l)) in *.
      assert (Ea1 : a1 = freed a i (cancelled_pos (w_mkt w) (a_pos a) s (lf_qty l) lp)).
      { unfold a1, cancelled. rewrite Sp, Ho, S2, S4. reflexivity. }
      assert (Hq : 0 < lf_qty l) by (pose proof (pk_qty _ _ (ld_piece _ _ _ HL _ Hp)) as G; exact G).
      assert (Hpos : p_bids_base (a_pos a1) + p_asks_base (a_pos a1) = p_bids_base (a_pos a) + p_asks_base (a_pos a) - lf_qty l).
      { rewrite Ea1. unfold freed, set_order_at, cancelled_pos. destruct s; cbn [a_pos a_set_orders a_set_pos p_bids_base p_asks_base]; lia. }
      pose proof (lots_nonneg _ _ _ _ _ (iv_led _ _ _ _ _ _ HI1) Ha1) as Hnn.
      rewrite chk_i64_in by lia. cbn [bind]. rewrite Op.
      destruct (IH (i + 1) w1 cl ct P1 k a1 (limit - 1) (total + lf_qty l) so co HI1 Ha1) as (w' & gone & P' & H & Ht & HI' & Hlen & Hg & Hr); [lia|lia|lia|lia|lia|].
      assert (Hoth : forall j, j <> i -> order_at a1 j = order_at a j).
      { intros j Hj. rewrite Ea1. unfold freed. rewrite order_at_set_other by (try congruence; lia). reflexivity. }
      exists w', ((s, t, l) :: gone), P'. cbn [map snd length]. rewrite sumZ_cons. replace (total + (lf_qty l + sumZ (map (fun x => lf_qty (snd x)) gone))) with (total + lf_qty l + sumZ (map (fun x => lf_qty (snd x)) gone)) by lia.
      split; [exact H|]. split; [econstructor; [|exact Ht]; constructor; try assumption; exists a; split; [rewrite Op; exact Ha|exact T3]|].
      split; [exact HI'|]. split; [lia|]. split.
      * intros s' t' l' [E|Hx].
        -- injection E as <- <- <-. split; [|lia]. split; [exact Op|]. split.
           ++ destruct so as [s0|]; [|exact I]. apply negb_false_iff in Eso. apply side_eqb_ok in Eso. congruence.
           ++ destruct co as [c|]; [|exact I]. exists oo. rewrite Sp. split; [exact Ho|]. lia.
        -- destruct (Hg s' t' l' Hx) as [(G1 & G2 & G3) G4]. split; [|lia]. split; [exact G1|]. split; [exact G2|].
           destruct co as [c|]; [|exact I]. rewrite Hoth in G3 by lia. exact G3.
      * intros Hl s' t' l' Hx (G1 & G2 & G3).
        assert (Hx1 : In (t', l') (orders w1 s')) by (eapply taken_all_sub; [exact Ht|exact Hx]).
        assert (Hne : lf_slot l' <> i).
        { eapply (free_slot_no_order w1 cl ct P1 k a1 i s' t' l' HI1 Ha1); [|exact Hx1|exact G1]. intros oo1 Ho1. rewrite Ea1 in Ho1.
          unfold freed in Ho1. rewrite (order_at_set_same _ _ oo) in Ho1 by exact Ho. injection Ho1 as <-. reflexivity. }
        enough (lf_slot l' < i + 1) by lia. apply (Hr ltac:(lia) s' t' l' Hx). split; [exact G1|]. split; [exact G2|].
        destruct co as [c|]; [|exact I]. rewrite Hoth by exact Hne. exact G3.
    + (* The order has left the book already. *)
      rewrite (book_cancel_gone _ _ _ _ _ _ _ _ _ _ _ HI Ha Ho Hp eq_refl Hsl I). apply Skip; [lia|lia|lia|].
      intros s t l Hin (Eo & _) Es. destruct (Own s t l Hin Eo Es) as (lp' & Hl & _ & F1 & F2 & _).
      assert (E : POut o lp id = PLeaf s t l lp').
      { destruct Hsl as (_ & S2 & S3 & _). eapply same_id; [exact HL|exact Hp|exact Hl|reflexivity|reflexivity| |]; cbn [pc_side pc_id] in *; congruence. }
      discriminate E.
    + rewrite (book_cancel_gone _ _ _ _ _ _ _ _ _ _ _ HI Ha Ho Hp Lp Hsl I). apply Skip; [lia|lia|lia|].
      intros s t l Hin (Eo & _) Es. destruct (Own s t l Hin Eo Es) as (lp' & Hl & _ & F1 & F2 & _).
      assert (E : PFill f id = PLeaf s t l lp').
      { destruct Hsl as (_ & S2 & S3 & _). eapply same_id; [exact HL|exact Hp|exact Hl|exact Lp|reflexivity| |]; cbn [pc_side pc_id] in *; congruence. }
      discriminate E.
Qed.

Lemma cancel_all_orders_ok w cl ct P k a limit so co : Inv w 0 0 cl ct P -> acct_get k (w_accts w) = Some a -> 0 <= limit ->
  p_bids_base (a_pos a) + p_asks_base (a_pos a) < 2 ^ 63 ->
  exists w' gone P', cancel_all_orders w k limit so co = Ok (w', sumZ (map (fun x => lf_qty (snd x)) gone)) /\
    taken_off_all w gone w' /\ Inv w' 0 0 cl ct P' /\ Z.of_nat (length gone) <= limit /\
    (forall s t l, In (s, t, l) gone -> selected k so co a s l) /\
    (24 <= limit -> forall s t l, In (t, l) (orders w' s) -> ~ selected k so co a s l).
Proof.
  intros HI Ha Hl Hs. change (2 ^ 63) with 9223372036854775808 in Hs.
  destruct (cancel_all_ok MAX_OPEN_ORDERS 0 w cl ct P k a limit 0 so co HI Ha) as (w' & gone & P' & H & Ht & HI' & Hlen & Hg & Hr).
  1-5: unfold MAX_OPEN_ORDERS; lia. exists w', gone, P'. split; [exact H|]. split; [exact Ht|]. split; [exact HI'|]. split; [exact Hlen|]. split.
  - intros s t l Hx. exact (proj1 (Hg s t l Hx)).
  - intros H24 s t l Hx Hsel. assert (Hlt : lf_slot l < 0) by (apply (Hr ltac:(unfold MAX_OPEN_ORDERS; lia) s t l Hx Hsel)).
    destruct (order_pleaf _ _ _ _ _ (iv_rep _ _ _ _ _ _ HI') Hx) as (lp & Hp).
    destruct (ld_back _ _ _ (iv_led _ _ _ _ _ _ HI') _ Hp) as (b & _ & G). destruct (G eq_refl) as (oo & Ho & _).
    apply order_at_nonneg in Ho. cbn [pc_slot] in Ho. lia.
Qed.

Lemma cancel_all_works e s signer k so limit a : reachable s -> s_closed s = false ->
  acct_get k (w_accts (s_w s)) = Some a -> is_owner_or_delegate a signer = true -> 0 <= limit < 256 ->
  p_bids_base (a_pos a) + p_asks_base (a_pos a) < 2 ^ 63 ->
  exists s' gone, exec e s (ICancelAll signer k so limit) = Ok (s', ONone) /\
    taken_off_all (s_w s) gone (s_w s') /\ s_tok s' = s_tok s /\ Z.of_nat (length gone) <= limit /\
    (forall sd t l, In (sd, t, l) gone -> selected k so None a sd l) /\
    (24 <= limit -> forall sd t l, In (t, l) (orders (s_w s') sd) -> ~ selected k so None a sd l).
Proof.
  intros Hr Hc Ha Hsg Hl Hs. apply reachable_inv in Hr as (cl & ct & P & HI).
  destruct (cancel_all_orders_ok _ _ _ _ _ _ limit so None HI Ha (proj1 Hl) Hs) as (w' & gone & P' & H & Ht & _ & Hlen & Hg & Hn).
  exists (s_set_w s w'), gone. split; [|cbn [s_w s_set_w s_tok]; auto]. unfold exec. rewrite Hc. cbn [andb]. unfold exec_open. cbn beta iota zeta.
  replace (u8_arg limit) with (Ok tt : res unit) by (unfold u8_arg, require, in_range, u8_max; replace (_ && _) with true by lia; reflexivity). cbn [bind].
  unfold check_owner_or_delegate, acct_load. rewrite Ha. cbn [bind]. rewrite Hsg. cbn [require bind]. rewrite H. reflexivity.
Qed.

Lemma cancel_client_works e s signer k c a : reachable s -> s_closed s = false ->
  acct_get k (w_accts (s_w s)) = Some a -> is_owner_or_delegate a signer = true -> 0 <= c < 2 ^ 64 ->
  p_bids_base (a_pos a) + p_asks_base (a_pos a) < 2 ^ 63 ->
  exists s' gone, exec e s (ICancelClient signer k c) = Ok (s', OLots (sumZ (map (fun x => lf_qty (snd x)) gone))) /\
    taken_off_all (s_w s) gone (s_w s') /\ s_tok s' = s_tok s /\
    (forall sd t l, In (sd, t, l) gone -> selected k None (Some c) a sd l) /\
    (forall sd t l, In (t, l) (orders (s_w s') sd) -> ~ selected k None (Some c) a sd l).
Proof.
  intros Hr Hc Ha Hsg Hl Hs. apply reachable_inv in Hr as (cl & ct & P & HI).
  destruct (cancel_all_orders_ok _ _ _ _ _ _ u8_max None (Some c) HI Ha) as (w' & gone & P' & H & Ht & _ & Hlen & Hg & Hn); [unfold u8_max; lia|exact Hs|].
  exists (s_set_w s w'), gone. split; [|cbn [s_w s_set_w s_tok]; split; [exact Ht|]; split; [reflexivity|]; split; [exact Hg|]; apply Hn; unfold u8_max; lia].
  unfold exec. rewrite Hc. cbn [andb]. unfold exec_open. cbn beta iota zeta. rewrite (u64_arg_in c Hl). cbn [bind].
  unfold check_owner_or_delegate, acct_load. rewrite Ha. cbn [bind]. rewrite Hsg. cbn [require bind]. rewrite H. reflexivity.
Qed.

Lemma prune_works e s k limit a : reachable s -> s_closed s = false ->
  acct_get k (w_accts (s_w s)) = Some a -> market_is_expired (w_mkt (s_w s)) (e_now e) = true ->
  c_close_market_admin (m_cfg (w_mkt (s_w s))) <> 0 -> 0 <= limit < 256 -> p_bids_base (a_pos a) + p_asks_base (a_pos a) < 2 ^ 63 ->
  exists s' gone, exec e s (IPrune (c_close_market_admin (m_cfg (w_mkt (s_w s)))) k limit) = Ok (s', ONone) /\
    taken_off_all (s_w s) gone (s_w s') /\ s_tok s' = s_tok s /\ Z.of_nat (length gone) <= limit /\
    (forall sd t l, In (sd, t, l) gone -> lf_owner l = k) /\
    (24 <= limit -> forall sd t l, In (t, l) (orders (s_w s') sd) -> lf_owner l <> k).
Proof.
  intros Hr Hc Ha He Hca Hl Hs. apply reachable_inv in Hr as (cl & ct & P & HI).
  destruct (cancel_all_orders_ok _ _ _ _ _ _ limit None None HI Ha (proj1 Hl) Hs) as (w' & gone & P' & H & Ht & _ & Hlen & Hg & Hn).
  exists (s_set_w s w'), gone. split; [|cbn [s_w s_set_w s_tok]].
  - unfold exec. rewrite Hc. cbn [andb]. unfold exec_open. cbn beta iota zeta.
    replace (u8_arg limit) with (Ok tt : res unit) by (unfold u8_arg, require, in_range, u8_max; replace (_ && _) with true by lia; reflexivity). cbn [bind].
    unfold prune_orders_ix, check_close_admin. 
    cbv zeta. replace (c_close_market_admin _ =? 0) with false by lia. rewrite Z.eqb_refl. cbn [negb require bind].
    unfold acct_load. rewrite Ha. cbn [bind]. rewrite He. cbn [require bind]. rewrite H. reflexivity.
  - split; [exact Ht|]. split; [reflexivity|]. split; [exact Hlen|]. split.
    + intros sd t l Hx. exact (proj1 (Hg sd t l Hx)).
    + intros H24 sd t l Hx E. apply (Hn H24 sd t l Hx). repeat split; assumption.
Qed.
