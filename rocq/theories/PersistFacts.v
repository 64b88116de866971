(** Proofs about what happens to resting orders of others. *)
From Coq Require Import ZArith List Bool Permutation Lia ZifyBool.
From Verif Require Import Base Nodes OrderTree BookSide Heap Market OpenOrders Order Book Instructions
  BaseFacts NodesFacts HeapFacts TreeRep TreeFacts TreeOps TreeIter BookSideFacts BookSideOrder SpecBook BookSpecProofs
  SpecFees SpecOrder MatchFacts MatchBook FeeFacts OrderFacts PlaceFacts OrderSpecProofs OrderClaims
  Steps StepFacts TokenFacts SpecLedger SpecEvents Ledger LedgerOps LedgerMoves LedgerPlace LedgerOrder LedgerInv SpecSystem SystemFacts
  SpecControl ControlFacts LifeFacts IdFacts AuthFacts EndFacts SpecMatch MatchDone SpecPersist.
Import ListNotations.
Open Scope Z_scope.

Lemma orders_length s w T : fits s (w_book w s) T -> length (orders w s) = length (all_leaves T).
Proof.
  intros Hf. unfold orders, all_leaves.
  rewrite (proj1 (fits_orders _ _ _ Fixed Hf)), (proj1 (fits_orders _ _ _ OraclePegged Hf)).
  rewrite !app_length, !map_length, !dir_length. reflexivity.
Qed.

Lemma residues_length acts t L : (length (residues acts t L) <= length L)%nat.
Proof. induction L as [|l L IH]; cbn [residues length]; [lia|]. destruct (residue acts t l); cbn [length]; lia. Qed.

Lemma residue_none acts t l : residue acts t l = None -> exists a, In a acts /\ about a t l = true /\ after_act a l = None.
Proof.
  induction acts as [|a r IH]; cbn [residue]; intros H; [discriminate H|]. destruct (about a t l) eqn:Ab.
  - exists a. split; [left; reflexivity|auto].
  - destruct (IH H) as (b & Hb & G). exists b. split; [right; exact Hb|exact G].
Qed.

Section Placing.
Variables (w : world) (o : order) (oracle taker : option Z) (owner now limit : Z) (rem : list Z)
  (w' : world) (r : order_amounts).
Hypothesis Hsc : sound_call w o taker owner.
Hypothesis Hno : new_order w o oracle taker owner now limit rem = Ok (w', r).
Hypothesis Hnow : now < 2 ^ 64.
Let mine := (o_side o, order_limit o oracle).

Lemma place_fate sd t l W : In mine W -> In (t, l) (orders w sd) -> taker <> Some (lf_owner l) ->
  fate oracle now W w w' sd t l /\ (length (orders w' sd) + on_side sd [] <= length (orders w sd) + on_side sd [mine])%nat.
Proof.
  intros HW Hl Htk. destruct (new_order_full _ _ _ _ _ _ _ _ _ _ Hsc Hno)
    as (T & T0 & price & pd & maxq & acts & ms & lf & w2 & bt & qt & tf & ra & rq & mf & b2 & T2 & T3 & gone & put
        & Hf & Hf0 & Hpl & Hex & _ & _ & _ & _ & Hroom & Eb2 & Hf3 & HP & Ec & Es & Hput).
  destruct (placed_numbers _ _ _ _ _ _ _ _ _ _ _ _ _ _ _ _ _ _ _ _ _ _ _ _ Hsc Hf Hpl) as (Haf & _).
  pose proof Hpl as [Hp Hseq _ _ _ _ _ Hf2 Hlv _ _ _]. rewrite <- Eb2 in Hf2.
  destruct (order_price_facts _ _ _ _ _ _ (sc_order _ _ _ _ Hsc) Hp) as (_ & _ & Hlim & _).
  assert (Hcase : sd = o_side o \/ sd = invert_side (o_side o)) by (destruct sd, (o_side o); auto).
  destruct Hcase as [-> | ->].
  - (* the side the order is placed on *)
    pose proof (proj1 (in_orders _ _ _ _ _ _ Hf0 eq_refl) Hl) as Hl0.
    split.
    2:{ rewrite (orders_length _ _ _ Hf0), (orders_length _ _ _ Hf3).
        pose proof (Permutation_length HP) as HL. rewrite !app_length in HL.
        unfold on_side. cbn [filter mine fst]. unfold mine. cbn [fst]. rewrite side_eqb_refl. cbn [length].
        destruct put; cbn [length] in HL; lia. }
    assert (Hin : In (t, l) (all_leaves T3 ++ gone)).
    { apply (Permutation_in _ HP). apply in_or_app. right. apply in_all_leaves. exact Hl0. }
    apply in_app_or in Hin as [Hin|Hin].
    { left. apply (in_orders _ _ _ _ _ _ Hf3 eq_refl). apply in_all_leaves. exact Hin. }
    right. right. split.
    + intros l' Hl' Ek. apply (in_orders _ _ _ _ _ _ Hf3 eq_refl) in Hl'.
      assert (Hin' : In (t, l') ((match put with Some x => [x] | None => [] end) ++ all_leaves T0)).
      { apply (Permutation_in _ (Permutation_sym HP)). apply in_or_app. left. apply in_all_leaves. exact Hl'. }
      assert (Hseq0 : seq_of (o_side o) l <= m_seq (w_mkt w)).
      { destruct (sc_sides _ _ _ _ Hsc (o_side o)) as [_ G]. eapply G; [apply bs_lists; exact (ft_ok _ _ _ Hf0)|]. apply in_dir. exact Hl0. }
      apply in_app_or in Hin' as [Hin'|Hin'].
      * destruct put as [[t' l1]|]; [|destruct Hin']. destruct Hin' as [E|[]]. injection E as -> ->.
        pose proof (seq_of_new (o_side o) pd (m_seq (w_mkt w) + 1) l' ltac:(lia) (pf_key _ _ _ _ _ _ _ _ _ _ _ Hput)) as E2.
        rewrite (seq_of_key _ l l' Ek) in E2. lia.
      * apply in_all_leaves in Hin'. pose proof (leaves_key_unique _ _ _ _ _ (ft_ok _ _ _ Hf0) Hin' Hl0 Ek) as ->.
        assert (N : NoDup (all_leaves T3 ++ gone)).
        { eapply Permutation_NoDup; [exact HP|]. apply nodup_app.
          - destruct put; [constructor; [intros []|constructor]|constructor].
          - eapply all_leaves_nodup. exact (ft_ok _ _ _ Hf0).
          - intros x Hx Hx'. destruct put as [[t' l1]|]; [|destruct Hx]. destruct Hx as [<-|[]]. apply in_all_leaves in Hx'.
            pose proof (seq_of_new (o_side o) pd (m_seq (w_mkt w) + 1) l1 ltac:(lia) (pf_key _ _ _ _ _ _ _ _ _ _ _ Hput)) as E2.
            destruct (sc_sides _ _ _ _ Hsc (o_side o)) as [_ G].
            assert (seq_of (o_side o) l1 <= m_seq (w_mkt w)).
            { eapply G; [apply bs_lists; exact (ft_ok _ _ _ Hf0)|]. apply in_dir. exact Hx'. }
            lia. }
        apply nodup_app_inv in N as (_ & _ & N). apply (N (t, l)); [apply in_all_leaves; exact Hl'|exact Hin].
    + right. right. destruct Hroom as (ge & gw & -> & _ & Hge & Hgw).
      apply in_app_or in Hin as [Hin|Hin].
      { left. exists (order_limit o oracle). split; [exact HW|]. rewrite Forall_forall in Hge. exact (expired_gone _ _ Hnow (Hge _ Hin)). }
      destruct Hgw as [->|(t1 & l1 & p & -> & Hwp & Hb & Hcnt & _)]; [destruct Hin|].
      destruct Hin as [E|[]]. injection E as -> ->. right.
      destruct put as [[t' nl]|].
      2:{ exfalso. pose proof (ex_gone _ _ _ _ _ _ _ _ _ _ _ _ _ Hex) as (_ & G & _). specialize (G eq_refl). destruct ge; discriminate G. }
      assert (Hpt : post_target o <> None).
      { pose proof (ex_put _ _ _ _ _ _ _ _ _ _ _ _ _ Hex) as G. cbn [put_ok] in G. destruct G as (G & _). intros F. change (rests_in o = None) in F. congruence. }
      destruct (order_price_type _ _ _ _ _ _ _ _ _ _ Hno _ _ Hpt Hp) as (x & Ex & _).
      exists x, p. split; [rewrite <- Ex; exact HW|].
      split; [rewrite (room_price_worst (o_side o)) by (apply (ft_leaves _ _ _ Hf0); exact Hl0); exact Hwp|].
      specialize (Hlim _ Ex). split; [unfold strictly_better, is_price_better in *; destruct (o_side o); lia|].
      rewrite (orders_length _ _ _ Hf0).
      assert (1 <= on_side (o_side o) W)%nat; [|lia].
      unfold on_side. assert (Hin1 : In mine (filter (fun x => side_eqb (fst x) (o_side o)) W)).
      { apply filter_In. split; [exact HW|]. unfold mine. cbn [fst]. apply side_eqb_refl. }
      destruct (filter _ W); [destruct Hin1|cbn [length]; lia].
  - (* the other side *)
    set (os := invert_side (o_side o)) in *.
    pose proof (proj1 (in_orders _ _ _ _ _ _ Hf eq_refl) Hl) as Hl0.
    split.
    2:{ rewrite (orders_length _ _ _ Hf), (orders_length _ _ _ Hf2).
        unfold all_leaves. rewrite !app_length, !map_length, !Hlv.
        pose proof (residues_length acts Fixed (oleaves (T Fixed))). pose proof (residues_length acts OraclePegged (oleaves (T OraclePegged))).
        unfold on_side. cbn [filter length]. lia. }
    assert (Einv : invert_side os = o_side o) by (unfold os; destruct (o_side o); reflexivity).
    assert (Hsubin : forall a, In a acts -> In (act_item a) (merged (w_book w os) T now oracle)).
    { intros a Ha. apply (sublist_in _ _ _ (ex_acts _ _ _ _ _ _ _ _ _ _ _ _ _ Hex)). apply in_map. exact Ha. }
    pose proof (merged_on_book _ _ _ _ _ (ft_ok _ _ _ Hf) (ex_acts _ _ _ _ _ _ _ _ _ _ _ _ _ Hex)) as Hon. rewrite Forall_forall in Hon.
    assert (Hleaf : forall a, In a acts -> about a t l = true -> im_leaf (act_item a) = l /\ im_tree (act_item a) = t).
    { intros a Ha Ab. split; [symmetry; exact (leaf_of_about _ _ _ _ _ (ft_ok _ _ _ Hf) (Hon _ Ha) Hl0 Ab)|].
      unfold about in Ab. apply andb_prop in Ab as [Ab _]. apply otree_eqb_eq in Ab. exact Ab. }
    assert (Hpr : forall i, right_price oracle i -> im_leaf i = l -> im_tree i = t -> price_is oracle t l (im_price i)).
    { intros i Hi <- <-. exact Hi. }
    rewrite Forall_forall in Haf.
    assert (Hfill : forall i q, In (AFill i q) acts -> about (AFill i q) t l = true ->
      traded oracle now W os t l /\ 1 <= q <= lf_qty l).
    { intros i q Hi Ab. destruct (Hleaf _ Hi Ab) as [El Et]. cbn [act_item] in El, Et.
      destruct (listed_facts _ _ _ _ _ _ Hf (Hsubin _ Hi)) as (F1 & F2 & _). cbn [act_item] in F1, F2.
      pose proof (Haf _ Hi) as (V & Wi & _ & Q & _). split; [|rewrite <- El; exact Q].
      exists (order_limit o oracle), (im_price i). rewrite Einv. split; [exact HW|]. split; [apply Hpr; assumption|].
      split; [apply F2 in V; unfold may_trade in V; rewrite El, Et in V; exact V|].
      destruct (order_limit o oracle) as [p|]; [|exact I]. eapply within_accepts; [exact Wi|apply Hlim; reflexivity]. }
    destruct (residue acts t l) as [l'|] eqn:R.
    + assert (Hin : In (t, l') (orders w' os)).
      { apply (in_orders _ _ _ _ _ _ Hf2 eq_refl). rewrite Hlv. apply residues_in. exists l. auto. }
      destruct (residue_cases _ _ _ _ R) as [->|(i & q & Hi & Ab & Hne & ->)]; [left; exact Hin|].
      right. left. destruct (Hfill i q Hi Ab) as [G Rq]. split; [exact G|]. exists (lf_qty l - q). split; [lia|exact Hin].
    + right. right. split.
      { intros l' Hl' Ek. apply (in_orders _ _ _ _ _ _ Hf2 eq_refl) in Hl'. rewrite Hlv in Hl'. apply residues_in in Hl' as (l0 & Hin0 & R0).
        rewrite (residue_key _ _ _ _ R0) in Ek. pose proof (leaves_key_unique _ _ _ _ _ (ft_ok _ _ _ Hf) Hin0 Hl0 Ek) as ->. congruence. }
      destruct (residue_none _ _ _ R) as (a & Ha & Ab & _). destruct a as [i q|i|i].
      * left. apply (Hfill i q Ha Ab).
      * right. left. destruct (Hleaf _ Ha Ab) as [El Et]. cbn [act_item] in El, Et.
        destruct (listed_facts _ _ _ _ _ _ Hf (Hsubin _ Ha)) as (F1 & F2 & _). cbn [act_item] in F1, F2.
        exists (order_limit o oracle), (im_price i). rewrite Einv. split; [exact HW|]. split; [apply Hpr; assumption|].
        intros G. pose proof (Haf _ Ha) as V. cbn [act_fact] in V. unfold may_trade in F2. rewrite El, Et in F2. apply F2 in G. congruence.
      * exfalso. destruct (Hleaf _ Ha Ab) as [El Et]. cbn [act_item] in El, Et.
        pose proof (Haf _ Ha) as (_ & _ & _ & _ & Eo & tk & Etk). rewrite El in Eo.
        apply Htk. pose proof (sc_taker _ _ _ _ Hsc) as [G|G]; [rewrite G, Eo; reflexivity|congruence].
Qed.
End Placing.

(** ** Instructions as placements and steps that place nothing *)
Inductive osteps (who oracle : option Z) (now : Z) : list (side * option Z) -> world -> Z -> Z -> world -> Z -> Z -> Prop :=
| os_nil w db dq : osteps who oracle now [] w db dq w db dq
| os_skip x L w db dq w2 db2 dq2 : osteps who oracle now L w db dq w2 db2 dq2 -> osteps who oracle now (x :: L) w db dq w2 db2 dq2
| os_place L w db dq o taker owner limit rem w1 r w2 db2 dq2 :
    sane_order o -> taker = Some owner \/ (taker = None /\ acct_get owner (w_accts w) = None) -> 0 <= limit -> 0 <= now ->
    new_order w o oracle taker owner now limit rem = Ok (w1, r) -> taker = who ->
    osteps who oracle now L w1 (db + owed_base o taker r) (dq + owed_quote o taker r) w2 db2 dq2 ->
    osteps who oracle now ((o_side o, order_limit o oracle) :: L) w db dq w2 db2 dq2
| os_still L w db dq w1 db1 dq1 w2 db2 dq2 : wsteps who w db dq w1 db1 dq1 -> m_seq (w_mkt w1) = m_seq (w_mkt w) ->
    osteps who oracle now L w1 db1 dq1 w2 db2 dq2 -> osteps who oracle now L w db dq w2 db2 dq2.

Lemma osteps_wsteps who oracle now L w db dq w' db' dq' :
  osteps who oracle now L w db dq w' db' dq' -> wsteps who w db dq w' db' dq'.
Proof.
  induction 1 as [w db dq|x L w db dq w2 db2 dq2 H IH|L w db dq o taker owner limit rem w1 r w2 db2 dq2 Ho Ht Hl Hn E Hw H IH
    |L w db dq w1 db1 dq1 w2 db2 dq2 H1 _ H IH].
  - constructor.
  - exact IH.
  - exact (wss_cons _ _ _ _ _ _ _ _ _ _ (ws_place _ w db dq o oracle taker owner now limit rem w1 r Ho Ht Hl Hn E Hw) IH).
  - exact (wsteps_trans _ _ _ _ _ _ _ _ _ _ H1 IH).
Qed.

Definition keeps (who : option Z) (w w' : world) : Prop :=
  (forall sd t l, who <> Some (lf_owner l) -> In (t, l) (orders w sd) -> In (t, l) (orders w' sd)) /\
  (forall sd, length (orders w' sd) <= length (orders w sd))%nat.

Lemma keeps_same who w w' : (forall sd, w_book w' sd = w_book w sd) -> keeps who w w'.
Proof.
  intros Hb. split; [intros sd t l _|intros sd]; unfold orders; rewrite Hb; [exact (fun H => H)|apply le_n].
Qed.
Lemma keeps_trans who w w1 w2 : keeps who w w1 -> keeps who w1 w2 -> keeps who w w2.
Proof.
  intros [A1 A2] [B1 B2]. split; [intros sd t l Hk Hl; apply B1; [exact Hk|apply A1; assumption]|].
  intros sd. specialize (A2 sd). specialize (B2 sd). lia.
Qed.

Lemma wstep_keeps who w db dq w' db' dq' cl ct P : wstep who w db dq w' db' dq' -> Inv w db dq cl ct P ->
  m_seq (w_mkt w') = m_seq (w_mkt w) -> keeps who w w'.
Proof.
  intros H HI. pose proof (rep_sound _ _ (iv_rep _ _ _ _ _ _ HI) (iv_led _ _ _ _ _ _ HI)) as Hs.
  destruct H as [w db dq o oracle taker owner now limit rem w' r Ho Ht Hl Hn H Hw
    |w db dq k1 a oo ex w' l Ha Hoo Hfr H Hw|w db dq rem slot w' H|w db dq k1 a bf qf pen bt qt Ha R1 R2 R3 R4 R5 Hw
    |w db dq bt qt R1 R2|w db dq k1 a referred Ha m' R1 R2 R3 R4 R5 Hw|w db dq R|w db dq k1 owner delegate num Hk1 Hk0 Hw
    |w db dq k1 a d Ha Hw|w db dq]; intros Em.
  - exfalso. assert (Hsc : sound_call w o taker owner) by (apply sound_call_of; [exact Hs|exact Ho|destruct Ht as [Ht|[Ht _]]; auto]).
    destruct (new_order_older _ _ _ _ _ _ _ _ _ _ Hs Hsc H) as (_ & G2 & _). lia.
  - destruct (cancel_led _ _ _ _ _ _ _ _ _ _ _ _ HI Ha Hoo Hfr H) as (P' & HI' & Ow & _ & _ & HP).
    assert (G : forall sd, Permutation (orders w sd) (if side_eqb (oo_side oo) sd then (oo_tree oo, l) :: orders w' sd else orders w' sd)).
    { intros sd. rewrite (rep_orders _ _ sd (iv_rep _ _ _ _ _ _ HI)), (pleaves_perm sd _ _ HP), pleaves_cons.
      destruct (side_eqb (oo_side oo) sd); [constructor|]; symmetry; exact (rep_orders _ _ sd (iv_rep _ _ _ _ _ _ HI')). }
    split.
    + intros sd t x Hk Hx. pose proof (Permutation_in _ (G sd) Hx) as Hx'. destruct (side_eqb (oo_side oo) sd); [|exact Hx'].
      destruct Hx' as [E|Hx']; [|exact Hx']. injection E as _ <-. rewrite Ow in Hk. contradiction.
    + intros sd. pose proof (Permutation_length (G sd)) as HL. destruct (side_eqb (oo_side oo) sd); cbn [length] in HL; lia.
  - apply keeps_same. apply consume_one_inv in H as (ev & _ & H). destruct ev as [f|e].
    + destruct (mem_key (fe_maker f) rem); [|subst; reflexivity].
      destruct H as (a & a' & m' & h' & x & _ & E & _ & ->). intros []; reflexivity.
    + destruct (mem_key (oe_owner e) rem); [|subst; reflexivity]. destruct H as (a & a' & h' & x & _ & _ & _ & ->). intros []; reflexivity.
  - apply keeps_same. intros []; reflexivity.
  - apply keeps_same. intros []; reflexivity.
  - apply keeps_same. intros []; reflexivity.
  - apply keeps_same. intros []; reflexivity.
  - apply keeps_same. intros []; reflexivity.
  - apply keeps_same. intros []; reflexivity.
  - apply keeps_same. intros []; reflexivity.
Qed.

Lemma wsteps_keeps who w db dq w' db' dq' : wsteps who w db dq w' db' dq' -> forall cl ct P, Inv w db dq cl ct P ->
  m_seq (w_mkt w') = m_seq (w_mkt w) -> keeps who w w'.
Proof.
  induction 1 as [w db dq|w db dq w1 db1 dq1 w2 db2 dq2 H1 H2 IH]; intros cl ct P HI E.
  - apply keeps_same. reflexivity.
  - destruct (wstep_older _ _ _ _ _ _ _ _ _ _ H1 HI) as (_ & A2 & _).
    destruct (wstep_inv _ _ _ _ _ _ _ _ _ _ H1 HI) as (P1 & HI1). destruct (wsteps_older _ _ _ _ _ _ _ H2 _ _ _ HI1) as (_ & B2 & _).
    eapply keeps_trans; [eapply wstep_keeps; [exact H1|exact HI|lia]|eapply IH; [exact HI1|lia]].
Qed.

(** ** Fates *)
Lemma on_side_cons sd x L : on_side sd (x :: L) = ((if side_eqb (fst x) sd then 1 else 0) + on_side sd L)%nat.
Proof. unfold on_side. cbn [filter]. destruct (side_eqb (fst x) sd); reflexivity. Qed.

(** Reasons, with a bound on the number of orders. *)
Definition reason oracle now W n sd t l : Prop :=
  traded oracle now W sd t l \/ lapsed oracle now W sd t l \/ cleared now W sd l \/
  (exists x p, In (sd, Some x) W /\ room_price oracle t l = Some p /\ strictly_better sd x p /\ (512 < n)%nat).
Definition fate_n oracle now W n w' sd t l : Prop :=
  In (t, l) (orders w' sd) \/
  (traded oracle now W sd t l /\ exists q, 0 < q < lf_qty l /\ In (t, lf_set_qty l q) (orders w' sd)) \/
  (absent w' sd t (lf_key l) /\ reason oracle now W n sd t l).

Lemma reason_more oracle now W n W' n' sd t l : incl W W' -> (n <= n')%nat -> reason oracle now W n sd t l -> reason oracle now W' n' sd t l.
Proof.
  intros HI Hn [(lim & p & H1 & H2)|[(lim & p & H1 & H2)|[(lim & H1 & H2)|(x & p & H1 & H2 & H3 & H4)]]].
  - left. exists lim, p. split; [apply HI; exact H1|exact H2].
  - right. left. exists lim, p. split; [apply HI; exact H1|exact H2].
  - right. right. left. exists lim. split; [apply HI; exact H1|exact H2].
  - right. right. right. exists x, p. split; [apply HI; exact H1|]. split; [exact H2|]. split; [exact H3|lia].
Qed.
Lemma traded_more oracle now W W' sd t l : incl W W' -> traded oracle now W sd t l -> traded oracle now W' sd t l.
Proof. intros HI (lim & p & H1 & H2). exists lim, p. split; [apply HI; exact H1|exact H2]. Qed.
Lemma fate_more oracle now W n W' n' w' sd t l : incl W W' -> (n <= n')%nat -> fate_n oracle now W n w' sd t l -> fate_n oracle now W' n' w' sd t l.
Proof.
  intros HI Hn [H|[(H1 & H2)|(H1 & H2)]]; [left; exact H| |].
  - right. left. split; [exact (traded_more _ _ _ _ _ _ _ HI H1)|exact H2].
  - right. right. split; [exact H1|exact (reason_more _ _ _ _ _ _ _ _ _ HI Hn H2)].
Qed.

Lemma absent_stays who w db dq w' db' dq' cl ct P sd t l : wsteps who w db dq w' db' dq' -> Inv w db dq cl ct P ->
  seq_of sd l <= m_seq (w_mkt w) -> absent w sd t (lf_key l) -> absent w' sd t (lf_key l).
Proof.
  intros H HI Hq Ha l' Hl' Ek. destruct (wsteps_older _ _ _ _ _ _ _ H _ _ _ HI) as (Ho & _).
  destruct (Ho _ _ _ Hl') as [(l0 & Hl0 & E0)|[G _]].
  - apply (Ha _ Hl0). congruence.
  - rewrite (seq_of_key sd l l' Ek) in G. lia.
Qed.

Lemma resting_seq w db dq cl ct P sd t l : Inv w db dq cl ct P -> In (t, l) (orders w sd) -> seq_of sd l <= m_seq (w_mkt w).
Proof.
  intros HI Hl. pose proof (rep_sound _ _ (iv_rep _ _ _ _ _ _ HI) (iv_led _ _ _ _ _ _ HI)) as [_ Hs].
  destruct (rp_side _ _ (iv_rep _ _ _ _ _ _ HI) sd) as (T & Hf & _). destruct (Hs sd) as [_ G].
  apply (in_orders _ _ _ _ _ _ Hf eq_refl) in Hl. eapply (G t); [apply bs_lists; exact (ft_ok _ _ _ Hf)|]. apply in_dir. exact Hl.
Qed.

Lemma osteps_fate who oracle now L w db dq w' db' dq' : osteps who oracle now L w db dq w' db' dq' -> now < 2 ^ 64 ->
  forall cl ct P sd t l, Inv w db dq cl ct P -> In (t, l) (orders w sd) -> who <> Some (lf_owner l) ->
  fate_n oracle now L (length (orders w sd) + on_side sd L) w' sd t l.
Proof.
  intros H Hnow. induction H as [w db dq|x L w db dq w2 db2 dq2 H IH
    |L w db dq o taker owner limit rem w1 r w2 db2 dq2 Ho Ht Hl Hn E Hw H IH
    |L w db dq w1 db1 dq1 w2 db2 dq2 H1 Hm H IH]; intros cl ct P sd t l HI Hin Hk.
  - left. exact Hin.
  - eapply fate_more; [| |exact (IH _ _ _ _ _ _ HI Hin Hk)]; [intros y Hy; right; exact Hy|].
    rewrite on_side_cons. lia.
  - pose proof (rep_sound _ _ (iv_rep _ _ _ _ _ _ HI) (iv_led _ _ _ _ _ _ HI)) as Hs.
    assert (Hsc : sound_call w o taker owner) by (apply sound_call_of; [exact Hs|exact Ho|destruct Ht as [Ht|[Ht _]]; auto]).
    pose proof (ws_place _ w db dq o oracle taker owner now limit rem w1 r Ho Ht Hl Hn E Hw) as Hst.
    destruct (wstep_inv _ _ _ _ _ _ _ _ _ _ Hst HI) as (P1 & HI1).
    destruct (place_fate _ _ _ _ _ _ _ _ _ _ Hsc E Hnow sd t l [(o_side o, order_limit o oracle)] ltac:(left; reflexivity) Hin ltac:(rewrite Hw; exact Hk)) as [Hfate Hlen].
    assert (Hsub : incl L ((o_side o, order_limit o oracle) :: L)) by (intros y Hy; right; exact Hy).
    assert (Hsub1 : incl [(o_side o, order_limit o oracle)] ((o_side o, order_limit o oracle) :: L)).
    { intros y [<-|[]]. left. reflexivity. }
    assert (Hle : (length (orders w1 sd) + on_side sd L <= length (orders w sd) + on_side sd ((o_side o, order_limit o oracle) :: L))%nat).
    { rewrite on_side_cons. rewrite on_side_cons in Hlen. change (on_side sd []) with 0%nat in Hlen. lia. }
    destruct Hfate as [Hi|[(Htr & q & Hq & Hi)|(Hab & Hre)]].
    + eapply fate_more; [exact Hsub|exact Hle|]. exact (IH _ _ _ _ _ _ HI1 Hi Hk).
    + pose proof (IH _ _ _ _ _ _ HI1 Hi Hk) as [G|[(G1 & q' & Hq' & G2)|(G1 & G2)]].
      * right. left. split; [exact (traded_more _ _ _ _ _ _ _ Hsub1 Htr)|]. exists q. split; [exact Hq|exact G].
      * right. left. split; [exact (traded_more _ _ _ _ _ _ _ Hsub1 Htr)|]. exists q'. cbn [lf_set_qty lf_qty] in Hq'. split; [lia|exact G2].
      * right. right. split; [exact G1|]. exact (reason_more _ _ _ _ _ _ _ _ _ Hsub Hle G2).
    + right. right. split.
      * eapply absent_stays; [exact (osteps_wsteps _ _ _ _ _ _ _ _ _ _ H)|exact HI1| |exact Hab].
        pose proof (resting_seq _ _ _ _ _ _ _ _ _ HI Hin) as G1. destruct (wstep_older _ _ _ _ _ _ _ _ _ _ Hst HI) as (_ & G2 & _). lia.
      * destruct Hre as [G|[G|[G|(x & p & G1 & G2 & G3 & G4)]]].
        -- left. exact (traded_more _ _ _ _ _ _ _ Hsub1 G).
        -- right. left. destruct G as (lim & p & G1 & G2). exists lim, p. split; [apply Hsub1; exact G1|exact G2].
        -- right. right. left. destruct G as (lim & G1 & G2). exists lim. split; [apply Hsub1; exact G1|exact G2].
        -- right. right. right. exists x, p. split; [apply Hsub1; exact G1|]. split; [exact G2|]. split; [exact G3|].
           rewrite on_side_cons in *. change (on_side sd []) with 0%nat in G4. lia.
  - destruct (wsteps_inv _ _ _ _ _ _ _ _ _ H1 _ HI) as (P1 & HI1).
    destruct (wsteps_keeps _ _ _ _ _ _ _ H1 _ _ _ HI Hm) as [K1 K2]. specialize (K2 sd).
    eapply fate_more; [apply incl_refl| |exact (IH _ _ _ _ _ _ HI1 (K1 _ _ _ Hk Hin) Hk)]. lia.
Qed.

(** ** Every instruction *)
Lemma now_u64_eq e now : now_u64 e = Ok now -> now = e_now e /\ 0 <= now.
Proof. unfold now_u64. intros H. apply bind_ok in H as (u & E & H). apply massert_ok in E. injection H as <-. split; [reflexivity|lia]. Qed.

Lemma lock_funds_seq w k s r grew w' d : lock_funds w k s r grew = Ok (w', d) -> m_seq (w_mkt w') = m_seq (w_mkt w).
Proof.
  intros H. unfold lock_funds in H. apply bind_ok in H as (a & Ea & H). cbv zeta in H.
  apply bind_ok in H as ([[m' p'] dd] & E & H). apply bind_ok in H as (p'' & E2 & H). injection H as <- <-.
  assert (G : m_seq m' = m_seq (w_mkt w)).
  { destruct s; repeat (apply bind_ok in E as (? & _ & E)); injection E as <- _ _; reflexivity. }
  exact G.
Qed.

Lemma new_order_pegged w o oracle taker owner now limit rem w' r offset pt pl : o_params o = OOraclePegged offset pt pl ->
  new_order w o oracle taker owner now limit rem = Ok (w', r) -> sound_call w o taker owner -> exists op, oracle = Some op.
Proof.
  intros Ep H Hsc. destruct (new_order_full _ _ _ _ _ _ _ _ _ _ Hsc H)
    as (T & T0 & price & pd & maxq & acts & ms & lf & w2 & bt & qt & tf & ra & rq & mf & b2 & T2 & T3 & gone & put & _ & _ & Hpl & _).
  pose proof (pc_price _ _ _ _ _ _ _ _ _ _ _ _ _ _ _ _ _ _ _ _ _ _ _ _ Hpl) as Hp.
  unfold order_price in Hp. apply bind_ok in Hp as (p0 & E & _). rewrite Ep in E.
  destruct oracle as [op|]; [exists op; reflexivity|]. exfalso. cbn in E. discriminate E.
Qed.

Lemma place_osteps e s x o limit s' id : world_sound (s_w s) -> params_sane (o_params o) -> 0 <= limit ->
  place_order_ix e s x o limit = Ok (s', id) -> exists oracle, oracle_input (w_mkt (s_w s)) e = Ok oracle /\
  osteps (Some (px_acct x)) oracle (e_now e) [(o_side o, order_limit o oracle)] (s_w s) 0 0 (s_w s') 0 0 /\
  (oracle = None -> forall offset pt pl, o_params o <> OOraclePegged offset pt pl).
Proof.
  intros Hs Hp Hl H. unfold place_order_ix in H.
  apply bind_ok in H as (u1 & E1 & H). apply require_ok in E1. apply bind_ok in H as (u2 & E2 & H). apply require_ok in E2.
  cbv zeta in H. apply bind_ok in H as (u3 & _ & H). apply bind_ok in H as (u4 & _ & H).
  apply bind_ok in H as (now & En & H). apply now_u64_eq in En as [-> En]. apply bind_ok in H as (oracle & Eor & H).
  apply bind_ok in H as ([w1 r] & Eo & H). apply bind_ok in H as ([w2 d] & Ek & H).
  apply bind_ok in H as (t & _ & H). injection H as <- _. cbn [s_w s_closed].
  assert (Ho : sane_order o) by (constructor; [lia|lia|exact Hp]).
  exists oracle. split; [exact Eor|]. split.
  - eapply os_place; [exact Ho|left; reflexivity|exact Hl|exact En|exact Eo|reflexivity|].
    eapply os_still; [|exact (lock_funds_seq _ _ _ _ _ _ _ Ek)|apply os_nil].
    eapply wsteps_one; [|reflexivity|reflexivity]. eapply lock_funds_steps; [exact Ek| |]; unfold owed_base, owed_quote; destruct (o_side o); lia.
  - intros -> offset pt pl Ep. destruct (new_order_pegged _ _ _ _ _ _ _ _ _ _ _ _ _ Ep Eo) as (op & G); [|discriminate G].
    apply sound_call_of; [exact Hs|exact Ho|left; reflexivity].
Qed.

Definition split_up (e : env) (s : sys) (i : instr) (s' : sys) : Prop :=
  (wsteps (actor i) (s_w s) 0 0 (s_w s') 0 0 /\ m_seq (w_mkt (s_w s')) = m_seq (w_mkt (s_w s))) \/
  exists oracle, oracle_input (w_mkt (s_w s)) e = Ok oracle /\
    osteps (actor i) oracle (e_now e) (wanted oracle i) (s_w s) 0 0 (s_w s') 0 0.

Lemma edit_osteps e s x cid expected o limit s' id : world_sound (s_w s) -> params_sane (o_params o) -> 0 <= limit ->
  edit_order_ix e s x cid expected o limit = Ok (s', id) ->
  (wsteps (Some (px_acct x)) (s_w s) 0 0 (s_w s') 0 0 /\ m_seq (w_mkt (s_w s')) = m_seq (w_mkt (s_w s))) \/
  exists oracle, oracle_input (w_mkt (s_w s)) e = Ok oracle /\
  osteps (Some (px_acct x)) oracle (e_now e) [(o_side o, order_limit o oracle)] (s_w s) 0 0 (s_w s') 0 0 /\
  (oracle = None -> forall offset pt pl, o_params o <> OOraclePegged offset pt pl).
Proof.
  intros Hs Hp Hl H. unfold edit_order_ix in H. apply bind_ok in H as (u1 & _ & H). apply bind_ok in H as ([w q] & E & H).
  pose proof (cancel_orders_seq _ _ _ _ _ _ _ E) as Em. apply cancel_orders_steps in E. cbv zeta in H. apply bind_ok in H as (f & _ & H).
  match type of H with (if ?c then _ else _) = _ => destruct c end.
  - right. apply bind_ok in H as (mb & _ & H).
    apply place_osteps in H as (oracle & Eor & H & Hpg); [|eapply wsteps_sound; [exact E|exact Hs]|exact Hp|exact Hl].
    cbn [s_set_w s_w] in Eor. rewrite Em in Eor. exists oracle. split; [exact Eor|]. split; [|exact Hpg].
    eapply os_still; [exact E|rewrite Em; reflexivity|exact H].
  - left. injection H as <- _. cbn [s_set_w s_w]. split; [exact E|rewrite Em; reflexivity].
Qed.

Lemma take_osteps e s x o limit s' : params_sane (o_params o) -> 0 <= limit ->
  place_take_ix e s x o limit = Ok s' -> exists oracle, oracle_input (w_mkt (s_w s)) e = Ok oracle /\
  osteps None oracle (e_now e) [(o_side o, order_limit o oracle)] (s_w s) 0 0 (s_w s') 0 0.
Proof.
  intros Hp Hl H. unfold place_take_ix in H.
  apply bind_ok in H as (u1 & E1 & H). apply require_ok in E1. apply bind_ok in H as (u2 & E2 & H). apply require_ok in E2.
  cbv zeta in H. apply bind_ok in H as (u3 & _ & H).
  apply bind_ok in H as (now & En & H). apply now_u64_eq in En as [-> En]. apply bind_ok in H as (oracle & Eor & H).
  apply bind_ok in H as (u5 & E5 & H). apply require_ok in E5.
  apply bind_ok in H as ([w1 r] & Eo & H). apply bind_ok in H as (reb & Er & H). apply chk_u64_ok in Er as [-> Er].
  assert (Hn : acct_get (tx_signer x) (w_accts (s_w s)) = None) by (destruct (acct_get (tx_signer x) (w_accts (s_w s))); [discriminate E5|reflexivity]).
  exists oracle. split; [exact Eor|].
  eapply os_place; [constructor; [lia|lia|exact Hp]|right; split; [reflexivity|exact Hn]|exact Hl|exact En|exact Eo|reflexivity|].
  destruct (o_side o) eqn:Es.
  - apply bind_ok in H as (q & X1 & H). apply chk_u64_ok in X1 as [-> X1].
    apply bind_ok in H as (bt & X2 & H). apply chk_u64_ok in X2 as [-> X2].
    apply bind_ok in H as (qt & X3 & H). apply chk_u64_ok in X3 as [-> X3].
    apply bind_ok in H as (t1 & _ & H). apply bind_ok in H as (t2 & _ & H). injection H as <-. cbn [s_w s_closed].
    eapply os_still; [eapply wsteps_one; [apply ws_totals; [exact X2|exact X3]|reflexivity|reflexivity]|reflexivity|].
    match goal with |- osteps _ _ _ _ _ ?a ?b _ ?c ?d => replace a with c by (unfold owed_base, owed_quote; rewrite Es; lia); replace b with d by (unfold owed_base, owed_quote; rewrite Es; lia) end.
    apply os_nil.
  - apply bind_ok in H as (q & X1 & H). apply chk_u64_ok in X1 as [-> X1].
    apply bind_ok in H as (bt & X2 & H). apply chk_u64_ok in X2 as [-> X2].
    apply bind_ok in H as (qt & X3 & H). apply chk_u64_ok in X3 as [-> X3].
    apply bind_ok in H as (t1 & _ & H). apply bind_ok in H as (t2 & _ & H). injection H as <-. cbn [s_w s_closed].
    eapply os_still; [eapply wsteps_one; [apply ws_totals; [exact X2|exact X3]|reflexivity|reflexivity]|reflexivity|].
    match goal with |- osteps _ _ _ _ _ ?a ?b _ ?c ?d => replace a with c by (unfold owed_base, owed_quote; rewrite Es; lia); replace b with d by (unfold owed_base, owed_quote; rewrite Es; lia) end.
    apply os_nil.
Qed.

Lemma multi_one_params w x ub uq oracle now limit o ba qa w' ba' qa' id :
  world_sound w -> params_sane (o_params o) ->
  multi_one w x ub uq oracle now limit o ba qa = Ok (w', ba', qa', id) ->
  exists o' r, sane_order o' /\ o_side o' = o_side o /\ o_params o' = o_params o /\
    new_order w o' oracle (Some (mx_acct x)) (mx_acct x) now limit (mx_rem x) = Ok (w', r) /\
    ba' = ba + owed_base o' (Some (mx_acct x)) r /\ qa' = qa + owed_quote o' (Some (mx_acct x)) r.
Proof.
  intros [Hc Hs] Hp H. unfold multi_one in H.
  apply bind_ok in H as (capb & E1 & H). apply max_base_lots_nonneg in E1; [|exact Hc].
  apply bind_ok in H as (u2 & E2 & H). apply require_ok in E2.
  apply bind_ok in H as (a & Ea & H). apply bind_ok in H as (o' & Eo & H).
  pose proof (cs_bls _ Hc) as B1. pose proof (cs_qls _ Hc) as B2. unfold i64_max in B1, B2.
  assert (G : sane_order o' /\ o_side o' = o_side o /\ o_params o' = o_params o).
  { destruct (o_side o) eqn:Es.
    - apply bind_ok in Eo as (y & X & Eo). apply bind_ok in Eo as (av & X1 & Eo). apply chk_u64_ok in X1 as [-> X1].
      apply bind_ok in Eo as (l & X2 & Eo). apply max_lots_nonneg in X2; [|exact B2|lia]. injection Eo as <-.
      split; [constructor; cbn [o_max_base o_max_quote o_params]; [lia|lia|exact Hp]|split; reflexivity].
    - apply bind_ok in Eo as (y & X & Eo). apply bind_ok in Eo as (av & X1 & Eo). apply chk_u64_ok in X1 as [-> X1].
      apply bind_ok in Eo as (l & X2 & Eo). apply max_lots_nonneg in X2; [|exact B1|lia]. injection Eo as <-.
      split; [constructor; cbn [o_set_max_base o_max_base o_max_quote o_params]; [lia|lia|exact Hp]|split; [exact Es|reflexivity]]. }
  destruct G as (Go & Es' & Epr). apply bind_ok in H as ([w1 r] & En & H).
  exists o', r. destruct (o_side o) eqn:Es.
  - do 3 (let X := fresh in apply bind_ok in H as (? & X & H); apply chk_u64_ok in X as [-> ?]).
    apply bind_ok in H as (u5 & X & H). apply require_ok in X. injection H as <- <- <- <-.
    unfold owed_base, owed_quote. rewrite Es', Z.add_0_r. auto 10.
  - apply bind_ok in H as (x1 & X & H). apply chk_u64_ok in X as [-> _].
    apply bind_ok in H as (u5 & X & H). injection H as <- <- <- <-.
    unfold owed_base, owed_quote. rewrite Es', Z.add_0_r. auto 10.
Qed.

Lemma multi_loop_osteps os : forall w x ub uq oracle now limit ba qa w' ba' qa' ids,
  world_sound w -> Forall (fun o => params_sane (o_params o)) os -> 0 <= limit -> 0 <= now ->
  multi_loop w x ub uq oracle now limit os ba qa = Ok (w', ba', qa', ids) ->
  osteps (Some (mx_acct x)) oracle now (map (fun o => (o_side o, order_limit o oracle)) os) w ba qa w' ba' qa'.
Proof.
  induction os as [|o r IH]; intros w x ub uq oracle now limit ba qa w' ba' qa' ids Hs Ho Hl Hn H; cbn [multi_loop] in H.
  - injection H as <- <- <- _. constructor.
  - apply bind_ok in H as ([[[w1 b1] q1] i1] & E & H). inversion Ho as [|o0 r0 Ho1 Ho2]; subst.
    pose proof (multi_one_steps _ _ _ _ _ _ _ _ _ _ _ _ _ _ Hs Ho1 Hl Hn E) as Hst.
    apply multi_one_params in E as (o' & r' & Go & Es & Ep & En & -> & ->); [|exact Hs|exact Ho1].
    apply bind_ok in H as ([[[w2 b2] q2] i2] & E2 & H). injection H as <- <- <- _. cbn [map].
    replace (o_side o, order_limit o oracle) with (o_side o', order_limit o' oracle) by (unfold order_limit; rewrite Es, Ep; reflexivity).
    eapply os_place; [exact Go|left; reflexivity|exact Hl|exact Hn|exact En|reflexivity|].
    eapply IH; [eapply wstep_sound; [exact Hst|exact Hs]|exact Ho2|exact Hl|exact Hn|exact E2].
Qed.

Lemma osteps_app who oracle now L w db dq w1 db1 dq1 : osteps who oracle now L w db dq w1 db1 dq1 -> forall L' w2 db2 dq2,
  osteps who oracle now L' w1 db1 dq1 w2 db2 dq2 -> osteps who oracle now (L ++ L') w db dq w2 db2 dq2.
Proof.
  induction 1 as [w db dq|x L w db dq w2 db2 dq2 H IH
    |L w db dq o taker owner limit rem w1 r w2 db2 dq2 Ho Ht Hl Hn E Hw H IH
    |L w db dq w1 db1 dq1 w2 db2 dq2 H1 Hm H IH]; intros L' w3 db3 dq3 H'; cbn [app].
  - exact H'.
  - apply os_skip. apply IH. exact H'.
  - eapply os_place; [exact Ho|exact Ht|exact Hl|exact Hn|exact E|exact Hw|apply IH; exact H'].
  - eapply os_still; [exact H1|exact Hm|apply IH; exact H'].
Qed.

Lemma multi_osteps e s x cancel os limit s' ids : world_sound (s_w s) ->
  Forall (fun o => params_sane (o_params o)) os -> 0 <= limit ->
  multi_ix e s x cancel os limit = Ok (s', ids) -> exists oracle, oracle_input (w_mkt (s_w s)) e = Ok oracle /\
  osteps (Some (mx_acct x)) oracle (e_now e) (map (fun o => (o_side o, order_limit o oracle)) os) (s_w s) 0 0 (s_w s') 0 0.
Proof.
  intros Hs Ho Hl H. unfold multi_ix in H. cbv zeta in H. apply bind_ok in H as (u1 & _ & H).
  apply bind_ok in H as (now & En & H). apply now_u64_eq in En as [-> En]. apply bind_ok in H as (oracle & Eor & H).
  apply bind_ok in H as (w0 & E0 & H).
  assert (S0 : wsteps (Some (mx_acct x)) (s_w s) 0 0 w0 0 0 /\ m_seq (w_mkt w0) = m_seq (w_mkt (s_w s))).
  { destruct cancel; [|injection E0 as <-; split; [constructor|reflexivity]]. apply bind_ok in E0 as ([w' q] & E1 & E0). injection E0 as <-.
    split; [eapply cancel_orders_steps; exact E1|rewrite (cancel_orders_seq _ _ _ _ _ _ _ E1); reflexivity]. }
  destruct S0 as [S0 M0].
  apply bind_ok in H as (ub & _ & H). apply bind_ok in H as (uq & _ & H).
  apply bind_ok in H as ([[[w1 ba] qa] is] & E1 & H).
  apply multi_loop_osteps in E1; [|eapply wsteps_sound; [exact S0|exact Hs]|exact Ho|exact Hl|exact En].
  apply bind_ok in H as (a & Ea & H). apply acct_load_ok in Ea.
  apply bind_ok in H as (db & X1 & H). apply chk_u64_ok in X1 as [-> X1].
  apply bind_ok in H as (dq & X2 & H). apply chk_u64_ok in X2 as [-> X2].
  apply bind_ok in H as (fb & X3 & H). apply chk_u64_ok in X3 as [-> X3].
  apply bind_ok in H as (fq & X4 & H). apply chk_u64_ok in X4 as [-> X4].
  apply bind_ok in H as (bt & X5 & H). apply chk_u64_ok in X5 as [-> X5].
  apply bind_ok in H as (qt & X6 & H). apply chk_u64_ok in X6 as [-> X6].
  apply bind_ok in H as (p2 & E2 & H). apply bind_ok in H as (t1 & _ & H). apply bind_ok in H as (t2 & _ & H). injection H as <- _.
  cbn [s_w s_closed]. exists oracle. split; [exact Eor|].
  set (lb := Z.min ba (p_base_free (a_pos a))) in *. set (lq := Z.min qa (p_quote_free (a_pos a))) in *.
  set (p1 := p_set_quote_free (p_set_base_free (a_pos a) (p_base_free (a_pos a) - lb)) (p_quote_free (a_pos a) - lq)) in *.
  assert (Hp : exists pen, (u64_ok pen \/ pen = p_penalty (a_pos a)) /\ p2 = p_set_penalty p1 pen).
  { match type of E2 with (if ?c then _ else _) = _ => destruct c end.
    - apply bind_ok in E2 as (n & E2 & E3). apply chk_u64_ok in E2 as [-> R]. injection E3 as <-. eexists. split; [left; exact R|reflexivity].
    - injection E2 as <-. exists (p_penalty (a_pos a)). split; [right; reflexivity|reflexivity]. }
  destruct Hp as (pen & Rpen & ->).
  eapply os_still; [exact S0|exact M0|].
  rewrite <- (app_nil_r (map _ os)). eapply osteps_app; [exact E1|].
  eapply os_still; [eapply wsteps_one; [apply (ws_move _ w1 ba qa (mx_acct x) a (p_base_free (a_pos a) - lb) (p_quote_free (a_pos a) - lq) pen _ _ Ea
    (or_introl X3) (or_introl X4) Rpen (or_introl X5) (or_introl X6) eq_refl)|reflexivity|reflexivity]|reflexivity|].
  match goal with |- osteps _ _ _ _ _ ?a ?b _ ?c ?d => replace a with c by lia; replace b with d by lia end.
  apply os_nil.
Qed.

(** The orders built from the arguments are the wanted ones; those past their expiry are left out. *)
Lemma order_of_args_wants now g o oracle : order_of_args now g = Ok (Some o) ->
  o_side o = pa_side g /\ order_limit o oracle = worst_accepted (pa_type g) (pa_price g) /\
  forall a b c, o_params o <> OOraclePegged a b c.
Proof.
  intros H. unfold order_of_args in H. apply bind_ok in H as (u & E & H).
  destruct (tif_from_expiry now (pa_expiry g)); [|discriminate H]. apply bind_ok in H as (ps & E2 & H). injection H as <-.
  unfold order_limit. cbn [o_side o_params]. split; [reflexivity|].
  unfold params_of in E2. destruct (pa_type g); cbn in E2; injection E2 as <-; (split; [reflexivity|discriminate]).
Qed.
Lemma order_of_peg_wants m now g o oracle : order_of_peg_args m now g = Ok (Some o) ->
  o_side o = ga_side g /\ order_limit o oracle = option_map (fun op => op + ga_offset g) oracle /\
  exists b c, o_params o = OOraclePegged (ga_offset g) b c.
Proof.
  intros H. unfold order_of_peg_args in H. apply bind_ok in H as (u & E & H). apply bind_ok in H as (u2 & E2 & H).
  destruct (tif_from_expiry now (ga_expiry g)); [|discriminate H]. apply bind_ok in H as (pt & _ & H). injection H as <-.
  unfold order_limit. cbn [o_side o_params]. split; [reflexivity|]. split; [reflexivity|]. eexists. eexists. reflexivity.
Qed.
Lemma order_of_take_wants g o oracle : order_of_take_args g = Ok o ->
  o_side o = ta_side g /\ order_limit o oracle = worst_accepted (ta_type g) (ta_price g).
Proof.
  intros H. unfold order_of_take_args in H. apply bind_ok in H as (u & E & H). apply bind_ok in H as (ps & E2 & H). injection H as <-.
  unfold order_limit. cbn [o_side o_params]. split; [reflexivity|].
  destruct (ta_type g); cbn in E2; try discriminate E2; injection E2 as <-; reflexivity.
Qed.

(** The list [M], perhaps with more in between. *)
Lemma osteps_more who oracle now M L w db dq w' db' dq' : sublist M L -> osteps who oracle now M w db dq w' db' dq' ->
  osteps who oracle now L w db dq w' db' dq'.
Proof.
  intros Hs H. revert L Hs.
  induction H as [w db dq|x M w db dq w2 db2 dq2 H IH
    |M w db dq o taker owner limit rem w1 r w2 db2 dq2 Ho Ht Hl Hn E Hw H IH
    |M w db dq w1 db1 dq1 w2 db2 dq2 H1 Hm H IH]; intros L Hs.
  - induction L as [|y L IHL]; [apply os_nil|]. apply os_skip. apply IHL. constructor.
  - apply IH. remember (x :: M) as N eqn:EN. induction Hs as [l|y l m Hs IHs|y l m Hs IHs]; [discriminate EN| |].
    + injection EN as -> ->. apply sub_skip. exact Hs.
    + apply sub_skip. apply IHs. exact EN.
  - remember ((o_side o, order_limit o oracle) :: M) as N eqn:EN. induction Hs as [l|y l m Hs IHs|y l m Hs IHs]; [discriminate EN| |].
    + injection EN as -> ->. eapply os_place; [exact Ho|exact Ht|exact Hl|exact Hn|exact E|exact Hw|apply IH; exact Hs].
    + apply os_skip. apply IHs. exact EN.
  - eapply os_still; [exact H1|exact Hm|apply IH; exact Hs].
Qed.

Lemma orders_of_multi_wants now t sd oracle l : forall i os, orders_of_multi now t sd i l = Ok os ->
  sublist (map (fun o => (o_side o, order_limit o oracle)) os) (map (fun g => (sd, worst_accepted t (ua_price g))) l).
Proof.
  induction l as [|g r IH]; intros i os H; cbn [orders_of_multi] in H.
  - injection H as <-. constructor.
  - apply bind_ok in H as (u & _ & H). cbn [map].
    destruct (tif_from_expiry now (ua_expiry g)); [|apply sub_skip; eapply IH; exact H].
    apply bind_ok in H as (ps & E & H). apply bind_ok in H as (rest & E2 & H). injection H as <-. cbn [map].
    replace (o_side _, order_limit _ oracle) with (sd, worst_accepted t (ua_price g)).
    + apply sub_take. eapply IH. exact E2.
    + unfold order_limit. cbn [o_side o_params]. unfold params_of in E. destruct t; cbn in E; injection E as <-; reflexivity.
Qed.
Lemma sublist_app {A} (a b c d : list A) : sublist a b -> sublist c d -> sublist (a ++ c) (b ++ d).
Proof.
  intros H1 H2. induction H1 as [l|x l m H IH|x l m H IH]; cbn [app].
  - induction l as [|x l IH]; [exact H2|apply sub_skip; exact IH].
  - apply sub_take. exact IH.
  - apply sub_skip. exact IH.
Qed.

(** Instructions that place nothing give out no order number. *)
Lemma exec_still e s i s' out : is_placing i = false -> exec e s i = Ok (s', out) -> m_seq (w_mkt (s_w s')) = m_seq (w_mkt (s_w s)).
Proof.
  intros Hp H.
  unfold exec in H. destruct (s_closed s && needs_market i); [discriminate H|]. unfold exec_open in H. cbv zeta in H.
    destruct i as [| | | | | |u k' id|u k' c|u k' sd l|u l r|u l r|u k' ub uq b q|u k' ub uq b q|u k' ub uq ref|u k' ub uq ref|u r
      |k' ow dl n|u k'|u k' d|u|u k' l|u|au f t n|t n|k0 mi ow0|au k0 ow0|au k0 n|au k0]; try discriminate Hp; unfold lift_w, lift_s in H.
    + apply bind_ok in H as (w & E & H). injection H as <- _. cbn [s_set_w s_w s_tok]. 
      unfold cancel_order_ix in E. do 3 (apply bind_ok in E as (? & _ & E)). destruct (find_order_with_order_id _ _); [|discriminate].
      apply bind_ok in E as ([w1 l] & E & E'). injection E' as <-. apply book_cancel_mkt in E as [-> _]. reflexivity.
    + do 2 (apply bind_ok in H as (? & _ & H)). apply bind_ok in H as ([w q] & E & H). injection H as <- _. cbn [s_set_w s_w s_tok].
      rewrite (cancel_orders_seq _ _ _ _ _ _ _ E). reflexivity.
    + do 2 (apply bind_ok in H as (? & _ & H)). apply bind_ok in H as ([w q] & E & H). injection H as <- _. cbn [s_set_w s_w s_tok].
      rewrite (cancel_orders_seq _ _ _ _ _ _ _ E). reflexivity.
    + do 2 (apply bind_ok in H as (? & _ & H)). apply bind_ok in H as (w & E & H). injection H as <- _. cbn [s_set_w s_w s_tok]. 
      unfold consume_events_ix in E. apply bind_ok in E as (ss & _ & E). exact (consume_seq _ _ _ _ E).
    + do 2 (apply bind_ok in H as (? & _ & H)). apply bind_ok in H as (w & E & H). injection H as <- _. cbn [s_set_w s_w s_tok]. 
      unfold consume_events_ix in E. apply bind_ok in E as (ss & _ & E). exact (consume_seq _ _ _ _ E).
    + do 3 (apply bind_ok in H as (? & _ & H)). apply bind_ok in H as (s1 & E & H). unfold deposit_ix in E. cbv zeta in E.
      do 3 (apply bind_ok in E as (? & _ & E)). repeat (apply bind_ok in E as (? & _ & E)). injection E as <-. injection H as <- _. reflexivity.
    + do 3 (apply bind_ok in H as (? & _ & H)). apply bind_ok in H as (s1 & E & H). unfold refill_ix in E. do 3 (apply bind_ok in E as (? & _ & E)). unfold deposit_ix in E. cbv zeta in E.
      do 3 (apply bind_ok in E as (? & _ & E)). repeat (apply bind_ok in E as (? & _ & E)). injection E as <-. injection H as <- _. reflexivity.
    + apply bind_ok in H as (s1 & E & H). injection H as <- _. unfold settle_funds_ix in E. do 7 (apply bind_ok in E as (? & _ & E)).
       apply settle_inv in E as (a & t0 & t1 & t2 & _ & E). cbv zeta in E. destruct E as (_ & _ & _ & _ & ->). reflexivity.
    + apply bind_ok in H as (s1 & E & H). injection H as <- _. unfold settle_funds_expired_ix in E. do 8 (apply bind_ok in E as (? & _ & E)).
       apply settle_inv in E as (a & t0 & t1 & t2 & _ & E). cbv zeta in E. destruct E as (_ & _ & _ & _ & ->). reflexivity.
    + apply bind_ok in H as (s1 & E & H). injection H as <- _. unfold sweep_fees_ix in E. cbv zeta in E. do 3 (apply bind_ok in E as (? & _ & E)).
      apply bind_ok in E as (t1 & T & E). injection E as <-. reflexivity.
    + apply bind_ok in H as (w & E & H). injection H as <- _. unfold create_account_ix in E. do 2 (apply bind_ok in E as (? & _ & E)). injection E as <-. reflexivity.
    + apply bind_ok in H as (w & E & H). injection H as <- _. unfold close_account_ix in E. do 3 (apply bind_ok in E as (? & _ & E)). injection E as <-. reflexivity.
    + apply bind_ok in H as (w & E & H). injection H as <- _. unfold set_delegate_ix in E. do 2 (apply bind_ok in E as (? & _ & E)). injection E as <-. reflexivity.
    + apply bind_ok in H as (w & E & H). injection H as <- _. unfold set_market_expired_ix in E. do 2 (apply bind_ok in E as (? & _ & E)). injection E as <-. reflexivity.
    + apply bind_ok in H as (? & _ & H). apply bind_ok in H as (w & E & H). injection H as <- _. unfold prune_orders_ix in E. do 3 (apply bind_ok in E as (? & _ & E)).
      apply bind_ok in E as ([w1 q] & E & E'). injection E' as <-. cbn [s_set_w s_w s_tok]. rewrite (cancel_orders_seq _ _ _ _ _ _ _ E). reflexivity.
    + apply bind_ok in H as (w & _ & H). injection H as <- _. reflexivity.
    + apply bind_ok in H as (? & _ & H). apply bind_ok in H as (t1 & T & H). injection H as <- _. reflexivity.
    + do 3 (apply bind_ok in H as (? & _ & H)). injection H as <- _. reflexivity.
    + do 1 (apply bind_ok in H as (? & _ & H)). injection H as <- _. reflexivity.
    + do 3 (apply bind_ok in H as (? & _ & H)). injection H as <- _. reflexivity.
    + do 5 (apply bind_ok in H as (? & _ & H)). injection H as <- _. reflexivity.
    + do 4 (apply bind_ok in H as (? & _ & H)). injection H as <- _. reflexivity.
Qed.

Lemma exec_split e s i s' out : world_sound (s_w s) -> exec e s i = Ok (s', out) ->
  match i with ICloseAccount _ k => exists a, closes (s_w s) (s_w s') k a | _ => split_up e s i s' end.
Proof.
  intros Hs H. destruct (is_placing i) eqn:Hp.
  2:{ pose proof (exec_still _ _ _ _ _ Hp H) as Hm. apply exec_steps in H; [|exact Hs].
      destruct i; try discriminate Hp; try exact H; left; (split; [exact H|exact Hm]). }
  unfold exec in H. destruct (s_closed s && needs_market i); [discriminate H|].
  unfold exec_open in H. cbv zeta in H.
  destruct i as [x g|x g|x cid ex g|x cid ex g|x g|x cancel t bids asks limit| | | | | | | | | | | | | | | | | | | | | |]; try discriminate Hp; clear Hp.
  - apply bind_ok in H as (u1 & E1 & H). apply bind_ok in H as (u2 & _ & H). apply bind_ok in H as (now & _ & H).
    apply bind_ok in H as (oo & Eo & H). destruct oo as [o|]; [|injection H as <- _; left; split; [constructor|reflexivity]].
    unfold lift_id in H. apply bind_ok in H as ([s1 id] & E & H). injection H as <- _.
    apply check_place_ok in E1 as [E1 E2].
    apply place_osteps in E as (oracle & Eor & E & _); [|exact Hs|eapply order_of_args_sane; eassumption|exact E2].
    right. exists oracle. split; [exact Eor|]. destruct (order_of_args_wants _ _ _ oracle Eo) as (W1 & W2 & _). rewrite W1, W2 in E. exact E.
  - apply bind_ok in H as (u1 & E1 & H). apply bind_ok in H as (u2 & _ & H). apply bind_ok in H as (now & _ & H).
    apply bind_ok in H as (oo & Eo & H). destruct oo as [o|]; [|injection H as <- _; left; split; [constructor|reflexivity]].
    unfold lift_id in H. apply bind_ok in H as ([s1 id] & E & H). injection H as <- _.
    apply check_peg_ok in E1.
    apply place_osteps in E as (oracle & Eor & E & Hpg); [|exact Hs|eapply order_of_peg_sane; eassumption|exact E1].
    right. exists oracle. split; [exact Eor|]. destruct (order_of_peg_wants _ _ _ _ oracle Eo) as (W1 & W2 & b & c & W3). rewrite W1, W2 in E.
    cbn [wanted]. destruct oracle as [op|]; [exact E|]. exfalso. exact (Hpg eq_refl _ _ _ W3).
  - apply bind_ok in H as (u1 & E1 & H). apply bind_ok in H as (u2 & _ & H). apply bind_ok in H as (u3 & _ & H).
    apply bind_ok in H as (u4 & _ & H). apply bind_ok in H as (now & _ & H).
    apply bind_ok in H as (oo & Eo & H). destruct oo as [o|]; [|injection H as <- _; left; split; [constructor|reflexivity]].
    unfold lift_id in H. apply bind_ok in H as ([s1 id] & E & H). injection H as <- _.
    apply check_place_ok in E1 as [E1 E2].
    apply edit_osteps in E as [E|(oracle & Eor & E & _)]; [left; exact E| |exact Hs|eapply order_of_args_sane; eassumption|exact E2].
    right. exists oracle. split; [exact Eor|]. destruct (order_of_args_wants _ _ _ oracle Eo) as (W1 & W2 & _). rewrite W1, W2 in E. exact E.
  - apply bind_ok in H as (u1 & E1 & H). apply bind_ok in H as (u2 & _ & H). apply bind_ok in H as (u3 & _ & H).
    apply bind_ok in H as (u4 & _ & H). apply bind_ok in H as (now & _ & H).
    apply bind_ok in H as (oo & Eo & H). destruct oo as [o|]; [|injection H as <- _; left; split; [constructor|reflexivity]].
    unfold lift_id in H. apply bind_ok in H as ([s1 id] & E & H). injection H as <- _.
    apply check_peg_ok in E1.
    apply edit_osteps in E as [E|(oracle & Eor & E & Hpg)]; [left; exact E| |exact Hs|eapply order_of_peg_sane; eassumption|exact E1].
    right. exists oracle. split; [exact Eor|]. destruct (order_of_peg_wants _ _ _ _ oracle Eo) as (W1 & W2 & b & c & W3). rewrite W1, W2 in E.
    cbn [wanted]. destruct oracle as [op|]; [exact E|]. exfalso. exact (Hpg eq_refl _ _ _ W3).
  - apply bind_ok in H as (u1 & E1 & H). apply bind_ok in H as (u2 & _ & H). apply bind_ok in H as (u3 & _ & H).
    apply bind_ok in H as (o & Eo & H). unfold lift_s in H. apply bind_ok in H as (s1 & E & H). injection H as <- _.
    apply check_take_ok in E1 as [E1 E2]. apply take_osteps in E as (oracle & Eor & E); [|eapply order_of_take_sane; eassumption|exact E2].
    right. exists oracle. split; [exact Eor|]. destruct (order_of_take_wants _ _ oracle Eo) as (W1 & W2). rewrite W1, W2 in E. exact E.
  - apply bind_ok in H as (u1 & E1 & H). apply require_ok in E1. apply bind_ok in H as (u2 & E2 & H). apply u8_arg_ok in E2.
    apply bind_ok in H as (u3 & _ & H). apply bind_ok in H as (u4 & _ & H). apply bind_ok in H as (now & _ & H).
    apply bind_ok in H as (bo & B1 & H). apply bind_ok in H as (ao & B2 & H). apply bind_ok in H as ([s1 ids] & E & H). injection H as <- _.
    rewrite forallb_app in E1. apply andb_prop in E1 as [F1 F2].
    apply multi_osteps in E as (oracle & Eor & E); [|exact Hs| |exact E2].
    + right. exists oracle. split; [exact Eor|]. cbn [wanted actor]. eapply osteps_more; [|exact E]. rewrite map_app.
      apply sublist_app; eapply orders_of_multi_wants; eassumption.
    + apply Forall_app. split; [exact (orders_of_multi_sane _ _ _ _ _ _ F1 B1)|exact (orders_of_multi_sane _ _ _ _ _ _ F2 B2)].
Qed.

Lemma orders_persist e s i s' out sd t l : reachable s -> exec e s i = Ok (s', out) -> e_now e < 2 ^ 64 ->
  In (t, l) (orders (s_w s) sd) -> ~ acts_for i (lf_owner l) ->
  In (t, l) (orders (s_w s') sd) \/
  exists oracle, oracle_input (w_mkt (s_w s)) e = Ok oracle /\
    fate oracle (e_now e) (wanted oracle i) (s_w s) (s_w s') sd t l.
Proof.
  intros Hr H Hnow Hin Hown. pose proof (reachable_sound _ Hr) as Hs.
  destruct (reachable_inv _ Hr) as (cl & ct & P & HI).
  apply exec_split in H; [|exact Hs].
  assert (Hk : actor i <> Some (lf_owner l)) by (destruct i; cbn [acts_for actor] in *; congruence).
  assert (G : split_up e s i s' -> In (t, l) (orders (s_w s') sd) \/
    exists oracle, oracle_input (w_mkt (s_w s)) e = Ok oracle /\ fate oracle (e_now e) (wanted oracle i) (s_w s) (s_w s') sd t l).
  { clear H. intros [[H Hm]|(oracle & Eor & H)].
    - left. exact (proj1 (wsteps_keeps _ _ _ _ _ _ _ H _ _ _ HI Hm) _ _ _ Hk Hin).
    - right. exists oracle. split; [exact Eor|]. exact (osteps_fate _ _ _ _ _ _ _ _ _ _ H Hnow _ _ _ _ _ _ HI Hin Hk). }
  destruct i; try (exact (G H)).
  destruct H as (a & _ & _ & Ew). left. rewrite Ew. exact Hin.
Qed.

Lemma consume_book ss : forall w rem w', consume_loop w rem ss = Ok w' -> forall sd, w_book w' sd = w_book w sd.
Proof.
  induction ss as [|a ss IH]; intros w0 rem w' E sd; cbn [consume_loop] in E; [injection E as <-; reflexivity|].
  apply bind_ok in E as (w1 & E1 & E). rewrite (IH _ _ _ E). clear - E1. apply consume_one_inv in E1 as (ev & _ & E1). destruct ev as [f|o].
  - destruct (mem_key _ _); [|subst; reflexivity]. destruct E1 as (b & b' & m' & h' & x & _ & E2 & _ & ->). destruct sd; reflexivity.
  - destruct (mem_key _ _); [|subst; reflexivity]. destruct E1 as (b & b' & h' & x & _ & _ & _ & ->). destruct sd; reflexivity.
Qed.

Lemma book_untouched e s i s' out sd : never_touches_orders i = true -> exec e s i = Ok (s', out) ->
  w_book (s_w s') sd = w_book (s_w s) sd.
Proof.
  intros Hp H. unfold exec in H. destruct (s_closed s && needs_market i); [discriminate H|]. unfold exec_open in H. cbv zeta in H.
  destruct i as [| | | | | |u k' id|u k' c|u k' sd' l|u l r|u l r|u k' ub uq b q|u k' ub uq b q|u k' ub uq ref|u k' ub uq ref|u r
      |k' ow dl n|u k'|u k' d|u|u k' l|u|au f t n|t n|k0 mi ow0|au k0 ow0|au k0 n|au k0]; try discriminate Hp; unfold lift_w, lift_s in H.
    + do 2 (apply bind_ok in H as (? & _ & H)). apply bind_ok in H as (w & E & H). injection H as <- _. cbn [s_set_w s_w s_tok]. 
      unfold consume_events_ix in E. apply bind_ok in E as (ss & _ & E). exact (consume_book _ _ _ _ E sd).
    + do 2 (apply bind_ok in H as (? & _ & H)). apply bind_ok in H as (w & E & H). injection H as <- _. cbn [s_set_w s_w s_tok]. 
      unfold consume_events_ix in E. apply bind_ok in E as (ss & _ & E). exact (consume_book _ _ _ _ E sd).
    + do 3 (apply bind_ok in H as (? & _ & H)). apply bind_ok in H as (s1 & E & H). unfold deposit_ix in E. cbv zeta in E.
      do 3 (apply bind_ok in E as (? & _ & E)). repeat (apply bind_ok in E as (? & _ & E)). injection E as <-. injection H as <- _. destruct sd; reflexivity.
    + do 3 (apply bind_ok in H as (? & _ & H)). apply bind_ok in H as (s1 & E & H). unfold refill_ix in E. do 3 (apply bind_ok in E as (? & _ & E)). unfold deposit_ix in E. cbv zeta in E.
      do 3 (apply bind_ok in E as (? & _ & E)). repeat (apply bind_ok in E as (? & _ & E)). injection E as <-. injection H as <- _. destruct sd; reflexivity.
    + apply bind_ok in H as (s1 & E & H). injection H as <- _. unfold settle_funds_ix in E. do 7 (apply bind_ok in E as (? & _ & E)).
       apply settle_inv in E as (a & t0 & t1 & t2 & _ & E). cbv zeta in E. destruct E as (_ & _ & _ & _ & ->). destruct sd; reflexivity.
    + apply bind_ok in H as (s1 & E & H). injection H as <- _. unfold settle_funds_expired_ix in E. do 8 (apply bind_ok in E as (? & _ & E)).
       apply settle_inv in E as (a & t0 & t1 & t2 & _ & E). cbv zeta in E. destruct E as (_ & _ & _ & _ & ->). destruct sd; reflexivity.
    + apply bind_ok in H as (s1 & E & H). injection H as <- _. unfold sweep_fees_ix in E. cbv zeta in E. do 3 (apply bind_ok in E as (? & _ & E)).
      apply bind_ok in E as (t1 & T & E). injection E as <-. destruct sd; reflexivity.
    + apply bind_ok in H as (w & E & H). injection H as <- _. unfold create_account_ix in E. do 2 (apply bind_ok in E as (? & _ & E)). injection E as <-. destruct sd; reflexivity.
    + apply bind_ok in H as (w & E & H). injection H as <- _. unfold close_account_ix in E. do 3 (apply bind_ok in E as (? & _ & E)). injection E as <-. destruct sd; reflexivity.
    + apply bind_ok in H as (w & E & H). injection H as <- _. unfold set_delegate_ix in E. do 2 (apply bind_ok in E as (? & _ & E)). injection E as <-. destruct sd; reflexivity.
    + apply bind_ok in H as (w & E & H). injection H as <- _. unfold set_market_expired_ix in E. do 2 (apply bind_ok in E as (? & _ & E)). injection E as <-. destruct sd; reflexivity.
    + apply bind_ok in H as (w & _ & H). injection H as <- _. destruct sd; reflexivity.
    + apply bind_ok in H as (? & _ & H). apply bind_ok in H as (t1 & T & H). injection H as <- _. destruct sd; reflexivity.
    + do 3 (apply bind_ok in H as (? & _ & H)). injection H as <- _. destruct sd; reflexivity.
    + do 1 (apply bind_ok in H as (? & _ & H)). injection H as <- _. destruct sd; reflexivity.
    + do 3 (apply bind_ok in H as (? & _ & H)). injection H as <- _. destruct sd; reflexivity.
    + do 5 (apply bind_ok in H as (? & _ & H)). injection H as <- _. destruct sd; reflexivity.
    + do 4 (apply bind_ok in H as (? & _ & H)). injection H as <- _. destruct sd; reflexivity.
Qed.
Lemma orders_untouched e s i s' out sd : never_touches_orders i = true -> exec e s i = Ok (s', out) ->
  orders (s_w s') sd = orders (s_w s) sd.
Proof. intros Hp H. unfold orders. rewrite (book_untouched _ _ _ _ _ sd Hp H). reflexivity. Qed.
