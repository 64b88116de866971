(** How placing an order changes the ledger. *)
From Coq Require Import ZArith List Bool Lia ZifyBool Permutation.
From Verif Require Import Base Nodes OrderTree BookSide Heap Market OpenOrders Order Book
  BaseFacts HeapFacts TreeRep TreeFacts TreeOps TreeIter BookSideFacts BookSideOrder BookSpecProofs SpecBook SpecFees FeeFacts SpecOrder
  MatchFacts MatchBook OrderFacts PlaceFacts OrderSpecProofs Steps SpecLedger SpecEvents Ledger LedgerOps LedgerMoves.
Import ListNotations.
Open Scope Z_scope.

(** ** Pieces on the book and in the heap *)
Lemma pleaves_cons s p P : pleaves s (p :: P) =
  match p with PLeaf s' t l _ => if side_eqb s' s then [(t, l)] else [] | _ => [] end ++ pleaves s P.
Proof. reflexivity. Qed.
Lemma pleaves_app s P Q : pleaves s (P ++ Q) = pleaves s P ++ pleaves s Q.
Proof. apply flat_map_app. Qed.
Lemma pleaves_perm s P Q : Permutation P Q -> Permutation (pleaves s P) (pleaves s Q).
Proof. apply Permutation_flat_map. Qed.
Lemma pevents_app P Q : pevents (P ++ Q) = pevents P ++ pevents Q.
Proof. apply flat_map_app. Qed.
Lemma pevents_perm P Q : Permutation P Q -> Permutation (pevents P) (pevents Q).
Proof. apply Permutation_flat_map. Qed.

Lemma side_eqb_refl s : side_eqb s s = true.
Proof. destruct s; reflexivity. Qed.
Lemma side_eqb_inv s : side_eqb (invert_side s) s = false.
Proof. destruct s; reflexivity. Qed.
Lemma side_eqb_inv' s : side_eqb s (invert_side s) = false.
Proof. destruct s; reflexivity. Qed.
Lemma side_eqb_ok s u : side_eqb s u = true -> s = u.
Proof. destruct s, u; (reflexivity || discriminate). Qed.

Lemma in_pleaves s t l P : In (t, l) (pleaves s P) -> exists lp P', Permutation P (PLeaf s t l lp :: P').
Proof.
  unfold pleaves. intros H. apply in_flat_map in H as (p & Hp & H). destruct p as [s' t' l' lp|e lp id|f id]; [|destruct H|destruct H].
  destruct (side_eqb s' s) eqn:E; [|destruct H]. apply side_eqb_ok in E as ->. destruct H as [H|[]]. injection H as -> ->.
  apply in_split in Hp as (A & B & ->). exists lp, (A ++ B). symmetry. apply Permutation_middle.
Qed.

Definition hrep (h : heap) (P : list piece) : Prop :=
  exists L, heap_ok h L /\ Permutation (map fst L) (pevents P).
Lemma hrep_perm h P Q : Permutation (pevents P) (pevents Q) -> hrep h P -> hrep h Q.
Proof. intros H (L & H1 & H2). exists L. split; [exact H1|]. rewrite H2. exact H. Qed.
Lemma hrep_push h e h' P Q : push_back h e = Ok h' -> Permutation (pevents Q) (e :: pevents P) -> hrep h P -> hrep h' Q.
Proof.
  intros Hp HQ (L & (F & H1) & H2). destruct (push_back_rep _ _ _ _ _ H1 Hp) as (s & F' & _ & _ & H3 & _).
  exists (L ++ [(e, s)]). split; [exists F'; exact H3|]. rewrite map_app, HQ, H2. cbn [map fst].
  rewrite <- Permutation_cons_append. reflexivity.
Qed.

Definition ids_le (n : Z) (P : list piece) : Prop := forall p, In p P -> id_seq (pc_side p) (pc_id p) <= n.
Lemma ids_le_perm n P Q : Permutation P Q -> ids_le n P -> ids_le n Q.
Proof. intros H HP p Hp. apply HP. apply (Permutation_in _ (Permutation_sym H)). exact Hp. Qed.

(** Fees locked beyond the needs of the pieces. *)
Definition slack (m : market) (k : Z) (a : ooa) (P : list piece) : Z :=
  p_locked_fees (a_pos a) - psum (of_acct k (fee_need m)) P.

(** ** The next sequence number *)
Lemma led_seq m ac P : 0 <= m_seq m + 1 <= 18446744073709551615 -> Led m ac P -> Led (m_set_seq m (m_seq m + 1)) ac P.
Proof.
  intros Hs [L1 L2 L3 L4 L5 L6 L7]. constructor; auto.
  - destruct L1. constructor; auto.
  - intros k a Ha. destruct (L2 k a Ha) as [G1 G2 G3 G4 G5 G6 G7]. constructor; auto. destruct G1. constructor; auto.
  - intros p Hp. apply (piece_ok_cfg m); [reflexivity|cbn [m_seq m_set_seq]; lia|apply L3; exact Hp].
Qed.

(** ** Dropping orders *)
Lemma drop_led tk rem now s t l w w' P : drop_effect tk rem now s l w w' ->
  Led (w_mkt w) (w_accts w) P -> hrep (w_heap w) P -> In (t, l) (pleaves s P) ->
  w_mkt w' = w_mkt w /\ exists P', Led (w_mkt w') (w_accts w') P' /\ hrep (w_heap w') P' /\
    same_bal (w_mkt w) (w_accts w) P (w_mkt w') (w_accts w') P' 0 0 0 0 0 0 /\
    (forall u, u <> s -> Permutation (pleaves u P') (pleaves u P)) /\
    Permutation (pleaves s P) ((t, l) :: pleaves s P') /\ (forall n, ids_le n P -> ids_le n P') /\
    (forall k a, acct_get k (w_accts w) = Some a -> exists a', acct_get k (w_accts w') = Some a' /\
       slack (w_mkt w) k a' P' = slack (w_mkt w) k a P).
Proof.
  intros H HL Hh Hin. apply in_pleaves in Hin as (lp & P0 & HP).
  pose proof (led_perm _ _ _ _ HP HL) as HL0. pose proof (hrep_perm _ _ _ (pevents_perm _ _ HP) Hh) as Hh0.
  assert (EP : forall u, u <> s -> Permutation (pleaves u P0) (pleaves u P)).
  { intros u Hu. rewrite (pleaves_perm u _ _ HP), pleaves_cons.
    destruct (side_eqb s u) eqn:E; [apply side_eqb_ok in E; congruence|]. reflexivity. }
  assert (ES : Permutation (pleaves s P) ((t, l) :: pleaves s P0)).
  { rewrite (pleaves_perm s _ _ HP), pleaves_cons, side_eqb_refl. reflexivity. }
  assert (EI : forall n, ids_le n P -> ids_le n P0).
  { intros n Hn p Hp. apply (ids_le_perm _ _ _ HP Hn). right. exact Hp. }
  destruct H as [w a a' Hat Ha Hc|w h Hp].
  - (* applied at once *)
    destruct (led_drop _ _ _ _ _ _ _ now 0 HL0) as [HL1 B1].
    destruct (led_out (w_mkt w) (w_accts w) P0 (out_of s l now 0) lp (lf_key l) a HL1 Ha a' Hc) as (HL2 & B2 & Ea').
    split; [reflexivity|]. exists P0. cbn [w_set_acct w_set_accts w_mkt w_accts w_heap].
    split; [exact HL2|]. split; [exact Hh0|].
    split; [eapply same_bal_perm; [symmetry; exact HP|reflexivity|exact (same_bal_trans _ _ _ _ _ _ _ _ _ _ _ _ _ _ _ _ _ _ _ _ _ B1 B2)]|].
    split; [exact EP|]. split; [exact ES|]. split; [exact EI|].
    intros k b Hb. cbn [oe_owner out_of] in *. destruct (Z.eq_dec k (lf_owner l)) as [->|Hne].
    + rewrite Ha in Hb. injection Hb as <-. exists a'. split; [eapply get_set_same; exact Ha|].
      rewrite Ea'. unfold slack. rewrite (psum_perm _ _ _ HP), psum_cons, (of_acct_own _ _ (PLeaf s t l lp)) by reflexivity.
      unfold freed, cancelled_pos, fee_need. cbn [pc_side pc_qty pc_lp oe_side oe_qty out_of]. cbv zeta. destruct s; cbn [a_pos set_order_at a_set_orders a_set_pos p_locked_fees]; lia.
    + exists b. rewrite get_set_other by exact Hne. split; [exact Hb|].
      unfold slack. rewrite (psum_perm _ _ _ HP), psum_cons.
      replace (of_acct k (fee_need (w_mkt w)) (PLeaf s t l lp)) with 0; [lia|]. unfold of_acct. cbn [pc_owner].
      replace (lf_owner l =? k) with false by lia. reflexivity.
  - (* queued *)
    destruct (led_drop _ _ _ _ _ _ _ now (h_seq (w_heap w)) HL0) as [HL1 B1].
    split; [reflexivity|]. exists (POut (out_of s l now (h_seq (w_heap w))) lp (lf_key l) :: P0).
    cbn [w_set_heap w_mkt w_accts w_heap]. split; [exact HL1|].
    split; [eapply hrep_push; [exact Hp| |exact Hh0]; reflexivity|].
    split; [eapply same_bal_perm; [symmetry; exact HP|reflexivity|exact B1]|].
    split; [exact EP|]. split; [exact ES|].
    split.
    { intros n Hn p [<-|Hp']; [|apply EI; assumption]. cbn [pc_side pc_id oe_side out_of].
      apply (ids_le_perm _ _ _ HP Hn (PLeaf s t l lp)). left. reflexivity. }
    intros k b Hb. exists b. split; [exact Hb|]. unfold slack. rewrite (psum_perm _ _ _ HP), !psum_cons. reflexivity.
Qed.

Lemma drops_led tk rem now s w gone w' : drops tk rem now s w gone w' -> forall P R,
  Led (w_mkt w) (w_accts w) P -> hrep (w_heap w) P -> Permutation (pleaves s P) (R ++ gone) ->
  w_mkt w' = w_mkt w /\ exists P', Led (w_mkt w') (w_accts w') P' /\ hrep (w_heap w') P' /\
    same_bal (w_mkt w) (w_accts w) P (w_mkt w') (w_accts w') P' 0 0 0 0 0 0 /\
    (forall u, u <> s -> Permutation (pleaves u P') (pleaves u P)) /\
    Permutation (pleaves s P') R /\ (forall n, ids_le n P -> ids_le n P') /\
    (forall k a, acct_get k (w_accts w) = Some a -> exists a', acct_get k (w_accts w') = Some a' /\
       slack (w_mkt w) k a' P' = slack (w_mkt w) k a P).
Proof.
  induction 1 as [w|w t l w1 r w2 H1 _ IH]; intros P R HL Hh HP.
  - split; [reflexivity|]. exists P. split; [exact HL|]. split; [exact Hh|]. split; [apply same_bal_refl|].
    split; [reflexivity|]. split; [rewrite HP, app_nil_r; reflexivity|]. split; [auto|]. intros k a Ha. exists a. auto.
  - assert (Hin : In (t, l) (pleaves s P)).
    { apply (Permutation_in _ (Permutation_sym HP)). apply in_or_app. right. left. reflexivity. }
    destruct (drop_led _ _ _ _ _ _ _ _ _ H1 HL Hh Hin) as (E1 & P1 & HL1 & Hh1 & B1 & O1 & S1 & I1 & K1).
    destruct (IH P1 R HL1 Hh1) as (E2 & P2 & HL2 & Hh2 & B2 & O2 & S2 & I2 & K2).
    { rewrite S1 in HP. apply (Permutation_cons_inv (a := (t, l))). rewrite HP. symmetry. apply Permutation_middle. }
    split; [congruence|]. exists P2. split; [exact HL2|]. split; [exact Hh2|].
    split; [exact (same_bal_trans _ _ _ _ _ _ _ _ _ _ _ _ _ _ _ _ _ _ _ _ _ B1 B2)|].
    split; [intros u Hu; rewrite (O2 u Hu); auto|]. split; [exact S2|]. split; [auto|].
    intros k a Ha. destruct (K1 k a Ha) as (a1 & Ha1 & Ea1). destruct (K2 k a1 Ha1) as (a2 & Ha2 & Ea2).
    exists a2. split; [exact Ha2|]. rewrite E1 in Ea2. congruence.
Qed.

(** ** Matching *)
Definition act_self (owner : Z) (a : act) : bool := lf_owner (im_leaf (act_item a)) =? owner.
Definition act_rebate (m : market) (owner : Z) (a : act) : Z :=
  if act_self owner a then 0 else maker_gets m (act_quote a * qls m).
Definition act_fee (m : market) (owner : Z) (a : act) : Z :=
  if act_self owner a then 0 else maker_pays m (act_quote a * qls m).
Definition act_db (m : market) (s : side) (a : act) : Z :=
  match s with Bid => - (act_base a * bls m) | Ask => act_base a * bls m end.
Definition act_dq (m : market) (s : side) (owner : Z) (a : act) : Z :=
  match s with
  | Bid => act_quote a * qls m + act_rebate m owner a
  | Ask => act_rebate m owner a - act_quote a * qls m
  end.
Definition leaf_after (a : act) (t : otree_id) (l : leaf) : list (otree_id * leaf) :=
  match after_act a l with Some l' => [(t, l')] | None => [] end.

(** What is known of the item of a happening. *)
Record act_known (s : side) (m : market) (a : act) : Prop := {
  ak_fill : is_fill a = true -> 1 <= act_base a <= lf_qty (im_leaf (act_item a)) /\ 1 <= im_price (act_item a) /\
              act_quote a * qls m <= 9223372036854775807;
  ak_bid : is_fill a = true -> s = Bid -> match im_tree (act_item a) with
             | Fixed => im_price (act_item a) = lf_key (im_leaf (act_item a)) / 2 ^ 64
             | OraclePegged => im_price (act_item a) <= lf_peg_limit (im_leaf (act_item a))
             end }.

Lemma maker_gets_0 m : maker_gets m 0 = 0.
Proof. unfold maker_gets. destruct (_ <? _); reflexivity. Qed.
Lemma maker_pays_0 m : maker_pays m 0 = 0.
Proof. unfold maker_pays. destruct (_ <? _); reflexivity. Qed.

Lemma zero_act m s owner a : is_fill a = false ->
  act_db m s a = 0 /\ act_dq m s owner a = 0 /\ act_quote a * qls m = 0 /\ act_fee m owner a = 0.
Proof.
  intros E. assert (act_base a = 0 /\ act_quote a = 0) as [E1 E2] by (destruct a; [discriminate E|split; reflexivity|split; reflexivity]).
  unfold act_db, act_dq, act_rebate, act_fee. rewrite E1, E2, !Z.mul_0_l, maker_gets_0, maker_pays_0.
  destruct s, (act_self owner a); auto.
Qed.

Lemma effect_led o tk owner rem now w a w' P : effect o tk owner rem now w a w' ->
  let s := invert_side (o_side o) in let t := im_tree (act_item a) in let l := im_leaf (act_item a) in
  let m := w_mkt w in
  Led m (w_accts w) P -> hrep (w_heap w) P -> In (t, l) (pleaves s P) -> act_known s m a ->
  exists P' R, Led (w_mkt w') (w_accts w') P' /\ hrep (w_heap w') P' /\
    same_bal m (w_accts w) P (w_mkt w') (w_accts w') P'
      (act_db m (o_side o) a) (act_dq m (o_side o) owner a) (act_quote a * qls m) (act_fee m owner a) 0 0 /\
    Permutation (pleaves (o_side o) P') (pleaves (o_side o) P) /\
    Permutation (pleaves s P) ((t, l) :: R) /\ Permutation (pleaves s P') (leaf_after a t l ++ R) /\
    (forall n, ids_le n P -> ids_le n P').
Proof.
  intros H s t l m HL Hh Hin Hk.
  assert (Hfill : forall i q, a = AFill i q -> exists P0 lp, let f := fill_of o owner now (m_seq m) i q in
    Permutation P (PLeaf s t l lp :: P0) /\
    let Q' := PFill f (lf_key l) :: left_over s t l lp q in
    Led m (w_accts w) (Q' ++ P0) /\
    same_bal m (w_accts w) P m (w_accts w) (Q' ++ P0)
      (act_db m (o_side o) a) (act_dq m (o_side o) owner a) (act_quote a * qls m) (act_fee m owner a) 0 0).
  { intros i q ->. cbn [act_item] in *. destruct Hk as [K1 K2]. destruct (K1 eq_refl) as (K3 & K4 & K5). specialize (K2 eq_refl).
    cbn [act_base act_quote act_item] in *. fold l in K2, K3. fold t in K2.
    apply in_pleaves in Hin as (lp & P0 & HP). exists P0, lp. set (f := fill_of o owner now (m_seq m) i q). split; [exact HP|].
    pose proof (led_perm _ _ _ _ HP HL) as HL0.
    assert (Es : fill_side f = s) by reflexivity.
    destruct (led_fill m (w_accts w) P0 s t l lp f HL0 Es eq_refl eq_refl eq_refl eq_refl K3 K4 K5 K2) as [HL1 B1].
    split; [exact HL1|]. eapply same_bal_eq; [eapply same_bal_perm; [symmetry; exact HP|reflexivity|exact B1]|..]; try reflexivity.
    - unfold s. cbn [fe_qty f fill_of act_db act_base]. destruct (o_side o); reflexivity.
    - unfold act_dq, act_rebate, act_self, s. cbn [act_item act_quote]. fold l.
      unfold fill_rebate, fill_self, fill_quote. cbn [fe_qty fe_price fe_maker fe_taker f fill_of]. fold l.
      destruct (o_side o); cbn [invert_side]; lia. }
  assert (Hcut : forall lp P0, Permutation P (PLeaf s t l lp :: P0) ->
    Permutation (pleaves (o_side o) P0) (pleaves (o_side o) P) /\
    Permutation (pleaves s P) ((t, l) :: pleaves s P0)).
  { intros lp P0 HP. split.
    - rewrite (pleaves_perm (o_side o) _ _ HP), pleaves_cons. unfold s. rewrite side_eqb_inv. reflexivity.
    - rewrite (pleaves_perm s _ _ HP), pleaves_cons, side_eqb_refl. reflexivity. }
  assert (Hleft : forall q lp P0 f, a = AFill (act_item a) q -> fill_side f = s ->
    pleaves (o_side o) (left_over s t l lp q ++ P0) = pleaves (o_side o) P0 /\
    pleaves s (left_over s t l lp q ++ P0) = leaf_after a t l ++ pleaves s P0).
  { intros q lp P0 f Ea _. unfold leaf_after. rewrite Ea. cbn [after_act]. unfold left_over.
    destruct (lf_qty l =? q); [split; reflexivity|]. cbn [app]. rewrite !pleaves_cons. unfold s at 1.
    rewrite side_eqb_inv, side_eqb_refl. split; reflexivity. }
  assert (Hids : forall q lp P0 f, Permutation P (PLeaf s t l lp :: P0) -> fill_side f = s ->
    forall n, ids_le n P -> ids_le n (PFill f (lf_key l) :: left_over s t l lp q ++ P0)).
  { intros q lp P0 f HP Ef n Hn. pose proof (ids_le_perm _ _ _ HP Hn) as Hn'.
    assert (G : id_seq s (lf_key l) <= n) by (apply (Hn' (PLeaf s t l lp)); left; reflexivity).
    intros p [<-|Hp]; [cbn [pc_side pc_id]; rewrite Ef; exact G|].
    apply in_app_or in Hp as [Hp|Hp]; [|apply Hn'; right; exact Hp].
    unfold left_over in Hp. destruct (lf_qty l =? q); [destruct Hp|]. destruct Hp as [<-|[]]. exact G. }
  destruct H as [w i q b b' m' Hr Hb Hx|w i q h Hp|w i w' Hd|w i b b' Htk Hb Hc]; cbn [act_item] in *.
  - (* executed at once *)
    destruct (Hfill i q eq_refl) as (P0 & lp & HP & HL1 & B1). set (f := fill_of o owner now (m_seq m) i q) in *.
    cbn [app] in HL1, B1.
    destruct (led_exec m (w_accts w) _ f (lf_key l) b HL1 Hb b' m' Hx) as (HL2 & B2 & _).
    destruct (Hcut lp P0 HP) as [C1 C2]. destruct (Hleft q lp P0 f eq_refl eq_refl) as [D1 D2].
    exists (left_over s t l lp q ++ P0), (pleaves s P0). cbn [w_set_acct w_set_accts w_set_mkt w_mkt w_accts w_heap].
    split; [exact HL2|]. split.
    { eapply hrep_perm; [|exact Hh]. rewrite (pevents_perm _ _ HP). rewrite pevents_app. unfold left_over.
      destruct (lf_qty l =? q); reflexivity. }
    split; [eapply same_bal_eq; [exact (same_bal_trans _ _ _ _ _ _ _ _ _ _ _ _ _ _ _ _ _ _ _ _ _ B1 B2)|lia|lia|lia|lia|lia|lia]|].
    split; [rewrite D1; exact C1|]. split; [exact C2|]. split; [rewrite D2; reflexivity|].
    intros n Hn p Hp. apply (Hids q lp P0 f HP eq_refl n Hn). right. exact Hp.
  - (* queued *)
    destruct (Hfill i q eq_refl) as (P0 & lp & HP & HL1 & B1). set (f := fill_of o owner now (m_seq m) i q) in *.
    destruct (Hcut lp P0 HP) as [C1 C2]. destruct (Hleft q lp P0 f eq_refl eq_refl) as [D1 D2].
    exists ((PFill f (lf_key l) :: left_over s t l lp q) ++ P0), (pleaves s P0). cbn [w_set_heap w_mkt w_accts w_heap].
    split; [exact HL1|]. split.
    { eapply hrep_push; [exact Hp| |exact Hh]. rewrite (pevents_perm _ _ HP). cbn [app]. cbn [pevents flat_map].
      unfold left_over. destruct (lf_qty l =? q); reflexivity. }
    split; [exact B1|]. split; [cbn [app]; rewrite pleaves_cons; cbn [app]; rewrite D1; exact C1|]. split; [exact C2|].
    split; [cbn [app]; rewrite pleaves_cons; cbn [app]; rewrite D2; reflexivity|]. exact (Hids q lp P0 f HP eq_refl).
  - destruct (drop_led _ _ _ _ t _ _ _ P Hd HL Hh Hin) as (E1 & P1 & HL1 & Hh1 & B1 & O1 & S1 & I1 & _).
    exists P1, (pleaves s P1). split; [exact HL1|]. split; [exact Hh1|].
    destruct (zero_act m (o_side o) owner (ADrop i) eq_refl) as (Z1 & Z2 & Z3 & Z4). fold m. rewrite Z1, Z2, Z3, Z4.
    split; [exact B1|]. split; [apply O1; apply not_eq_sym; apply invert_neq|]. split; [exact S1|]. split; [reflexivity|exact I1].
  - assert (Hd : drop_effect tk rem now s l w (w_set_acct w (lf_owner l) b')).
    { apply (de_now tk rem now s l w b b'); [left; exact Htk|exact Hb|exact Hc]. }
    destruct (drop_led _ _ _ _ t _ _ _ P Hd HL Hh Hin) as (E1 & P1 & HL1 & Hh1 & B1 & O1 & S1 & I1 & _).
    exists P1, (pleaves s P1). split; [exact HL1|]. split; [exact Hh1|].
    destruct (zero_act m (o_side o) owner (AOwn i) eq_refl) as (Z1 & Z2 & Z3 & Z4). fold m. rewrite Z1, Z2, Z3, Z4.
    split; [exact B1|]. split; [apply O1; apply not_eq_sym; apply invert_neq|]. split; [exact S1|]. split; [reflexivity|exact I1].
Qed.

Lemma act_cfg m m' s owner a : m_cfg m' = m_cfg m ->
  act_db m' s a = act_db m s a /\ act_dq m' s owner a = act_dq m s owner a /\
  act_quote a * qls m' = act_quote a * qls m /\ act_fee m' owner a = act_fee m owner a /\
  (act_known s m a -> act_known s m' a).
Proof.
  intros E. unfold act_db, act_dq, act_rebate, act_fee, maker_gets, maker_pays, maker_fee, bls, qls.
  assert (G : act_known s m a -> act_known s m' a).
  { intros [K1 K2]. constructor; [|exact K2]. unfold qls in *. rewrite E. exact K1. }
  rewrite E. auto.
Qed.

(** The orders of a side with what is left of them. *)
Definition presidues (acts : list act) (L : list (otree_id * leaf)) : list (otree_id * leaf) :=
  flat_map (fun x => match residue acts (fst x) (snd x) with Some l' => [(fst x, l')] | None => [] end) L.
Definition lkey (x : otree_id * leaf) : otree_id * Z := (fst x, lf_key (snd x)).

Lemma presidues_pair acts t L : map (pair t) (residues acts t L) = presidues acts (map (pair t) L).
Proof.
  induction L as [|l L IH]; [reflexivity|]. cbn [residues map presidues flat_map fst snd].
  destruct (residue acts t l); cbn [map app]; rewrite IH; reflexivity.
Qed.
Lemma presidues_all acts T T2 : (forall t, oleaves (T2 t) = residues acts t (oleaves (T t))) ->
  all_leaves T2 = presidues acts (all_leaves T).
Proof.
  intros H. unfold all_leaves. rewrite !H, !presidues_pair. unfold presidues. rewrite flat_map_app. reflexivity.
Qed.
Lemma about_key a t l : about a t l = true <-> akey a = (t, lf_key l).
Proof.
  unfold about, akey. split.
  - intros H. apply andb_prop in H as [H1 H2]. apply Z.eqb_eq in H2. f_equal; [|exact H2].
    destruct (im_tree (act_item a)), t; (reflexivity || discriminate).
  - intros H. injection H as -> ->. rewrite Z.eqb_refl. destruct t; reflexivity.
Qed.
Lemma residue_none acts t l : ~ In (t, lf_key l) (map akey acts) -> residue acts t l = Some l.
Proof.
  induction acts as [|a r IH]; cbn [residue map]; intros H; [reflexivity|].
  destruct (about a t l) eqn:E; [apply about_key in E; exfalso; apply H; left; exact E|].
  apply IH. intros Hin. apply H. right. exact Hin.
Qed.
Lemma after_key a l l' : after_act a l = Some l' -> lf_key l' = lf_key l.
Proof.
  destruct a as [i q|i|i]; cbn [after_act]; [|discriminate|discriminate]. destruct (_ =? _); [discriminate|].
  intros E. injection E as <-. reflexivity.
Qed.

Lemma presidues_step a r t l R : akey a = (t, lf_key l) -> ~ In (akey a) (map akey r) -> ~ In (t, lf_key l) (map lkey R) ->
  presidues (a :: r) ((t, l) :: R) = presidues r (leaf_after a t l ++ R).
Proof.
  intros Ea Hr HR. unfold presidues. rewrite flat_map_app. cbn [flat_map fst snd]. f_equal.
  - cbn [residue]. rewrite (proj2 (about_key a t l) Ea). unfold leaf_after. destruct (after_act a l) as [l'|] eqn:E; [|reflexivity].
    cbn [flat_map fst snd app]. rewrite residue_none; [reflexivity|]. rewrite (after_key _ _ _ E), <- Ea. exact Hr.
  - clear Hr. induction R as [|[u x] R IH]; [reflexivity|]. cbn [map In] in HR. cbn [flat_map]. f_equal.
    + cbn [fst snd residue]. destruct (about a u x) eqn:E; [|reflexivity].
      apply about_key in E. rewrite Ea in E. exfalso. apply HR. left. symmetry. exact E.
    + apply IH. intros H. apply HR. right. exact H.
Qed.
Lemma presidues_perm acts L L' : Permutation L L' -> Permutation (presidues acts L) (presidues acts L').
Proof. apply Permutation_flat_map. Qed.

Lemma effects_led o tk owner rem now w acts w' : effects o tk owner rem now w acts w' -> forall P,
  let s := invert_side (o_side o) in let m := w_mkt w in
  Led m (w_accts w) P -> hrep (w_heap w) P -> NoDup (map lkey (pleaves s P)) -> NoDup (map akey acts) ->
  (forall a, In a acts -> In (im_tree (act_item a), im_leaf (act_item a)) (pleaves s P)) -> Forall (act_known s m) acts ->
  exists P', Led (w_mkt w') (w_accts w') P' /\ hrep (w_heap w') P' /\
    same_bal m (w_accts w) P (w_mkt w') (w_accts w') P'
      (sumZ (map (act_db m (o_side o)) acts)) (sumZ (map (act_dq m (o_side o) owner) acts))
      (quote_lots acts * qls m) (sumZ (map (act_fee m owner) acts)) 0 0 /\
    Permutation (pleaves (o_side o) P') (pleaves (o_side o) P) /\
    Permutation (pleaves s P') (presidues acts (pleaves s P)) /\
    (forall n, ids_le n P -> ids_le n P').
Proof.
  induction 1 as [w|w a w1 r w2 H1 _ IH]; intros P s m HL Hh Hnd Hak Hin Hk.
  - exists P. split; [exact HL|]. split; [exact Hh|]. split; [apply same_bal_refl|]. split; [reflexivity|].
    split; [|auto]. replace (presidues [] (pleaves s P)) with (pleaves s P); [reflexivity|].
    unfold presidues. clear. induction (pleaves s P) as [|[t l] L IHL]; [reflexivity|]. cbn [flat_map]. rewrite <- IHL at 1. reflexivity.
  - inversion Hk as [|a0 r0 Hk1 Hk2]; subst a0 r0. cbn [map] in Hak. inversion Hak as [|x y N1 N2]; subst x y.
    set (t := im_tree (act_item a)) in *. set (l := im_leaf (act_item a)) in *.
    destruct (effect_led o tk owner rem now w a w1 P H1 HL Hh (Hin a (or_introl eq_refl)) Hk1)
      as (P1 & R & HL1 & Hh1 & B1 & O1 & S1 & S1' & I1). fold s t l in S1, S1'.
    pose proof (effect_rest _ _ _ _ _ _ _ _ H1) as (_ & _ & Ec & _).
    assert (NR : ~ In (t, lf_key l) (map lkey R) /\ NoDup (map lkey R)).
    { pose proof (Permutation_NoDup (Permutation_map lkey S1) Hnd) as N. cbn [map] in N. inversion N; subst. auto. }
    destruct NR as [NR1 NR2].
    assert (Hnd1 : NoDup (map lkey (pleaves s P1))).
    { apply (Permutation_NoDup (Permutation_sym (Permutation_map lkey S1'))). rewrite map_app. unfold leaf_after.
      destruct (after_act a l) as [l'|] eqn:E; [|exact NR2]. cbn [map app]. constructor; [|exact NR2].
      unfold lkey at 1. cbn [fst snd]. rewrite (after_key _ _ _ E). exact NR1. }
    assert (Hin1 : forall b, In b r -> In (im_tree (act_item b), im_leaf (act_item b)) (pleaves s P1)).
    { intros b Hb. apply (Permutation_in _ (Permutation_sym S1')). apply in_or_app. right.
      pose proof (Hin b (or_intror Hb)) as G. apply (Permutation_in _ S1) in G. destruct G as [G|G]; [|exact G].
      exfalso. apply N1. apply in_map_iff. exists b. split; [|exact Hb]. unfold akey. injection G as G1 G2.
      unfold t in G1. unfold l in G2. rewrite <- G1, <- G2. reflexivity. }
    destruct (IH P1) as (P2 & HL2 & Hh2 & B2 & O2 & S2 & I2); try assumption.
    { apply Forall_forall. intros b Hb. rewrite Forall_forall in Hk2. apply (act_cfg m (w_mkt w1) s owner b Ec). apply Hk2. exact Hb. }
    exists P2. split; [exact HL2|]. split; [exact Hh2|]. split.
    { eapply same_bal_eq; [exact (same_bal_trans _ _ _ _ _ _ _ _ _ _ _ _ _ _ _ _ _ _ _ _ _ B1 B2)|..]; [| | | |reflexivity|reflexivity].
      - cbn [map sumZ fold_right]. f_equal. fold (sumZ (map (act_db m (o_side o)) r)). f_equal. apply map_ext. intros b.
        apply (act_cfg m (w_mkt w1) (o_side o) owner b Ec).
      - cbn [map sumZ fold_right]. f_equal. fold (sumZ (map (act_dq m (o_side o) owner) r)). f_equal. apply map_ext. intros b.
        apply (act_cfg m (w_mkt w1) (o_side o) owner b Ec).
      - rewrite quote_lots_cons. unfold qls. rewrite Ec. fold m. ring.
      - cbn [map sumZ fold_right]. f_equal. fold (sumZ (map (act_fee m owner) r)). f_equal. apply map_ext. intros b.
        apply (act_cfg m (w_mkt w1) s owner b Ec). }
    split; [rewrite O2; exact O1|]. split; [|auto].
    fold s in S2. rewrite S2. rewrite (presidues_perm _ _ _ S1'), (presidues_perm _ _ _ S1).
    rewrite presidues_step; [reflexivity|reflexivity|exact N1|exact NR1].
Qed.

(** ** The taker's side *)
Definition m_add_fees (m : market) (ra : Z) : market := m_set_fees_accrued m (m_fees_accrued m + ra).

Lemma led_pos m ac P m' k a a' : Led m ac P -> acct_get k ac = Some a ->
  m_cfg m' = m_cfg m -> m_seq m <= m_seq m' -> m_maker_volume m <= m_maker_volume m' -> mkt_ok m' ->
  a_orders a' = a_orders a -> pos_ok m' (a_pos a') ->
  p_bids_base (a_pos a') = p_bids_base (a_pos a) -> p_asks_base (a_pos a') = p_asks_base (a_pos a) ->
  p_bids_quote (a_pos a') = p_bids_quote (a_pos a) ->
  psum (of_acct k (fee_need m)) P <= p_locked_fees (a_pos a') ->
  m_rebates_accrued m' - p_rebates (a_pos a') = m_rebates_accrued m - p_rebates (a_pos a) ->
  Led m' (acct_set k a' ac) P.
Proof.
  intros HL Ha Hc Hs Hv Hm Ho Hp E1 E2 E3 E4 E5.
  destruct (ld_acct _ _ _ HL _ _ Ha) as [G1 G2 G3 G4 G5 G6 G7].
  assert (Hoa : forall i, order_at a' i = order_at a i) by (intros i; unfold order_at; rewrite Ho; reflexivity).
  apply (led_replace m ac [] P m' k a a' []); try assumption; try (intros p Hin; exact (False_ind _ Hin)); cbn [app].
  - constructor; try assumption; try congruence.
    + rewrite (fee_needs_cfg m m' Hc). exact E4.
    + intros i. rewrite G7. unfold used. rewrite Hoa. reflexivity.
  - intros p Hp' _ _. apply Hoa.
  - apply (ld_ids _ _ _ HL).
Qed.

Lemma led_mkt m ac P m' : Led m ac P -> m_cfg m' = m_cfg m -> m_seq m <= m_seq m' ->
  m_maker_volume m <= m_maker_volume m' -> mkt_ok m' -> m_rebates_accrued m' = m_rebates_accrued m -> Led m' ac P.
Proof.
  intros [L1 L2 L3 L4 L5 L6 L7] Hc Hs Hv Hm Hr. constructor; auto.
  - intros k a Ha. destruct (L2 k a Ha) as [G1 G2 G3 G4 G5 G6 G7]. constructor; auto.
    + destruct G1. constructor; auto. lia.
    + rewrite (fee_needs_cfg m m' Hc). exact G6.
  - intros p Hp. apply (piece_ok_cfg m m' Hc p Hs). apply L3. exact Hp.
  - congruence.
Qed.

Lemma mkt_ok_fees m ra : mkt_ok m -> 0 <= ra -> mkt_ok (m_add_fees m ra).
Proof. intros [M1 M2 M3 M4 M5 M6 M7 M8 M9 M10] H. constructor; try assumption. unfold m_add_fees. cbn [m_fees_accrued m_set_fees_accrued]. lia. Qed.

Lemma led_taker m ac P k a s bt qt tf ra a' m' : Led m ac P -> acct_get k ac = Some a ->
  0 <= bt -> 0 <= qt -> 0 <= ra ->
  execute_taker a (m_add_fees m ra) s bt qt tf ra = Ok (a', m') ->
  Led m' (acct_set k a' ac) P /\ m_cfg m' = m_cfg m /\ m_seq m' = m_seq m /\
  same_bal m ac P m' (acct_set k a' ac) P (match s with Bid => bt | Ask => 0 end)
    (match s with Bid => ra | Ask => qt - tf + ra end) 0 ra 0 qt.
Proof.
  intros HL Ha Hb Hq Hr H. pose proof (mkt_ok_fees _ ra (ld_mkt _ _ _ HL) Hr) as Hm.
  pose proof (ac_pos _ _ _ _ (ld_acct _ _ _ HL _ _ Ha)) as Hp.
  pose proof (ac_fees _ _ _ _ (ld_acct _ _ _ HL _ _ Ha)) as Hf.
  unfold execute_taker in H. cbv zeta in H. apply bind_ok in H as (p1 & E & H).
  apply bind_ok in H as (tv & E1 & H). apply chk_u128_ok in E1 as [-> R1].
  apply bind_ok in H as (rb & E1 & H). apply chk_u64_ok in E1 as [-> R2].
  apply bind_ok in H as (mr & E1 & H). apply chk_u64_ok in E1 as [-> R3]. injection H as <- <-.
  destruct Hp as [P1 P2 P3 P4 P5 P6 P7 P8]. destruct Hm as [M1 M2 M3 M4 M5 M6 M7 M8 M9 M10].
  assert (E2 : p1 = match s with Bid => p_set_base_free (a_pos a) (p_base_free (a_pos a) + bt)
                    | Ask => p_set_quote_free (a_pos a) (p_quote_free (a_pos a) + (qt - tf)) end /\
               u64_ok (p_base_free p1) /\ u64_ok (p_quote_free p1)).
  { destruct s.
    - apply bind_ok in E as (b & E & E2). apply chk_u64_ok in E as [-> R4]. injection E2 as <-. split; [reflexivity|]. split; assumption.
    - apply bind_ok in E as (d & E & E2). apply chk_u64_ok in E as [-> R4].
      apply bind_ok in E2 as (q & E & E2). apply chk_u64_ok in E as [-> R5]. injection E2 as <-. split; [reflexivity|]. split; assumption. }
  clear E. destruct E2 as (E2 & R4 & R5).
  assert (Hsame : p_taker_volume p1 = p_taker_volume (a_pos a) /\ p_rebates p1 = p_rebates (a_pos a) /\
    p_locked_fees p1 = p_locked_fees (a_pos a) /\ p_bids_base p1 = p_bids_base (a_pos a) /\ p_asks_base p1 = p_asks_base (a_pos a) /\
    p_bids_quote p1 = p_bids_quote (a_pos a) /\ p_penalty p1 = p_penalty (a_pos a) /\ p_maker_volume p1 = p_maker_volume (a_pos a)).
  { rewrite E2. destruct s; repeat split. }
  destruct Hsame as (S1 & S2 & S3 & S4 & S5 & S6 & S7 & S8). rewrite S1, S2 in *.
  split; [|split; [reflexivity|split; [reflexivity|]]].
  - apply (led_pos m ac P _ k a); try assumption; try reflexivity; try exact S4; try exact S5; try exact S6.
    + constructor; assumption.
    + constructor; cbn [a_pos a_set_pos p_base_free p_quote_free p_locked_fees p_rebates p_penalty p_maker_volume p_taker_volume p_bids_base p_asks_base p_bids_quote p_set_rebates p_set_taker_volume];
        rewrite ?S3, ?S4, ?S5, ?S6, ?S7, ?S8; try assumption. lia.
    + cbn [a_pos a_set_pos p_locked_fees p_set_rebates p_set_taker_volume]. rewrite S3. exact Hf.
    + cbn [a_pos a_set_pos p_rebates p_set_rebates p_set_taker_volume m_rebates_accrued m_set_rebates_accrued m_add_fees m_set_fees_accrued]. lia.
  - constructor; open_bal; rewrite ?(base_claims_cfg m (m_set_rebates_accrued (m_add_fees m ra) (m_rebates_accrued (m_add_fees m ra) + ra)) eq_refl),
      ?(quote_claims_cfg m (m_set_rebates_accrued (m_add_fees m ra) (m_rebates_accrued (m_add_fees m ra) + ra)) eq_refl),
      ?(vol_waits_cfg m (m_set_rebates_accrued (m_add_fees m ra) (m_rebates_accrued (m_add_fees m ra) + ra)) eq_refl),
      ?(fee_waits_cfg m (m_set_rebates_accrued (m_add_fees m ra) (m_rebates_accrued (m_add_fees m ra) + ra)) eq_refl),
      ?(asum_set _ _ _ _ _ Ha); subst p1; destruct s; unfold m_add_fees;
      cbn [m_base_total m_quote_total m_fees_available m_maker_volume m_fees_accrued m_taker_volume_wo_oo m_set_rebates_accrued m_set_fees_accrued
           a_pos a_set_pos p_base_free p_quote_free p_locked_fees p_rebates p_penalty p_maker_volume p_taker_volume p_set_rebates p_set_taker_volume
           p_set_base_free p_set_quote_free]; lia.
Qed.

Lemma led_taker_none m ac P qt ra : Led m ac P -> 0 <= qt -> 0 <= ra ->
  let m' := m_set_taker_volume_wo_oo (m_add_fees m ra) (m_taker_volume_wo_oo (m_add_fees m ra) + qt) in
  Led m' ac P /\ same_bal m ac P m' ac P 0 0 0 ra 0 qt.
Proof.
  intros HL Hq Hr m'. pose proof (mkt_ok_fees _ ra (ld_mkt _ _ _ HL) Hr) as [M1 M2 M3 M4 M5 M6 M7 M8 M9 M10].
  split.
  - apply (led_mkt m); try assumption; try reflexivity.
    + constructor; try assumption. unfold m'. cbn [m_taker_volume_wo_oo m_set_taker_volume_wo_oo]. lia.
  - constructor; open_bal; rewrite ?(base_claims_cfg m m' eq_refl), ?(quote_claims_cfg m m' eq_refl), ?(vol_waits_cfg m m' eq_refl), ?(fee_waits_cfg m m' eq_refl);
      unfold m', m_add_fees; cbn [m_base_total m_quote_total m_fees_available m_maker_volume m_fees_accrued m_taker_volume_wo_oo m_set_taker_volume_wo_oo m_set_fees_accrued]; lia.
Qed.

(** ** Posting *)
Lemma led_locks s w k mf w1 P : locks s w k mf w1 -> 0 <= mf -> (s = Ask -> mf = 0) ->
  Led (w_mkt w) (w_accts w) P -> (exists a, acct_get k (w_accts w) = Some a) ->
  w_mkt w1 = w_mkt w /\ w_heap w1 = w_heap w /\ Led (w_mkt w1) (w_accts w1) P /\
  same_bal (w_mkt w) (w_accts w) P (w_mkt w1) (w_accts w1) P 0 mf 0 0 0 0 /\
  exists a1, acct_get k (w_accts w1) = Some a1 /\ mf <= slack (w_mkt w) k a1 P.
Proof.
  intros H Hmf H0 HL (a & Ha). pose proof (ld_acct _ _ _ HL _ _ Ha) as Hac. pose proof (ac_fees _ _ _ _ Hac) as Hf.
  destruct s; cbn [locks] in H.
  - destruct H as (b & Hb & Hle & ->). rewrite Ha in Hb. injection Hb as <-.
    split; [reflexivity|]. split; [reflexivity|]. cbn [w_set_acct w_set_accts w_mkt w_accts].
    pose proof (ld_mkt _ _ _ HL) as Hm. pose proof (ac_pos _ _ _ _ Hac) as [P1 P2 P3 P4 P5 P6 P7 P8].
    split; [|split].
    + apply (led_pos (w_mkt w) _ P _ k a); try assumption; try reflexivity; try lia.
      * constructor; try assumption. cbn [p_locked_fees p_set_locked_fees a_pos a_set_pos]. unfold u64_ok in *. lia.
      * cbn [p_locked_fees p_set_locked_fees a_pos a_set_pos]. lia.
    + constructor; open_bal; rewrite ?(asum_set _ _ _ _ _ Ha); cbn [a_pos a_set_pos p_set_locked_fees p_base_free p_quote_free p_locked_fees p_rebates p_maker_volume p_taker_volume]; lia.
    + eexists. split; [eapply get_set_same; exact Ha|]. unfold slack. cbn [p_locked_fees p_set_locked_fees a_pos a_set_pos]. lia.
  - subst w1. rewrite (H0 eq_refl). split; [reflexivity|]. split; [reflexivity|]. split; [exact HL|]. split; [apply same_bal_refl|].
    exists a. split; [exact Ha|]. unfold slack. lia.
Qed.

Lemma find_free_ok l : forall i j, find_free l i = Some j ->
  exists oo, nth_error l (Z.to_nat (j - i)) = Some oo /\ oo_free oo = true /\ i <= j.
Proof.
  induction l as [|x l IH]; intros i j H; cbn [find_free] in H; [discriminate H|].
  destruct (oo_free x) eqn:E.
  - injection H as <-. exists x. rewrite Z.sub_diag. split; [reflexivity|]. split; [exact E|lia].
  - destruct (IH _ _ H) as (oo & H1 & H2 & H3). exists oo. split; [|split; [exact H2|lia]].
    replace (Z.to_nat (j - i)) with (S (Z.to_nat (j - (i + 1)))) by lia. exact H1.
Qed.
Lemma next_slot_ok a i : next_order_slot a = Ok i -> exists oo, order_at a i = Ok oo /\ oo_free oo = true.
Proof.
  unfold next_order_slot. destruct (find_free (a_orders a) 0) as [j|] eqn:E; [|discriminate].
  intros H. injection H as <-. apply find_free_ok in E as (oo & H1 & H2 & H3). exists oo. split; [|exact H2].
  unfold order_at, massert, require. replace (0 <=? j) with true by lia. cbn [bind]. rewrite Z.sub_0_r in H1. rewrite H1. reflexivity.
Qed.

Lemma led_post m ac P s t l k a a' cid lp : Led m ac P -> acct_get k ac = Some a ->
  next_order_slot a = Ok (lf_slot l) -> add_order a s t l cid lp = Ok a' ->
  lf_owner l = k -> piece_ok m (PLeaf s t l lp) -> ids_le (id_seq s (lf_key l) - 1) P ->
  (match s with Bid => maker_locks m (lf_qty l * lp * qls m) | Ask => 0 end) <= slack m k a P ->
  Led m (acct_set k a' ac) (PLeaf s t l lp :: P) /\
  same_bal m ac P m (acct_set k a' ac) (PLeaf s t l lp :: P)
    (match s with Bid => 0 | Ask => lf_qty l * bls m end) (match s with Bid => lf_qty l * lp * qls m | Ask => 0 end) 0 0 0 0.
Proof.
  intros HL Ha Hs Hadd Ho Hpk Hids Hsl.
  apply next_slot_ok in Hs as (oo & Hoo & Hfr). pose proof (order_at_nonneg _ _ _ Hoo) as Hi.
  unfold add_order in Hadd. cbv zeta in Hadd. apply bind_ok in Hadd as (p' & E & Hadd). apply bind_ok in Hadd as (u0 & _ & Hadd). injection Hadd as <-.
  destruct (ld_acct _ _ _ HL _ _ Ha) as [G1 G2 G3 G4 G5 G6 G7]. unfold slack in Hsl.
  assert (Ep : p' = match s with
     | Bid => p_set_bids_quote (p_set_bids_base (a_pos a) (p_bids_base (a_pos a) + lf_qty l)) (p_bids_quote (a_pos a) + lf_qty l * lp)
     | Ask => p_set_asks_base (a_pos a) (p_asks_base (a_pos a) + lf_qty l) end /\
     p_bids_base p' <= 9223372036854775807 /\ p_asks_base p' <= 9223372036854775807 /\ p_bids_quote p' <= 9223372036854775807).
  { pose proof (po_max _ _ G1) as (B1 & B2 & B3). destruct s.
    - apply bind_ok in E as (x & E & E2). apply chk_i64_ok in E as [-> R1].
      apply bind_ok in E2 as (y & E & E2). apply chk_i64_ok in E as [-> R2].
      apply bind_ok in E2 as (z & E & E2). apply chk_i64_ok in E as [-> R3]. injection E2 as <-. split; [reflexivity|].
      cbn [p_bids_base p_asks_base p_bids_quote p_set_bids_quote p_set_bids_base]. lia.
    - apply bind_ok in E as (x & E & E2). apply chk_i64_ok in E as [-> R1]. injection E2 as <-. split; [reflexivity|].
      cbn [p_bids_base p_asks_base p_bids_quote p_set_asks_base]. lia. }
  clear E. destruct Ep as (Ep & Hmax).
  assert (Hown : pc_owner (PLeaf s t l lp) = k) by exact Ho.
  split.
  - change (PLeaf s t l lp :: P) with ([PLeaf s t l lp] ++ P).
    apply (led_replace m ac [] P m k a _ [PLeaf s t l lp]); try exact HL; try exact Ha; try reflexivity; try lia.
    + intros p [].
    + intros p [<-|[]]. exact Ho.
    + apply (ld_mkt _ _ _ HL).
    + cbn [app]. constructor.
      * destruct G1 as [P1 P2 P3 P4 P5 P6 P7 P8]. cbn [set_order_at a_set_orders a_set_pos a_pos].
        subst p'. destruct s; (constructor; [assumption|assumption|assumption|assumption|assumption|assumption|assumption|exact Hmax]).
      * rewrite len_set. exact G2.
      * rewrite psum_cons, (of_side_own _ _ _ (PLeaf s t l lp)) by exact Hown. cbn [pc_side pc_qty set_order_at a_set_orders a_set_pos a_pos].
        subst p'. destruct s; cbn [side_eqb p_bids_base p_set_bids_quote p_set_bids_base p_set_asks_base]; lia.
      * rewrite psum_cons, (of_side_own _ _ _ (PLeaf s t l lp)) by exact Hown. cbn [pc_side pc_qty set_order_at a_set_orders a_set_pos a_pos].
        subst p'. destruct s; cbn [side_eqb p_asks_base p_set_bids_quote p_set_bids_base p_set_asks_base]; lia.
      * rewrite psum_cons, (of_side_own _ _ _ (PLeaf s t l lp)) by exact Hown. cbn [pc_side pc_qty pc_lp set_order_at a_set_orders a_set_pos a_pos].
        subst p'. destruct s; cbn [side_eqb p_bids_quote p_set_bids_quote p_set_bids_base p_set_asks_base]; lia.
      * rewrite psum_cons, (of_acct_own _ _ (PLeaf s t l lp)) by exact Hown. unfold fee_need at 1. cbn [pc_side pc_qty pc_lp set_order_at a_set_orders a_set_pos a_pos].
        subst p'. destruct s; cbn [p_locked_fees p_set_bids_quote p_set_bids_base p_set_asks_base]; lia.
      * intros i. specialize (G7 i). rewrite psum_cons. unfold in_slot at 1. cbn [pc_last pc_owner pc_slot andb]. rewrite Ho, Z.eqb_refl. cbn [andb].
        destruct (Z.eq_dec (lf_slot l) i) as [<-|Hne].
        -- rewrite (used_set_same _ _ oo) by exact Hoo. cbn [oo_free]. rewrite Z.eqb_refl.
           unfold used in G7. rewrite Hoo, Hfr in G7. lia.
        -- rewrite used_set_other by assumption. rewrite used_pos. replace (lf_slot l =? i) with false by lia. lia.
    + intros p [<-|[]]. exact Hpk.
    + intros p [<-|[]] _. cbn [pc_slot]. eexists. split; [eapply order_at_set_same; exact Hoo|]. repeat split.
    + intros p Hp Eo El. rewrite order_at_set_other; [apply order_at_pos| |exact Hi].
      intros E. specialize (G7 (lf_slot l)). unfold used in G7. rewrite Hoo, Hfr in G7.
      pose proof (psum_in (in_slot k (lf_slot l)) P p (fun r _ => in_slot_nonneg _ _ r) Hp) as G.
      rewrite E, <- Eo, (in_slot_own p El) in G. rewrite E, <- Eo in G7. lia.
    + intros u q. cbn [app]. rewrite psum_cons. unfold with_seq at 1. cbn [pc_last pc_side pc_id andb].
      pose proof (ld_ids _ _ _ HL u q) as G. destruct (side_eqb s u) eqn:Es; cbn [andb]; [|lia]. apply side_eqb_ok in Es as ->.
      destruct (Z.eqb_spec (id_seq u (lf_key l)) q) as [Eq|Nq]; [|lia].
      rewrite (psum_zero (with_seq u q)); [lia|]. intros p Hp. specialize (Hids p Hp). unfold with_seq.
      destruct (pc_last p); [|reflexivity]. destruct (side_eqb (pc_side p) u) eqn:Es; [|reflexivity]. apply side_eqb_ok in Es. rewrite Es in Hids.
      cbn [andb]. replace (id_seq u (pc_id p) =? q) with false by lia. reflexivity.
    + subst p'. destruct s; reflexivity.
  - assert (E1 : base_claim m (PLeaf s t l lp) = match s with Bid => 0 | Ask => lf_qty l * bls m end) by reflexivity.
    assert (E2 : quote_claim m (PLeaf s t l lp) = match s with Bid => lf_qty l * lp * qls m | Ask => 0 end) by reflexivity.
    assert (E3 : vol_wait m (PLeaf s t l lp) = 0) by reflexivity. assert (E4 : fee_wait m (PLeaf s t l lp) = 0) by reflexivity.
    constructor; open_bal; rewrite ?(asum_set _ _ _ _ _ Ha), ?psum_cons, ?E1, ?E2, ?E3, ?E4;
      cbn [set_order_at a_set_orders a_set_pos a_pos]; subst p'; destruct s;
      cbn [p_base_free p_quote_free p_locked_fees p_rebates p_maker_volume p_taker_volume p_set_bids_quote p_set_bids_base p_set_asks_base]; lia.
Qed.
