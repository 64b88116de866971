(** The ledger invariant: accounts and market totals against the pieces of orders. *)
From Coq Require Import ZArith List Bool Lia ZifyBool Permutation.
From Verif Require Import Base Nodes OrderTree BookSide Heap Market OpenOrders Order Book
  BaseFacts SpecBook SpecFees FeeFacts Steps SpecLedger.
Import ListNotations.
Open Scope Z_scope.

(** ** Sums *)
Lemma psum_nil f : psum f [] = 0.
Proof. reflexivity. Qed.
Lemma psum_cons f p P : psum f (p :: P) = f p + psum f P.
Proof. reflexivity. Qed.
Lemma psum_app f P Q : psum f (P ++ Q) = psum f P + psum f Q.
Proof. unfold psum. rewrite map_app. apply sumZ_app. Qed.
Lemma psum_perm f P Q : Permutation P Q -> psum f P = psum f Q.
Proof. induction 1; rewrite ?psum_cons; lia. Qed.
Lemma psum_ext f g P : (forall p, In p P -> f p = g p) -> psum f P = psum g P.
Proof.
  induction P as [|p P IH]; intros H; [reflexivity|]. rewrite !psum_cons, (H p (or_introl eq_refl)), IH; [reflexivity|].
  intros q Hq. apply H. right. exact Hq.
Qed.
Lemma psum_nonneg f P : (forall p, In p P -> 0 <= f p) -> 0 <= psum f P.
Proof.
  induction P as [|p P IH]; intros H; [rewrite psum_nil; lia|]. rewrite psum_cons.
  pose proof (H p (or_introl eq_refl)). pose proof (IH (fun q Hq => H q (or_intror Hq))). lia.
Qed.
Lemma psum_in f P p : (forall p, In p P -> 0 <= f p) -> In p P -> f p <= psum f P.
Proof.
  induction P as [|q P IH]; intros H Hin; [destruct Hin|]. rewrite psum_cons.
  pose proof (psum_nonneg f P (fun r Hr => H r (or_intror Hr))). pose proof (H q (or_introl eq_refl)).
  destruct Hin as [->|Hin]; [lia|]. pose proof (IH (fun r Hr => H r (or_intror Hr)) Hin). lia.
Qed.
Lemma psum_zero f P : (forall p, In p P -> f p = 0) -> psum f P = 0.
Proof. intros H. rewrite (psum_ext f (fun _ => 0) P H). clear. induction P; rewrite ?psum_cons, ?psum_nil; lia. Qed.
Lemma psum_exists f P : psum f P <> 0 -> exists p, In p P /\ f p <> 0.
Proof.
  induction P as [|p P IH]; intros H; [rewrite psum_nil in H; lia|]. rewrite psum_cons in H.
  destruct (Z.eq_dec (f p) 0) as [E|E]; [|exists p; split; [left; reflexivity|exact E]].
  destruct IH as (q & Hq & Eq); [lia|]. exists q. split; [right; exact Hq|exact Eq].
Qed.

Lemma asum_set f k a v ac : acct_get k ac = Some a -> asum f (acct_set k v ac) = asum f ac - f (a_pos a) + f (a_pos v).
Proof.
  unfold asum. induction ac as [|[k' x] r IH]; cbn [acct_get acct_set]; intros H; [discriminate|].
  destruct (k =? k'); cbn [map snd sumZ fold_right]; fold (sumZ (map (fun ka : Z * ooa => f (a_pos (snd ka))) r)).
  - injection H as ->. lia.
  - fold (sumZ (map (fun ka : Z * ooa => f (a_pos (snd ka))) (acct_set k v r))). rewrite (IH H). lia.
Qed.
Lemma asum_del f k a ac : acct_get k ac = Some a -> asum f (acct_del k ac) = asum f ac - f (a_pos a).
Proof.
  unfold asum. induction ac as [|[k' x] r IH]; cbn [acct_get acct_del]; intros H; [discriminate|].
  destruct (k =? k'); cbn [map snd sumZ fold_right]; fold (sumZ (map (fun ka : Z * ooa => f (a_pos (snd ka))) r)).
  - injection H as ->. lia.
  - fold (sumZ (map (fun ka : Z * ooa => f (a_pos (snd ka))) (acct_del k r))). rewrite (IH H). lia.
Qed.
Lemma asum_cons f k a ac : asum f ((k, a) :: ac) = f (a_pos a) + asum f ac.
Proof. reflexivity. Qed.
Lemma acct_get_in k ac a : acct_get k ac = Some a -> In (k, a) ac.
Proof.
  induction ac as [|[k' x] r IH]; cbn [acct_get]; intros H; [discriminate|].
  destruct (k =? k') eqn:E; [|right; auto]. injection H as ->. apply Z.eqb_eq in E as ->. left. reflexivity.
Qed.

Lemma acct_in_get k ac a : NoDup (map fst ac) -> In (k, a) ac -> acct_get k ac = Some a.
Proof.
  induction ac as [|[k' x] r IH]; intros Hk Hin; [destruct Hin|].
  inversion Hk as [|? ? N1 N2]; subst. cbn [acct_get]. destruct Hin as [E|Hin].
  - injection E as -> ->. rewrite Z.eqb_refl. reflexivity.
  - replace (k =? k') with false; [auto|]. symmetry. apply Z.eqb_neq. intros ->. apply N1.
    apply (in_map fst) in Hin. exact Hin.
Qed.
Lemma asum_nonneg f ac : NoDup (map fst ac) -> (forall k b, acct_get k ac = Some b -> 0 <= f (a_pos b)) -> 0 <= asum f ac.
Proof.
  intros Hk Hf. apply sumZ_nonneg. intros z Hz. apply in_map_iff in Hz as ([k b] & <- & Hz). cbn [snd].
  apply (Hf k b). apply acct_in_get; assumption.
Qed.
Lemma asum_del_le f k a ac : NoDup (map fst ac) -> acct_get k ac = Some a ->
  (forall j b, acct_get j ac = Some b -> 0 <= f (a_pos b)) -> f (a_pos a) <= asum f ac.
Proof.
  unfold asum. intros Hk Ha Hf.
  assert (Hn : forall j b, In (j, b) ac -> 0 <= f (a_pos b)) by (intros j b Hin; apply (Hf j b); apply acct_in_get; assumption).
  clear Hf Hk. apply acct_get_in in Ha. induction ac as [|[k' x] r IH]; [destruct Ha|].
  cbn [map snd sumZ fold_right]. fold (sumZ (map (fun ka : Z * ooa => f (a_pos (snd ka))) r)).
  assert (0 <= sumZ (map (fun ka : Z * ooa => f (a_pos (snd ka))) r)).
  { apply sumZ_nonneg. intros z Hz. apply in_map_iff in Hz as ([j b] & <- & Hz). cbn [snd]. apply (Hn j b). right. exact Hz. }
  destruct Ha as [E|Ha]; [injection E as _ ->; lia|]. pose proof (Hn k' x (or_introl eq_refl)).
  specialize (IH Ha (fun j b H => Hn j b (or_intror H))). lia.
Qed.

Lemma get_set_same k v ac a : acct_get k ac = Some a -> acct_get k (acct_set k v ac) = Some v.
Proof.
  induction ac as [|[k' x] r IH]; cbn [acct_get acct_set]; intros H; [discriminate|].
  destruct (k =? k') eqn:E; cbn [acct_get]; rewrite E; auto.
Qed.
Lemma get_set_other k k' v ac : k' <> k -> acct_get k' (acct_set k v ac) = acct_get k' ac.
Proof.
  intros Hn. induction ac as [|[j x] r IH]; [reflexivity|]. cbn [acct_get acct_set].
  destruct (k =? j) eqn:E; cbn [acct_get].
  - apply Z.eqb_eq in E as <-. replace (k' =? k) with false by lia. reflexivity.
  - destruct (k' =? j); auto.
Qed.
Lemma set_get_id k ac a : acct_get k ac = Some a -> acct_set k a ac = ac.
Proof.
  induction ac as [|[k' x] r IH]; cbn [acct_get acct_set]; intros H; [reflexivity|].
  destruct (k =? k') eqn:E; [injection H as ->; reflexivity|]. rewrite IH by exact H. reflexivity.
Qed.

(** ** The invariant *)
Record mkt_ok (m : market) : Prop := {
  mk_cfg : cfg_sound (m_cfg m);
  mk_base : u64_ok (m_base_total m);
  mk_quote : u64_ok (m_quote_total m);
  mk_avail : u64_ok (m_fees_available m);
  mk_reb : u64_ok (m_rebates_accrued m);
  mk_seq : u64_ok (m_seq m);
  mk_accr : 0 <= m_fees_accrued m;
  mk_ref : 0 <= m_fees_to_referrers m;
  mk_mv : 0 <= m_maker_volume m;
  mk_tv : 0 <= m_taker_volume_wo_oo m }.

Record pos_ok (m : market) (p : position) : Prop := {
  po_bf : u64_ok (p_base_free p);
  po_qf : u64_ok (p_quote_free p);
  po_lf : u64_ok (p_locked_fees p);
  po_rb : u64_ok (p_rebates p);
  po_pn : u64_ok (p_penalty p);
  po_mv : 0 <= p_maker_volume p <= m_maker_volume m;
  po_tv : 0 <= p_taker_volume p;
  po_max : p_bids_base p <= 9223372036854775807 /\ p_asks_base p <= 9223372036854775807 /\
           p_bids_quote p <= 9223372036854775807 }.

(** 1 if slot [i] is in use. *)
Definition used (a : ooa) (i : Z) : Z :=
  match order_at a i with Ok oo => if oo_free oo then 0 else 1 | Err _ => 0 end.

Record acct_ok (m : market) (k : Z) (a : ooa) (P : list piece) : Prop := {
  ac_pos : pos_ok m (a_pos a);
  ac_len : length (a_orders a) = MAX_OPEN_ORDERS;
  ac_bids : p_bids_base (a_pos a) = psum (of_side k Bid pc_qty) P;
  ac_asks : p_asks_base (a_pos a) = psum (of_side k Ask pc_qty) P;
  ac_bidq : p_bids_quote (a_pos a) = psum (of_side k Bid (fun p => pc_qty p * pc_lp p)) P;
  ac_fees : psum (of_acct k (fee_need m)) P <= p_locked_fees (a_pos a);
  ac_slots : forall i, psum (in_slot k i) P = used a i }.

(** The slot of a piece's order. *)
Definition slot_of (oo : open_order) (p : piece) : Prop :=
  oo_free oo = false /\ oo_side oo = pc_side p /\ oo_id oo = pc_id p /\
  match p with
  | PLeaf _ t _ lp => oo_locked_price oo = lp /\ oo_tree oo = t
  | POut _ lp _ => oo_locked_price oo = lp
  | PFill f _ => fill_side f = Bid -> oo_locked_price oo = fill_lp f
  end.

Record piece_ok (m : market) (p : piece) : Prop := {
  pk_qty : 0 < pc_qty p;
  pk_lp : 1 <= pc_lp p;
  pk_base : pc_qty p * bls m <= 9223372036854775807;
  pk_quote : pc_qty p * pc_lp p * qls m <= 9223372036854775807;
  pk_seq : 1 <= id_seq (pc_side p) (pc_id p) <= m_seq m;
  pk_kind : match p with
            | PLeaf Bid Fixed l lp => lp = lf_key l / 2 ^ 64 /\ lf_peg_limit l = -1
            | PLeaf Bid OraclePegged l lp => lp = lf_peg_limit l
            | PFill f _ => 1 <= fe_price f /\ fill_quote m f <= 9223372036854775807 /\
                           (fill_side f = Bid -> fe_price f <= fill_lp f)
            | _ => True
            end }.

Record Led (m : market) (ac : accounts) (P : list piece) : Prop := {
  ld_mkt : mkt_ok m;
  ld_acct : forall k a, acct_get k ac = Some a -> acct_ok m k a P;
  ld_piece : forall p, In p P -> piece_ok m p;
  ld_back : forall p, In p P -> exists a, acct_get (pc_owner p) ac = Some a /\
              (pc_last p = true -> exists oo, order_at a (pc_slot p) = Ok oo /\ slot_of oo p);
  ld_ids : forall s q, psum (with_seq s q) P <= 1;
  ld_reb : m_rebates_accrued m = asum p_rebates ac;
  ld_keys : NoDup (map fst ac) }.

(** Balances: zero gaps mean that claims equal the recorded deposits. *)
Definition base_gap (m : market) (ac : accounts) (P : list piece) : Z :=
  asum p_base_free ac + psum (base_claim m) P - m_base_total m.
Definition quote_gap (m : market) (ac : accounts) (P : list piece) : Z :=
  asum p_quote_free ac + asum p_locked_fees ac + asum p_rebates ac + m_fees_available m
  + psum (quote_claim m) P - m_quote_total m.
(** Maker volume including waiting fills, accrued fees including those of waiting fills,
    maker volume beyond that of the accounts, and taker volume. *)
Definition vol_all (m : market) (P : list piece) : Z := m_maker_volume m + psum (vol_wait m) P.
Definition fee_all (m : market) (P : list piece) : Z := m_fees_accrued m + psum (fee_wait m) P.
Definition vol_lost (m : market) (ac : accounts) : Z := m_maker_volume m - asum p_maker_volume ac.
Definition vol_taken (m : market) (ac : accounts) : Z := asum p_taker_volume ac + m_taker_volume_wo_oo m.

Record same_bal (m : market) (ac : accounts) (P : list piece) (m' : market) (ac' : accounts) (P' : list piece)
  (db dq dv df dl dt : Z) : Prop := {
  sb_base : base_gap m' ac' P' = base_gap m ac P + db;
  sb_quote : quote_gap m' ac' P' = quote_gap m ac P + dq;
  sb_vol : vol_all m' P' = vol_all m P + dv;
  sb_fee : fee_all m' P' = fee_all m P + df;
  sb_lost : vol_lost m' ac' = vol_lost m ac + dl;
  sb_taken : vol_taken m' ac' = vol_taken m ac + dt }.

(** ** Only the configuration matters for claims *)
Section SameCfg.
Variables m m' : market.
Hypothesis Hc : m_cfg m' = m_cfg m.
Lemma claims_cfg p : base_claim m' p = base_claim m p /\ quote_claim m' p = quote_claim m p /\
  fee_need m' p = fee_need m p /\ vol_wait m' p = vol_wait m p /\ fee_wait m' p = fee_wait m p.
Proof using Hc.
  unfold base_claim, quote_claim, fee_need, vol_wait, fee_wait, fill_rebate, fill_fee, fill_locked, fill_quote,
    maker_gets, maker_pays, maker_locks, maker_fee, bls, qls. rewrite !Hc. auto.
Qed.
Lemma base_claims_cfg P : psum (base_claim m') P = psum (base_claim m) P.
Proof using Hc. apply psum_ext. intros p _. apply claims_cfg. Qed.
Lemma quote_claims_cfg P : psum (quote_claim m') P = psum (quote_claim m) P.
Proof using Hc. apply psum_ext. intros p _. apply claims_cfg. Qed.
Lemma vol_waits_cfg P : psum (vol_wait m') P = psum (vol_wait m) P.
Proof using Hc. apply psum_ext. intros p _. apply claims_cfg. Qed.
Lemma fee_waits_cfg P : psum (fee_wait m') P = psum (fee_wait m) P.
Proof using Hc. apply psum_ext. intros p _. apply claims_cfg. Qed.
Lemma fee_needs_cfg k P : psum (of_acct k (fee_need m')) P = psum (of_acct k (fee_need m)) P.
Proof using Hc. apply psum_ext. intros p _. unfold of_acct. destruct (claims_cfg p) as (_ & _ & -> & _). reflexivity. Qed.
Lemma piece_ok_cfg p : m_seq m <= m_seq m' -> piece_ok m p -> piece_ok m' p.
Proof using Hc.
  intros Hs [H1 H2 H3 H4 H5 H6]. constructor; try assumption; try (unfold bls, qls in *; rewrite Hc; assumption); [lia|].
  unfold fill_quote, qls in *. rewrite Hc. exact H6.
Qed.
End SameCfg.

Lemma of_acct_perm_other k f Q : (forall p, In p Q -> pc_owner p <> k) -> psum (of_acct k f) Q = 0.
Proof. intros H. apply psum_zero. intros p Hp. unfold of_acct. replace (pc_owner p =? k) with false by (specialize (H p Hp); lia). reflexivity. Qed.
Lemma of_side_other k s f Q : (forall p, In p Q -> pc_owner p <> k) -> psum (of_side k s f) Q = 0.
Proof. intros H. apply psum_zero. intros p Hp. unfold of_side. replace (pc_owner p =? k) with false by (specialize (H p Hp); lia). reflexivity. Qed.
Lemma in_slot_other k i Q : (forall p, In p Q -> pc_owner p <> k) -> psum (in_slot k i) Q = 0.
Proof. intros H. apply psum_zero. intros p Hp. unfold in_slot. replace (pc_owner p =? k) with false by (specialize (H p Hp); lia). rewrite andb_false_r. reflexivity. Qed.

Lemma led_perm m ac P Q : Permutation P Q -> Led m ac P -> Led m ac Q.
Proof.
  intros HP [H1 H2 H3 H4 H5 H6 H7]. constructor; auto.
  - intros k a Ha. destruct (H2 k a Ha) as [G1 G2 G3 G4 G5 G6 G7].
    constructor; auto; try (rewrite <- (psum_perm _ _ _ HP); assumption).
    intros i. rewrite <- (psum_perm _ _ _ HP). apply G7.
  - intros p Hp. apply H3. apply (Permutation_in _ (Permutation_sym HP)). exact Hp.
  - intros p Hp. apply H4. apply (Permutation_in _ (Permutation_sym HP)). exact Hp.
  - intros s q. rewrite <- (psum_perm _ _ _ HP). apply H5.
Qed.

(** ** Replacing the pieces of one account *)
Lemma nodup_set k v ac : NoDup (map fst ac) -> NoDup (map fst (acct_set k v ac)).
Proof.
  assert (E : map fst (acct_set k v ac) = map fst ac).
  { induction ac as [|[k' x] r IH]; [reflexivity|]. cbn [acct_set]. destruct (k =? k'); cbn [map fst]; congruence. }
  rewrite E. auto.
Qed.

Lemma led_replace m ac Q P m' k a a' Q' :
  Led m ac (Q ++ P) -> acct_get k ac = Some a ->
  (forall p, In p Q -> pc_owner p = k) -> (forall p, In p Q' -> pc_owner p = k) ->
  m_cfg m' = m_cfg m -> m_seq m <= m_seq m' -> m_maker_volume m <= m_maker_volume m' -> mkt_ok m' ->
  acct_ok m' k a' (Q' ++ P) ->
  (forall p, In p Q' -> piece_ok m' p) ->
  (forall p, In p Q' -> pc_last p = true -> exists oo, order_at a' (pc_slot p) = Ok oo /\ slot_of oo p) ->
  (forall p, In p P -> pc_owner p = k -> pc_last p = true -> order_at a' (pc_slot p) = order_at a (pc_slot p)) ->
  (forall s q, psum (with_seq s q) (Q' ++ P) <= 1) ->
  m_rebates_accrued m' - p_rebates (a_pos a') = m_rebates_accrued m - p_rebates (a_pos a) ->
  Led m' (acct_set k a' ac) (Q' ++ P).
Proof.
  intros [L1 L2 L3 L4 L5 L6 L7] Ha HQ HQ' Hc Hs Hv Hm Hak Hpk Hback Hsame Hids Hreb.
  constructor.
  - exact Hm.
  - intros j b Hb. destruct (Z.eq_dec j k) as [->|Hne].
    + rewrite (get_set_same _ _ _ _ Ha) in Hb. injection Hb as <-. exact Hak.
    + rewrite get_set_other in Hb by exact Hne. destruct (L2 j b Hb) as [G1 G2 G3 G4 G5 G6 G7].
      assert (NQ : forall p, In p Q -> pc_owner p <> j) by (intros p Hp; rewrite (HQ p Hp); congruence).
      assert (NQ' : forall p, In p Q' -> pc_owner p <> j) by (intros p Hp; rewrite (HQ' p Hp); congruence).
      constructor.
      * destruct G1 as [P1 P2 P3 P4 P5 P6 P7 P8]. constructor; auto. lia.
      * exact G2.
      * rewrite psum_app, of_side_other in * by assumption. exact G3.
      * rewrite psum_app, of_side_other in * by assumption. exact G4.
      * rewrite psum_app, of_side_other in * by assumption. exact G5.
      * rewrite (fee_needs_cfg m m' Hc). rewrite psum_app, of_acct_perm_other in * by assumption. exact G6.
      * intros i. specialize (G7 i). rewrite psum_app, in_slot_other in * by assumption. exact G7.
  - intros p Hp. apply in_app_or in Hp as [Hp|Hp]; [apply Hpk; exact Hp|].
    apply (piece_ok_cfg m m' Hc); [exact Hs|]. apply L3. apply in_or_app. right. exact Hp.
  - intros p Hp. apply in_app_or in Hp as [Hp|Hp].
    + exists a'. rewrite (HQ' p Hp). split; [eapply get_set_same; exact Ha|]. apply Hback. exact Hp.
    + destruct (L4 p (in_or_app _ _ _ (or_intror Hp))) as (b & Hb & Ho).
      destruct (Z.eq_dec (pc_owner p) k) as [E|Hne].
      * exists a'. rewrite E in *. rewrite Ha in Hb. injection Hb as <-. split; [eapply get_set_same; exact Ha|].
        intros Hl. rewrite (Hsame p Hp E Hl). apply Ho. exact Hl.
      * exists b. rewrite get_set_other by exact Hne. auto.
  - exact Hids.
  - rewrite (asum_set _ _ _ _ _ Ha). lia.
  - apply nodup_set. exact L7.
Qed.
