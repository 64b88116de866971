(** From the ledger to what can be read off a market. *)
From Coq Require Import ZArith List Bool Lia ZifyBool Permutation.
From Verif Require Import Base Nodes OrderTree BookSide Heap Market OpenOrders Order Book Instructions
  BaseFacts NodesFacts HeapFacts TreeRep TreeFacts TreeOps TreeIter BookSideFacts BookSideOrder BookSpecProofs SpecBook SpecFees
  FeeFacts SpecOrder MatchFacts MatchBook OrderFacts PlaceFacts OrderSpecProofs OrderClaims Steps StepFacts SpecLedger SpecEvents Ledger LedgerOps LedgerMoves
  LedgerPlace LedgerOrder LedgerInv SpecSystem.
Import ListNotations.
Open Scope Z_scope.

(** ** Every execution has a ledger *)
Lemma sumZ_cons x l : sumZ (x :: l) = x + sumZ l.
Proof. reflexivity. Qed.

Lemma history_inv s gone : history s gone -> exists P,
  Inv (s_w s) 0 0 (sumZ (map p_maker_volume gone)) (sumZ (map p_taker_volume gone)) P.
Proof.
  induction 1 as [now t c te s H|e s i s' out gone _ (P & IH) H].
  - exists []. exact (create_market_inv _ _ _ _ _ H).
  - pose proof (exec_steps _ _ _ _ _ (rep_sound _ _ (iv_rep _ _ _ _ _ _ IH) (iv_led _ _ _ _ _ _ IH)) H) as E.
    destruct i; try (cbn [closing app]; exact (wsteps_inv _ _ _ _ _ _ _ _ _ E _ IH)).
    destruct E as (a & Ha). exists P. pose proof (closes_led _ _ _ _ _ _ _ _ _ IH Ha) as G. destruct Ha as (Ha & _).
    cbn [closing]. rewrite Ha. cbn [app map]; rewrite ?sumZ_cons. rewrite (Z.add_comm (p_maker_volume _)), (Z.add_comm (p_taker_volume _)). exact G.
Qed.
Lemma reachable_history s : reachable s -> exists gone, history s gone.
Proof.
  induction 1 as [now t c te s H|e s i s' out _ (gone & IH) H]; [exists []; exact (hist_create _ _ _ _ _ H)|].
  exists (closing s i ++ gone). exact (hist_step _ _ _ _ _ _ IH H).
Qed.
Lemma reachable_inv s : reachable s -> exists cl ct P, Inv (s_w s) 0 0 cl ct P.
Proof. intros H. apply reachable_history in H as (gone & H). apply history_inv in H as (P & H). eauto. Qed.

(** ** Reading *)
Lemma fits_orders s bs T t : fits s bs T -> tree_orders bs t = dir s (oleaves (T t)) /\
  exists items, tree_iter_all (bs_nodes bs) (bs_root bs t) = Ok items.
Proof.
  intros H. destruct (bs_lists bs T t (ft_ok _ _ _ H)) as (items & E & Em). unfold tree_orders. rewrite E.
  split; [|exists items; reflexivity]. rewrite Em, (ft_side _ _ _ H). reflexivity.
Qed.
Lemma dir_perm {A} s (l : list A) : Permutation (dir s l) l.
Proof. destruct s; cbn [dir]; [symmetry; apply Permutation_rev|reflexivity]. Qed.

Lemma rep_orders w P s : Rep w P -> Permutation (orders w s) (pleaves s P).
Proof.
  intros HR. destruct (rp_side _ _ HR s) as (T & HT & HP). rewrite <- HP. unfold orders, all_leaves.
  rewrite (proj1 (fits_orders _ _ _ Fixed HT)), (proj1 (fits_orders _ _ _ OraclePegged HT)).
  apply Permutation_app; apply Permutation_map, dir_perm.
Qed.
Lemma rep_waiting w P : Rep w P -> Permutation (waiting w) (pevents P).
Proof. intros HR. destruct (rp_heap _ _ HR) as (L & Hh & HP). unfold waiting, queue_of. rewrite (heap_iter_rep _ _ Hh). exact HP. Qed.
Lemma rep_readable w P : Rep w P -> readable w.
Proof.
  intros HR. split.
  - intros s t. destruct (rp_side _ _ HR s) as (T & HT & _). exact (proj2 (fits_orders _ _ _ t HT)).
  - destruct (rp_heap _ _ HR) as (L & Hh & HP). exists L. exact (heap_iter_rep _ _ Hh).
Qed.

Lemma sum_perm l l' : Permutation l l' -> sumZ l = sumZ l'.
Proof. induction 1; rewrite ?sumZ_cons; lia. Qed.

Definition pval (fo : side -> otree_id -> leaf -> Z) (fe : event -> Z) (p : piece) : Z :=
  match p with PLeaf s t l _ => fo s t l | POut e _ _ => fe (EOut e) | PFill f _ => fe (EFill f) end.

Lemma psum_pval fo fe P : psum (pval fo fe) P =
  sumZ (map (fun x => fo Bid (fst x) (snd x)) (pleaves Bid P)) +
  sumZ (map (fun x => fo Ask (fst x) (snd x)) (pleaves Ask P)) + sumZ (map fe (pevents P)).
Proof.
  induction P as [|p P IH]; [reflexivity|]. rewrite psum_cons, IH, !pleaves_cons.
  destruct p as [s t l lp|e lp id|f id]; cbn [pval pevents flat_map app].
  - fold (pevents P). destruct s; cbn [side_eqb app map fst snd]; rewrite ?sumZ_cons; lia.
  - fold (pevents P). cbn [map]; rewrite ?sumZ_cons. lia.
  - fold (pevents P). cbn [map]; rewrite ?sumZ_cons. lia.
Qed.

Lemma things_pval w P fo fe : Rep w P -> things_sum fo fe w = psum (pval fo fe) P.
Proof.
  intros HR. rewrite psum_pval. unfold things_sum. f_equal; [f_equal|]; apply sum_perm, Permutation_map.
  - apply rep_orders. exact HR.
  - apply rep_orders. exact HR.
  - apply rep_waiting. exact HR.
Qed.
Lemma fills_pval w P g : Rep w P -> fills_sum g w = psum (pval (fun _ _ _ => 0) (fun e => match e with EFill f => g f | EOut _ => 0 end)) P.
Proof.
  intros HR. rewrite psum_pval. unfold fills_sum. rewrite (sum_perm _ _ (Permutation_map _ (rep_waiting _ _ HR))).
  assert (Z0 : forall L : list (otree_id * leaf), sumZ (map (fun _ => 0) L) = 0) by (induction L; [reflexivity|cbn [map]; rewrite ?sumZ_cons; lia]).
  rewrite !Z0. lia.
Qed.

(** ** Sums over accounts *)
Lemma asum_add f g ac : asum (fun p => f p + g p) ac = asum f ac + asum g ac.
Proof. unfold asum. induction ac as [|x r IH]; [reflexivity|]. cbn [map]. rewrite !sumZ_cons. lia. Qed.
Lemma asum_scale f c ac : asum (fun p => f p * c) ac = asum f ac * c.
Proof. unfold asum. induction ac as [|x r IH]; [reflexivity|]. cbn [map]. rewrite !sumZ_cons, IH. lia. Qed.

(** Every piece belongs to exactly one account. *)
Lemma owners_sum P : forall (ac : accounts) (F : Z -> piece -> Z) (g : piece -> Z), NoDup (map fst ac) ->
  (forall p, In p P -> In (pc_owner p) (map fst ac)) ->
  (forall k p, In p P -> F k p = if pc_owner p =? k then g p else 0) ->
  sumZ (map (fun ka : Z * ooa => psum (F (fst ka)) P) ac) = psum g P.
Proof.
  induction P as [|p P IH]; intros ac F g Hnd Hin HF.
  - unfold psum. cbn [map]. change (sumZ []) with 0. clear. induction ac; [reflexivity|]. cbn [map]. rewrite sumZ_cons. lia.
  - rewrite psum_cons, <- (IH ac F g Hnd) by (intros; auto using in_cons).
    assert (E : sumZ (map (fun ka : Z * ooa => F (fst ka) p) ac) = g p).
    { specialize (Hin p (or_introl eq_refl)). assert (HF' : forall k, F k p = if pc_owner p =? k then g p else 0) by (intros k; apply HF; left; reflexivity).
      clear -Hnd Hin HF'. induction ac as [|[k a] r IH]; [destruct Hin|]. cbn [map fst] in *; rewrite ?sumZ_cons in *. inversion Hnd as [|? ? H1 H2]; subst.
      rewrite HF'. destruct (Z.eqb_spec (pc_owner p) k) as [E|Hne].
      - assert (Z0 : sumZ (map (fun ka : Z * ooa => F (fst ka) p) r) = 0).
        { rewrite <- E in H1. clear -H1 HF'. induction r as [|[j b] r IH]; [reflexivity|]. cbn [map fst] in *; rewrite ?sumZ_cons in *.
          rewrite HF', IH by (intros H; apply H1; right; exact H).
          replace (pc_owner p =? j) with false; [lia|]. symmetry. apply Z.eqb_neq. intros E. apply H1. left. congruence. }
        lia.
      - destruct Hin as [E|Hin]; [congruence|]. rewrite (IH H2 Hin). lia. }
    rewrite <- E. clear. induction ac as [|x r IH]; [reflexivity|]. cbn [map]; rewrite ?sumZ_cons. rewrite IH, psum_cons. lia.
Qed.

Lemma acct_sums m ac P s (f : piece -> Z) (g : position -> Z) : Led m ac P ->
  (forall k a, acct_get k ac = Some a -> g (a_pos a) = psum (of_side k s f) P) ->
  asum g ac = psum (fun p => if side_eqb (pc_side p) s then f p else 0) P.
Proof.
  intros HL Hg. pose proof (ld_keys _ _ _ HL) as Hnd.
  rewrite <- (owners_sum P ac (fun k => of_side k s f)).
  - unfold asum. f_equal. apply map_ext_in. intros [k a] Hin. cbn [fst snd]. apply Hg. apply acct_in_get; assumption.
  - exact Hnd.
  - intros p Hp. destruct (ld_back _ _ _ HL p Hp) as (a & Ha & _). apply acct_get_in in Ha. apply in_map_iff. exists (pc_owner p, a). auto.
  - intros k p Hp. unfold of_side. destruct (pc_owner p =? k), (side_eqb (pc_side p) s); reflexivity.
Qed.

(** ** Conservation *)
Theorem base_conserved s : reachable s ->
  let w := s_w s in let m := w_mkt w in
  m_base_total m = accounts_sum (fun p => p_base_free p + p_asks_base p * bls m) w + fills_sum (base_on_way m) w.
Proof.
  intros H w m. apply reachable_inv in H as (cl & ct & P & HI). pose proof HI as [HR HL Gb _ _ _ _ _]. fold w in HR, HL, Gb. fold m in HL, Gb.
  unfold accounts_sum. fold (asum (fun p => p_base_free p + p_asks_base p * bls m) (w_accts w)).
  rewrite asum_add, asum_scale, (fills_pval w P _ HR).
  rewrite (acct_sums m _ P Ask pc_qty p_asks_base HL) by (intros k a Ha; apply (ac_asks _ _ _ _ (ld_acct _ _ _ HL _ _ Ha))).
  unfold base_gap in Gb.
  assert (E : psum (base_claim m) P = psum (fun p => if side_eqb (pc_side p) Ask then pc_qty p else 0) P * bls m +
    psum (pval (fun _ _ _ => 0) (fun e => match e with EFill f => base_on_way m f | EOut _ => 0 end)) P).
  { clear. induction P as [|p P IH]; [reflexivity|]. rewrite !psum_cons, IH.
    destruct p as [sd t l lp|e lp id|f id]; cbn [base_claim pval pc_side pc_qty base_on_way];
      [destruct sd|destruct (oe_side e)|unfold base_on_way; destruct (fill_side f)]; cbn [side_eqb]; lia. }
  lia.
Qed.

Theorem quote_conserved s : reachable s ->
  let w := s_w s in let m := w_mkt w in
  m_quote_total m =
    accounts_sum (fun p => p_quote_free p + p_bids_quote p * qls m + p_locked_fees p + p_rebates p) w
    + m_fees_available m + fills_sum (quote_on_way m) w.
Proof.
  intros H w m. apply reachable_inv in H as (cl & ct & P & HI). pose proof HI as [HR HL _ Gq _ _ _ _]. fold w in HR, HL, Gq. fold m in HL, Gq.
  unfold accounts_sum. fold (asum (fun p => p_quote_free p + p_bids_quote p * qls m + p_locked_fees p + p_rebates p) (w_accts w)).
  rewrite !asum_add, asum_scale, (fills_pval w P _ HR).
  rewrite (acct_sums m _ P Bid (fun p => pc_qty p * pc_lp p) p_bids_quote HL) by (intros k a Ha; apply (ac_bidq _ _ _ _ (ld_acct _ _ _ HL _ _ Ha))).
  unfold quote_gap in Gq.
  assert (E : psum (quote_claim m) P = psum (fun p => if side_eqb (pc_side p) Bid then pc_qty p * pc_lp p else 0) P * qls m +
    psum (pval (fun _ _ _ => 0) (fun e => match e with EFill f => quote_on_way m f | EOut _ => 0 end)) P).
  { clear. induction P as [|p P IH]; [reflexivity|]. rewrite !psum_cons, IH.
    destruct p as [sd t l lp|e lp id|f id]; cbn [quote_claim pval pc_side pc_qty pc_lp];
      [destruct sd|destruct (oe_side e)|unfold quote_on_way, fill_locked; destruct (fill_side f)]; cbn [side_eqb]; lia. }
  lia.
Qed.

Theorem totals_match s gone : history s gone ->
  let w := s_w s in let m := w_mkt w in
  m_rebates_accrued m = accounts_sum p_rebates w /\
  m_maker_volume m = accounts_sum p_maker_volume w + sumZ (map p_maker_volume gone) /\
  accounts_sum p_taker_volume w + m_taker_volume_wo_oo m + sumZ (map p_taker_volume gone) =
    m_maker_volume m + fills_sum (fill_quote m) w.
Proof.
  intros H w m. apply history_inv in H as (P & HI). pose proof HI as [HR HL _ _ _ _ Gl Gt]. fold w in HR, HL, Gl, Gt. fold m in HL, Gl, Gt.
  split; [exact (ld_reb _ _ _ HL)|]. unfold vol_lost, vol_all, vol_taken in *. unfold accounts_sum.
  fold (asum p_maker_volume (w_accts w)). fold (asum p_taker_volume (w_accts w)). split; [lia|].
  rewrite (fills_pval w P _ HR).
  assert (E : psum (vol_wait m) P = psum (pval (fun _ _ _ => 0) (fun e => match e with EFill f => fill_quote m f | EOut _ => 0 end)) P).
  { apply psum_ext. intros [] _; reflexivity. }
  lia.
Qed.

(** ** Backing *)
Lemma order_piece w P s t l : Rep w P -> In (t, l) (orders w s) -> exists lp, In (PLeaf s t l lp) P.
Proof. intros HR H. apply leaf_piece. apply (Permutation_in _ (rep_orders _ _ s HR)). exact H. Qed.
Lemma event_pieces w P e : Rep w P -> In e (waiting w) ->
  exists p, In p P /\ match e with EFill f => exists id, p = PFill f id | EOut o => exists lp id, p = POut o lp id end.
Proof.
  intros HR H. apply (Permutation_in _ (rep_waiting _ _ HR)) in H. unfold pevents in H. apply in_flat_map in H as (p & Hp & H).
  exists p. split; [exact Hp|]. destruct p as [s t l lp|o lp id|f id]; [destruct H| |]; destruct H as [<-|[]]; eauto.
Qed.

Lemma piece_lock m ac P p : Led m ac P -> In p P -> pc_side p = Bid ->
  match p with PLeaf _ t l lp => lp = order_lock t l | _ => True end.
Proof.
  intros HL Hp Hs. pose proof (pk_kind _ _ (ld_piece _ _ _ HL p Hp)) as K. destruct p as [s t l lp|o lp id|f id]; [|exact I|exact I].
  cbn [pc_side] in Hs. subst s. destruct t; [apply K|exact K].
Qed.

Lemma slot_used_used a i : used a i = one_if (slot_used a i).
Proof. unfold used, slot_used. destruct (order_at a i) as [oo|]; [|reflexivity]. destruct (oo_free oo); reflexivity. Qed.

Lemma inv_backed w db dq cl ct P : Inv w db dq cl ct P -> backed w.
Proof.
  intros [HR HL _ _ _ _ _ _].
  assert (Hlock : forall p, In p P -> pc_side p = Bid ->
    pc_lp p = match p with PLeaf _ t l _ => order_lock t l | POut o _ _ => event_lock w (EOut o) | PFill f _ => event_lock w (EFill f) end).
  { intros p Hp Hs. pose proof (piece_lock _ _ _ _ HL Hp Hs) as G. destruct p as [s t l lp|o lp id|f id]; cbn [pc_lp event_lock]; [exact G| |reflexivity].
    destruct (ld_back _ _ _ HL _ Hp) as (a & Ha & Hb). cbn [pc_owner] in Ha. rewrite Ha. destruct (Hb eq_refl) as (oo & Ho & Hsl).
    cbn [pc_slot] in Ho. rewrite Ho. symmetry. apply Hsl. }
  constructor.
  - exact (rep_readable _ _ HR).
  - intros s t l Hin. destruct (order_piece _ _ _ _ _ HR Hin) as (lp & Hp).
    destruct (ld_back _ _ _ HL _ Hp) as (a & Ha & Hb). destruct (Hb eq_refl) as (oo & Ho & Hsl). cbn [pc_owner pc_slot] in *.
    exists a, oo. split; [exact Ha|]. split; [exact Ho|]. split.
    + destruct Hsl as (S1 & S2 & S3 & S4 & S5). cbn [pc_side pc_id] in *. repeat (split; [assumption|]).
      intros Es. rewrite S4. exact (piece_lock _ _ _ _ HL Hp Es).
    + intros k b i oo' Hk Hi Hfr Es Eid. destruct (slot_piece _ _ _ _ _ _ _ HL Hk Hi Hfr) as (q & Hq & Lq & Oq & Sq & Hsq).
      destruct Hsq as (_ & Q2 & Q3 & _).
      assert (E : q = PLeaf s t l lp) by (eapply same_id; [exact HL|exact Hq|exact Hp|exact Lq|reflexivity|cbn [pc_side]; congruence|cbn [pc_id]; congruence]).
      subst q. cbn [pc_owner pc_slot] in *. auto.
  - intros e He. destruct (event_pieces _ _ _ HR He) as (p & Hp & Hk). destruct (ld_back _ _ _ HL _ Hp) as (a & Ha & _). exists a.
    destruct e; [destruct Hk as (id & ->)|destruct Hk as (lp & id & ->)]; exact Ha.
  - intros k a i Ha. rewrite <- slot_used_used, <- (ac_slots _ _ _ _ (ld_acct _ _ _ HL _ _ Ha) i). unfold occupants.
    rewrite (things_pval _ P _ _ HR). apply psum_ext. intros [s t l lp|o lp id|f id] _; reflexivity.
  - intros k a Ha. rewrite (ac_bids _ _ _ _ (ld_acct _ _ _ HL _ _ Ha)). unfold lots.
    rewrite (things_pval _ P _ _ HR). apply psum_ext. intros [s t l lp|o lp id|f id] _; reflexivity.
  - intros k a Ha. rewrite (ac_asks _ _ _ _ (ld_acct _ _ _ HL _ _ Ha)). unfold lots.
    rewrite (things_pval _ P _ _ HR). apply psum_ext. intros [s t l lp|o lp id|f id] _; reflexivity.
  - intros k a Ha. rewrite (ac_bidq _ _ _ _ (ld_acct _ _ _ HL _ _ Ha)). unfold bid_quote.
    rewrite (things_pval _ P _ _ HR). apply psum_ext. intros p Hp. unfold of_side. specialize (Hlock p Hp).
    destruct p as [s t l lp|o lp id|f id]; cbn [pval pc_owner pc_side pc_qty pc_lp ev_owner ev_side ev_qty] in *;
      [destruct s|destruct (oe_side o)|destruct (fill_side f)]; cbn [side_eqb]; rewrite ?andb_false_r; try reflexivity; rewrite (Hlock eq_refl); reflexivity.
  - intros k a Ha. eapply Z.le_trans; [|exact (ac_fees _ _ _ _ (ld_acct _ _ _ HL _ _ Ha))]. apply Z.eq_le_incl. unfold fees_to_come. cbv zeta.
    rewrite (things_pval _ P _ _ HR). apply psum_ext. intros p Hp. unfold of_acct, fee_need. specialize (Hlock p Hp).
    destruct p as [s t l lp|o lp id|f id]; cbn [pval pc_owner pc_side pc_qty pc_lp ev_owner ev_side ev_qty] in *;
      [destruct s|destruct (oe_side o)|destruct (fill_side f)]; cbn [side_eqb]; rewrite ?andb_true_r, ?andb_false_r;
      try (destruct (_ =? _); reflexivity); rewrite (Hlock eq_refl); reflexivity.
Qed.
Theorem reachable_backed s : reachable s -> backed (s_w s).
Proof. intros H. apply reachable_inv in H as (cl & ct & P & H). exact (inv_backed _ _ _ _ _ _ H). Qed.
