(** The open orders indexers list the open orders accounts. *)
From Coq Require Import ZArith List Bool Lia ZifyBool Permutation.
From Verif Require Import Base Nodes OrderTree BookSide Heap Market OpenOrders Order Book Instructions
  BaseFacts SpecBook SpecFees SpecOrder MatchFacts OrderFacts PlaceFacts OrderSpecProofs
  Steps StepFacts TokenFacts SpecLedger SpecEvents Ledger LedgerOps LedgerMoves LedgerPlace LedgerOrder LedgerInv SpecSystem SystemFacts Solvency
  SpecControl ControlFacts LifeFacts IdFacts AuthFacts EndFacts SystemProofs SpecWind LockFacts Program SpecProgram ProgFacts.
Import ListNotations.
Open Scope Z_scope.

(** ** Accounts keep their owners and numbers *)
Definition idk (o : option ooa) : option (Z * Z) := option_map (fun a => (a_owner a, a_num a)) o.
Definition sameids (w w' : world) : Prop := forall k, idk (acct_get k (w_accts w')) = idk (acct_get k (w_accts w)).
Lemma ids_same w w' : w_accts w' = w_accts w -> sameids w w'.
Proof. intros E k. rewrite E. reflexivity. Qed.
Lemma ids_trans w w1 w2 : sameids w w1 -> sameids w1 w2 -> sameids w w2.
Proof. intros H1 H2 k. rewrite H2. apply H1. Qed.
Lemma ids_set w w' k a v : acct_get k (w_accts w) = Some a -> w_accts w' = acct_set k v (w_accts w) ->
  a_owner v = a_owner a -> a_num v = a_num a -> sameids w w'.
Proof.
  intros Ha E H1 H2 j. rewrite E, acct_get_set. destruct (Z.eqb_spec j k) as [->|]; [|reflexivity]. rewrite Ha. cbn [option_map idk]. congruence.
Qed.
Lemma ids_traded w w' k a v : acct_get k (w_accts w) = Some a -> w_accts w' = acct_set k v (w_accts w) -> only_traded a v -> sameids w w'.
Proof. intros A E T. eapply ids_set; [exact A|exact E|exact (ot_owner _ _ T)|exact (proj1 (ot_num _ _ T))]. Qed.

Lemma drop_ids taker rem now s l w w' : drop_effect taker rem now s l w w' -> sameids w w'.
Proof.
  intros [w0 a a' _ Ha E|w0 h E]; [|apply ids_same; reflexivity].
  eapply ids_traded; [exact Ha|reflexivity|exact (cancel_traded _ _ _ _ _ E)].
Qed.
Lemma effect_ids o taker owner rem now w a w' : effect o taker owner rem now w a w' -> sameids w w'.
Proof.
  intros [w0 i q x x' m' _ Ha E|w0 i q h E|w0 i w1 E|w0 i x x' Et Ha E].
  - eapply ids_traded; [exact Ha|reflexivity|exact (maker_traded _ _ _ _ _ E)].
  - apply ids_same. reflexivity.
  - eapply drop_ids. exact E.
  - eapply ids_traded; [exact Ha|reflexivity|exact (cancel_traded _ _ _ _ _ E)].
Qed.
Lemma effects_ids o taker owner rem now w l w' : effects o taker owner rem now w l w' -> sameids w w'.
Proof. induction 1; [apply ids_same; reflexivity|]. eapply ids_trans; [eapply effect_ids; eassumption|assumption]. Qed.

Lemma taker_ids a m s b q tf ra a' m' : execute_taker a m s b q tf ra = Ok (a', m') -> a_owner a' = a_owner a /\ a_num a' = a_num a.
Proof.
  unfold execute_taker. intros H. cbv zeta in H. apply bind_ok in H as (p1 & P & H). do 3 (apply bind_ok in H as (? & _ & H)).
  injection H as <- _. split; reflexivity.
Qed.
Lemma settle_taker_ids o taker maxq s w' bt qt tf ra rq : settle_taker o taker maxq s = Ok (w', bt, qt, tf, ra, rq) -> sameids (ms_w s) w'.
Proof.
  intros H. unfold settle_taker in H. cbv zeta in H.
  do 6 (apply bind_ok in H as (? & _ & H)). apply bind_ok in H as ([[w1 f1] r1] & E & H).
  do 5 (apply bind_ok in H as (? & _ & H)). injection H as <- _ _ _ _ _.
  match type of E with (if ?c then _ else _) = _ => destruct c end; [|injection E as <- _ _; apply ids_same; reflexivity].
  do 2 (apply bind_ok in E as (? & _ & E)). apply bind_ok in E as ([[w2 f2] r2] & E1 & E).
  assert (U2 : w_accts w2 = w_accts (ms_w s)).
  { match type of E1 with (if ?c then _ else _) = _ => destruct c end; [|injection E1 as <- _ _; reflexivity].
    do 3 (apply bind_ok in E1 as (? & _ & E1)). injection E1 as <- _ _. reflexivity. }
  apply bind_ok in E as (w3 & E2 & E). apply bind_ok in E as (? & _ & E). injection E as <- _ _.
  eapply ids_trans; [apply ids_same; exact U2|].
  destruct taker as [t|].
  - apply bind_ok in E2 as (a & A & E2). apply acct_load_ok in A. apply bind_ok in E2 as ([a' m'] & E3 & E2). injection E2 as <-.
    apply taker_ids in E3 as [L C]. eapply ids_set; [exact A|reflexivity|exact L|exact C].
  - apply bind_ok in E2 as (tv & _ & E2). injection E2 as <-. apply ids_same. reflexivity.
Qed.
Lemma process_out_ids w tk owner rem ev w' : process_out_event w tk owner rem ev = Ok w' -> sameids w w'.
Proof.
  intros H.
  assert (L : forall t k a, load_remaining w t k = Ok a -> acct_get k (w_accts w) = Some a).
  { intros t k0 a G. unfold load_remaining in G. destruct (is_taker t k0); [discriminate G|]. apply acct_load_ok in G. exact G. }
  unfold process_out_event in H. destruct tk as [t|].
  - destruct (owner =? oe_owner ev); [|destruct (mem_key _ _)].
    + apply bind_ok in H as (a & A & H). apply acct_load_ok in A. apply bind_ok in H as (a' & E & H). injection H as <-. eapply ids_traded; [exact A|reflexivity|exact (cancel_traded _ _ _ _ _ E)].
    + apply bind_ok in H as (a & A & H). apply L in A. apply bind_ok in H as (a' & E & H). injection H as <-. eapply ids_traded; [exact A|reflexivity|exact (cancel_traded _ _ _ _ _ E)].
    + apply bind_ok in H as (h & E & H). injection H as <-. apply ids_same. reflexivity.
  - destruct (mem_key _ _).
    + apply bind_ok in H as (a & A & H). apply L in A. apply bind_ok in H as (a' & E & H). injection H as <-. eapply ids_traded; [exact A|reflexivity|exact (cancel_traded _ _ _ _ _ E)].
    + apply bind_ok in H as (h & E & H). injection H as <-. apply ids_same. reflexivity.
Qed.
Lemma set_book_ids w s b : sameids w (w_set_book w s b).
Proof. apply ids_same. destruct s; reflexivity. Qed.
Lemma post_order_ids w o taker owner rem oracle now id pl price qty target w' pb pq mf :
  post_order w o taker owner rem oracle now id pl price qty target = Ok (w', pb, pq, mf) -> sameids w w'.
Proof.
  intros H. unfold post_order in H. cbv zeta in H. do 6 (apply bind_ok in H as (? & _ & H)).
  apply bind_ok in H as ([w1 f1] & E1 & H). apply bind_ok in H as ([b1 ex] & _ & H). apply bind_ok in H as (w3 & E3 & H).
  apply bind_ok in H as (w4 & E4 & H). apply bind_ok in H as (a & A & H). apply acct_load_ok in A. apply bind_ok in H as (? & _ & H).
  apply bind_ok in H as ([[b3 ?] ?] & _ & H). apply bind_ok in H as (a' & E5 & H). injection H as <- _ _ _.
  assert (U1 : sameids w w1).
  { destruct (o_side o); [|injection E1 as <- _; apply ids_same; reflexivity].
    do 2 (apply bind_ok in E1 as (? & _ & E1)). apply bind_ok in E1 as (b & B & E1). apply acct_load_ok in B. apply bind_ok in E1 as (l & _ & E1). injection E1 as <- _.
    eapply ids_set; [exact B|reflexivity|reflexivity|reflexivity]. }
  assert (U3 : sameids w1 w3).
  { destruct ex; [|injection E3 as <-; apply set_book_ids]. apply process_out_ids in E3. eapply ids_trans; [apply set_book_ids|exact E3]. }
  assert (U4 : sameids w3 w4).
  { destruct (is_full _); [|injection E4 as <-; apply ids_same; reflexivity]. apply bind_ok in E4 as ([b2 ow] & _ & E4). apply bind_ok in E4 as ([wo wp] & _ & E4).
    apply bind_ok in E4 as (? & _ & E4). apply process_out_ids in E4. eapply ids_trans; [apply set_book_ids|exact E4]. }
  eapply ids_trans; [exact U1|]. eapply ids_trans; [exact U3|]. eapply ids_trans; [exact U4|].
  eapply ids_trans; [apply (set_book_ids w4 (o_side o) b3)|].
  assert (P : a_owner a' = a_owner a /\ a_num a' = a_num a).
  { unfold add_order in E5. cbv zeta in E5. apply bind_ok in E5 as (p' & P & E5). apply bind_ok in E5 as (? & _ & E5). injection E5 as <-. split; reflexivity. }
  destruct P as [P1 P2]. eapply (ids_set _ _ _ a a'); [|reflexivity|exact P1|exact P2]. destruct (o_side o); exact A.
Qed.
Lemma new_order_ids w o oracle taker owner now limit rem w' r : sound_call w o taker owner ->
  new_order w o oracle taker owner now limit rem = Ok (w', r) -> sameids w w'.
Proof.
  intros Hsc H. pose proof Hsc as [Hc Hsd Hso Htk]. pose proof Hso as [Hb0 Hq0 _].
  destruct (sc_other_fits _ _ _ _ Hsc) as (T & Hf & Hage).
  destruct (new_order_inv _ _ _ _ _ _ _ _ _ _ _ Hf Htk Hc Hb0 Hq0 H)
    as (price & pd & maxq & acts & ms & lf & w2 & bt & qt & tf & ra & rq & mf & b2 & T2 & Hpl & Hfin).
  destruct (placed_numbers _ _ _ _ _ _ _ _ _ _ _ _ _ _ _ _ _ _ _ _ _ _ _ _ Hsc Hf Hpl)
    as (_ & _ & _ & _ & _ & _ & _ & _ & _ & _ & _ & _ & _ & _ & _ & _ & Hef & _).
  pose proof (pc_settle _ _ _ _ _ _ _ _ _ _ _ _ _ _ _ _ _ _ _ _ _ _ _ _ Hpl) as Hst.
  apply effects_ids in Hef. apply settle_taker_ids in Hst.
  eapply ids_trans; [|eapply ids_trans; [exact Hef|eapply ids_trans; [exact Hst|]]]; [apply ids_same; reflexivity|].
  destruct Hfin as [Hno|t w4 pb pq mfees Hpos Htg Hpeg Hpost].
  - apply set_book_ids.
  - eapply ids_trans; [apply set_book_ids|]. eapply post_order_ids. exact Hpost.
Qed.

Lemma wstep_ids who w db dq w' db' dq' : wstep who w db dq w' db' dq' -> world_sound w ->
  (forall k, who = Some k -> acct_get k (w_accts w) <> None) -> sameids w w'.
Proof.
  intros H Hs Hk.
  destruct H as [w db dq o oracle taker owner now limit rem w' r Ho Ht Hl Hn E _|w db dq k a oo ex w' l A _ _ E _|w db dq rem slot w' E
    |w db dq k a bf qf pen bt qt A _ _ _ _ _ _|w db dq bt qt _ _|w db dq k a referred A m' _ _ _ _ _ _|w db dq _|w db dq k owner delegate num A _ Hw
    |w db dq k a d A _|w db dq].
  - assert (Hsc : sound_call w o taker owner) by (apply sound_call_of; [exact Hs|exact Ho|]; destruct Ht as [Ht|[Ht _]]; [left|right]; exact Ht).
    exact (new_order_ids _ _ _ _ _ _ _ _ _ _ Hsc E).
  - apply book_cancel_inv in E as (b & a1 & a' & _ & _ & A1 & E & ->).
    eapply ids_trans; [apply (set_book_ids w (oo_side oo) b)|].
    eapply ids_traded; [|reflexivity|exact (cancel_traded _ _ _ _ _ E)]. destruct (oo_side oo); exact A1.
  - apply consume_one_inv in E as (ev & _ & E). destruct ev as [f|x].
    + destruct (mem_key _ _); [|subst; apply ids_same; reflexivity]. destruct E as (a & a' & m' & h' & y & A & E & _ & ->).
      eapply ids_traded; [exact A|reflexivity|exact (maker_traded _ _ _ _ _ E)].
    + destruct (mem_key _ _); [|subst; apply ids_same; reflexivity]. destruct E as (a & a' & h' & y & A & E & _ & ->).
      eapply ids_traded; [exact A|reflexivity|exact (cancel_traded _ _ _ _ _ E)].
  - eapply ids_set; [exact A|reflexivity|reflexivity|reflexivity].
  - apply ids_same. reflexivity.
  - eapply ids_set; [exact A|reflexivity|reflexivity|reflexivity].
  - apply ids_same. reflexivity.
  - exfalso. exact (Hk _ Hw A).
  - eapply ids_set; [exact A|reflexivity|reflexivity|reflexivity].
  - apply ids_same. reflexivity.
Qed.
Lemma ids_some w w' k : sameids w w' -> acct_get k (w_accts w) <> None -> acct_get k (w_accts w') <> None.
Proof. intros H N E. specialize (H k). rewrite E in H. destruct (acct_get k (w_accts w)); [discriminate H|]. apply N. reflexivity. Qed.
Lemma wsteps_ids who w db dq w' db' dq' : wsteps who w db dq w' db' dq' -> world_sound w ->
  (forall k, who = Some k -> acct_get k (w_accts w) <> None) -> sameids w w'.
Proof.
  induction 1 as [|w db dq w1 db1 dq1 w2 db2 dq2 H _ IH]; intros Hs Hk; [apply ids_same; reflexivity|].
  pose proof (wstep_ids _ _ _ _ _ _ _ H Hs Hk) as S. eapply ids_trans; [exact S|].
  apply IH; [exact (wstep_sound _ _ _ _ _ _ _ H Hs)|]. intros k E. exact (ids_some _ _ _ S (Hk _ E)).
Qed.

Lemma exec_actor e s i s' out k : exec e s i = Ok (s', out) -> uses_indexer i = false -> actor i = Some k -> acct_get k (w_accts (s_w s)) <> None.
Proof.
  intros H Hf Ha. unfold exec in H. destruct (s_closed s && needs_market i); [discriminate H|]. unfold exec_open in H. cbv zeta in H.
  assert (Hpl : forall x u, place_constraints s x = Ok u -> acct_get (px_acct x) (w_accts (s_w s)) <> None).
  { intros x u E. apply unit_ok in E. apply place_constraints_inv in E as (b & Eb & _). congruence. }
  assert (Dp : forall e u k ub uq b q s1, deposit_ix e s u k ub uq b q = Ok s1 -> acct_get k (w_accts (s_w s)) <> None).
  { intros e0 u0 k0 ub uq b q s1 E. unfold deposit_ix in E. cbv zeta in E. do 2 (apply bind_ok in E as (? & _ & E)). apply bind_ok in E as (a & Ea & _).
    apply acct_load_ok in Ea. congruence. }
  destruct i as [x g|x g|x cid ex g|x cid ex g|x g|x cancel t bids asks limit|u k' id|u k' c|u k' sd l| | |u k' ub uq b q|u k' ub uq b q|u k' ub uq ref|u k' ub uq ref|u r
    |k' ow dl n|u k'|u k' d|u|u k' l|u| | | | | | ]; try discriminate Ha; try discriminate Hf; cbn [actor] in Ha; injection Ha as <-.
  - apply bind_ok in H as (u1 & _ & H). apply bind_ok in H as (u2 & E & _). exact (Hpl _ _ E).
  - apply bind_ok in H as (u1 & _ & H). apply bind_ok in H as (u2 & E & _). exact (Hpl _ _ E).
  - do 3 (apply bind_ok in H as (? & _ & H)). apply bind_ok in H as (u2 & E & _). exact (Hpl _ _ E).
  - do 3 (apply bind_ok in H as (? & _ & H)). apply bind_ok in H as (u2 & E & _). exact (Hpl _ _ E).
  - do 2 (apply bind_ok in H as (? & _ & H)). apply bind_ok in H as (u2 & E & _). apply unit_ok in E. apply multi_constraints_inv in E as (b & Eb & G). congruence.
  - unfold lift_w in H. apply bind_ok in H as (w & E & _). unfold cancel_order_ix in E. apply bind_ok in E as (b & Eb & E). apply acct_load_ok in Eb. congruence.
  - apply bind_ok in H as (u1 & _ & H). apply bind_ok in H as (u2 & E & _). apply check_od in E as (b & Eb & G). congruence.
  - apply bind_ok in H as (u1 & _ & H). apply bind_ok in H as (u2 & E & _). apply check_od in E as (b & Eb & G). congruence.
  - do 3 (apply bind_ok in H as (? & _ & H)). unfold lift_s in H. apply bind_ok in H as (s1 & E & _). exact (Dp _ _ _ _ _ _ _ _ E).
  - do 3 (apply bind_ok in H as (? & _ & H)). unfold lift_s in H. apply bind_ok in H as (s1 & E & _). unfold refill_ix in E. do 3 (apply bind_ok in E as (? & _ & E)). exact (Dp _ _ _ _ _ _ _ _ E).
  - unfold lift_s in H. apply bind_ok in H as (w & E & _). unfold settle_funds_ix in E. apply bind_ok in E as (b & Eb & E). apply acct_load_ok in Eb. congruence.
  - unfold lift_s in H. apply bind_ok in H as (w & E & _). unfold settle_funds_expired_ix in E. apply bind_ok in E as (u1 & E1 & E).
    apply bind_ok in E as (b & Eb & E). apply acct_load_ok in Eb. congruence.
  - unfold lift_w in H. apply bind_ok in H as (w & E & _). unfold set_delegate_ix in E. apply bind_ok in E as (b & Eb & E). apply acct_load_ok in Eb. congruence.
  - apply bind_ok in H as (u1 & _ & H). unfold lift_w in H. apply bind_ok in H as (w & E & _). unfold prune_orders_ix in E.
    apply bind_ok in E as (u2 & E2 & E). apply bind_ok in E as (b & Eb & E). apply acct_load_ok in Eb. congruence.
Qed.
Lemma exec_ids e s i s' out : reachable s -> exec e s i = Ok (s', out) -> uses_indexer i = false -> sameids (s_w s) (s_w s').
Proof.
  intros R H Hf. pose proof (reachable_sound _ R) as Hs. pose proof (exec_steps _ _ _ _ _ Hs H) as Hst.
  pose proof (fun k => exec_actor _ _ _ _ _ k H Hf) as Ha.
  destruct i; try discriminate Hf; exact (wsteps_ids _ _ _ _ _ _ _ Hst Hs Ha).
Qed.

(** ** All accounts of all markets, by their owners and numbers *)
Definition view (p : prog) (m k : Z) : option (Z * Z) :=
  match al_get m (p_mkts p) with Some x => idk (acct_get k (w_accts (fst x))) | None => None end.
Lemma view_in p m k a : account_in p m k a -> view p m k = Some (a_owner a, a_num a).
Proof. intros (s & Hm & Ha). apply market_in_get in Hm as [Hm _]. unfold view. rewrite Hm. cbn [fst]. rewrite Ha. reflexivity. Qed.
Lemma in_view p m k o n : view p m k = Some (o, n) -> exists a, account_in p m k a /\ a_owner a = o /\ a_num a = n.
Proof.
  unfold view. destruct (al_get m (p_mkts p)) as [[w cl]|] eqn:E; [|discriminate]. cbn [fst]. intros H.
  destruct (acct_get k (w_accts w)) as [a|] eqn:Ea; [|discriminate H]. injection H as H1 H2.
  exists a. split; [|split; assumption]. exists (mkSys w (p_tok p) cl). split; [unfold market_in; rewrite E; reflexivity|exact Ea].
Qed.
Lemma account_fun p m k a a' : account_in p m k a -> account_in p m k a' -> a = a'.
Proof. intros (s & Hm & Ha) (s' & Hm' & Ha'). congruence. Qed.

Record xok (addr : Z -> Z -> Z) (V : Z -> Z -> option (Z * Z)) (idx : list (Z * indexer)) : Prop := {
  x_keys : NoDup (map fst idx);
  x_lists : forall o x, al_get o idx = Some x -> forall k, In k (ix_addrs x) <-> exists m n, V m k = Some (o, n);
  x_once : forall o x, al_get o idx = Some x -> NoDup (ix_addrs x);
  x_few : forall o x, al_get o idx = Some x -> (length (ix_addrs x) <= 256)%nat;
  x_none : forall o m k n, al_get o idx = None -> V m k <> Some (o, n);
  x_place : forall m m' k, V m k <> None -> V m' k <> None -> m = m';
  x_num : forall m k o n, V m k = Some (o, n) -> k = addr o n /\ exists x, al_get o idx = Some x /\ 1 <= n <= ix_counter x;
  x_cnt : forall o x, al_get o idx = Some x -> 0 <= ix_counter x <= 4294967295 }.

Lemma xok_well addr p : xok addr (view p) (p_idx p) -> well_indexed p /\ numbered_by addr p.
Proof.
  intros [_ H1 H2 H3 H4 H5 H6 H7]. split; [split|].
  - intros o x Hx k. rewrite (H1 _ _ Hx). split.
    + intros (m & n & G). apply in_view in G as (a & Ha & Ho & _). exists m, a. split; assumption.
    + intros (m & a & Ha & Ho). exists m, (a_num a). rewrite (view_in _ _ _ _ Ha), Ho. reflexivity.
  - exact H2.
  - exact H3.
  - intros o k Hn (m & a & Ha & Ho). apply (H4 o m k (a_num a) Hn). rewrite (view_in _ _ _ _ Ha), Ho. reflexivity.
  - intros m m' k a a' Ha Ha'. assert (E : m = m') by (apply (H5 m m' k); [rewrite (view_in _ _ _ _ Ha)|rewrite (view_in _ _ _ _ Ha')]; discriminate).
    split; [exact E|]. subst m'. exact (account_fun _ _ _ _ _ Ha Ha').
  - intros m k a Ha. destruct (H6 _ _ _ _ (view_in _ _ _ _ Ha)) as (G1 & x & G2 & G3). split; [exact G1|]. exists x. split; [exact G2|]. split; [exact G3|].
    exact (proj2 (H7 _ _ G2)).
Qed.

Lemma xok_ext addr V V' idx : (forall m k, V' m k = V m k) -> xok addr V idx -> xok addr V' idx.
Proof.
  intros E [H0 H1 H2 H3 H4 H5 H6 H7]. split; [exact H0| |exact H2|exact H3| | | |exact H7].
  - intros o x Hx k. rewrite (H1 _ _ Hx). split; intros (m & n & G); exists m, n; congruence.
  - intros o m k n Hn. rewrite E. exact (H4 o m k n Hn).
  - intros m m' k. rewrite !E. exact (H5 m m' k).
  - intros m k o n. rewrite E. exact (H6 m k o n).
Qed.

Lemma xok_new addr V idx o : xok addr V idx -> al_get o idx = None -> xok addr V ((o, mkIdx 0 []) :: idx).
Proof.
  intros [H0 H1 H2 H3 H4 H5 H6 H7] N.
  assert (C : forall o' x, al_get o' ((o, mkIdx 0 []) :: idx) = Some x -> (o' = o /\ x = mkIdx 0 []) \/ al_get o' idx = Some x).
  { intros o' x. cbn [al_get]. destruct (Z.eqb_spec o' o); [|auto]. intros G. left. split; [assumption|congruence]. }
  split; [cbn [map fst]; constructor; [apply al_get_none; exact N|exact H0]| | | | |exact H5| |].
  - intros o' x Hx k. destruct (C _ _ Hx) as [[-> ->]|G]; [|exact (H1 _ _ G k)]. cbn [ix_addrs]. split; [intros []|]. intros (m & n & G). exfalso. exact (H4 _ _ _ _ N G).
  - intros o' x Hx. destruct (C _ _ Hx) as [[-> ->]|G]; [constructor|exact (H2 _ _ G)].
  - intros o' x Hx. destruct (C _ _ Hx) as [[-> ->]|G]; [cbn; lia|exact (H3 _ _ G)].
  - intros o' m k n. cbn [al_get]. destruct (o' =? o); [discriminate|]. exact (H4 o' m k n).
  - intros m k o' n G. destruct (H6 _ _ _ _ G) as (G1 & x & G2 & G3). split; [exact G1|]. exists x. split; [|exact G3]. cbn [al_get].
    destruct (Z.eqb_spec o' o); [subst; congruence|exact G2].
  - intros o' x Hx. destruct (C _ _ Hx) as [[-> ->]|G]; [cbn; lia|exact (H7 _ _ G)].
Qed.

Lemma xok_end addr V idx o x : xok addr V idx -> al_get o idx = Some x -> ix_addrs x = [] -> xok addr V (al_del o idx).
Proof.
  intros [H0 H1 H2 H3 H4 H5 H6 H7] Hx N. pose proof (al_del_none o idx H0) as Dn.
  assert (C : forall o' y, al_get o' (al_del o idx) = Some y -> o' <> o /\ al_get o' idx = Some y).
  { intros o' y G. assert (o' <> o) by (intros ->; congruence). split; [assumption|]. rewrite al_get_del in G by assumption. exact G. }
  assert (Nv : forall m k n, V m k <> Some (o, n)).
  { intros m k n G. assert (I : In k (ix_addrs x)) by (apply (H1 _ _ Hx); exists m, n; exact G). rewrite N in I. exact I. }
  split; [apply al_keys_del; exact H0| | | | |exact H5| |].
  - intros o' y Hy k. exact (H1 _ _ (proj2 (C _ _ Hy)) k).
  - intros o' y Hy. exact (H2 _ _ (proj2 (C _ _ Hy))).
  - intros o' y Hy. exact (H3 _ _ (proj2 (C _ _ Hy))).
  - intros o' m k n G. destruct (Z.eq_dec o' o) as [->|E]; [apply Nv|]. rewrite al_get_del in G by exact E. exact (H4 _ _ _ _ G).
  - intros m k o' n G. destruct (H6 _ _ _ _ G) as (G1 & y & G2 & G3). split; [exact G1|]. exists y. split; [|exact G3].
    rewrite al_get_del; [exact G2|]. intros ->. exact (Nv _ _ _ G).
  - intros o' y Hy. exact (H7 _ _ (proj2 (C _ _ Hy))).
Qed.

Lemma xok_add addr V V' idx o x m k n : addresses_differ addr -> xok addr V idx -> al_get o idx = Some x -> n = ix_counter x + 1 -> n <= 4294967295 ->
  (length (ix_addrs x) < 256)%nat -> k = addr o n ->
  (forall m' k', V' m' k' = if (m' =? m) && (k' =? k) then Some (o, n) else V m' k') ->
  xok addr V' (al_set o (mkIdx n (ix_addrs x ++ [k])) idx).
Proof.
  intros [Da _] [H0 H1 H2 H3 H4 H5 H6 H7] Hx Hn Hu Hl Hk E. pose proof (H7 _ _ Hx) as Hc.
  assert (Fr : forall m', V m' k = None).
  { intros m'. destruct (V m' k) as [[o' n']|] eqn:G; [|reflexivity]. exfalso. destruct (H6 _ _ _ _ G) as (G1 & y & G2 & G3).
    pose proof (H7 _ _ G2). rewrite Hk in G1. destruct (Da o n o' n' ltac:(lia) ltac:(lia) G1) as [-> <-]. rewrite Hx in G2. injection G2 as <-. lia. }
  assert (C : forall o' y, al_get o' (al_set o (mkIdx n (ix_addrs x ++ [k])) idx) = Some y ->
    (o' = o /\ y = mkIdx n (ix_addrs x ++ [k])) \/ (o' <> o /\ al_get o' idx = Some y)).
  { intros o' y G. rewrite al_get_set in G. destruct (Z.eqb_spec o' o) as [->|D]; [|right; split; assumption]. rewrite Hx in G. left. split; [reflexivity|]. cbn in G. congruence. }
  split.
  - rewrite al_keys_set. exact H0.
  - intros o' y Hy k'. destruct (C _ _ Hy) as [[-> ->]|[D G]].
    + cbn [ix_addrs]. rewrite in_app_iff, (H1 _ _ Hx). split.
      * intros [(m' & n' & G)|[<-|[]]]; [|exists m, n; rewrite E, !Z.eqb_refl; reflexivity].
        exists m', n'. rewrite E. destruct (Z.eqb_spec k' k) as [->|]; [rewrite Fr in G; discriminate G|]. rewrite andb_false_r. exact G.
      * intros (m' & n' & G). rewrite E in G. destruct ((m' =? m) && (k' =? k)) eqn:Q; [right; left; lia|left; exists m', n'; exact G].
    + rewrite (H1 _ _ G). split; intros (m' & n' & F); exists m', n'.
      * rewrite E. destruct (Z.eqb_spec k' k) as [->|]; [rewrite Fr in F; discriminate F|]. rewrite andb_false_r. exact F.
      * rewrite E in F. destruct ((m' =? m) && (k' =? k)); [congruence|exact F].
  - intros o' y Hy. destruct (C _ _ Hy) as [[-> ->]|[D G]]; [|exact (H2 _ _ G)]. cbn [ix_addrs].
    apply NoDup_Add with (a := k) (l := ix_addrs x); [|split; [exact (H2 _ _ Hx)|]].
    + pose proof (Add_app k (ix_addrs x) []) as A. rewrite app_nil_r in A. exact A.
    + intros I. apply (H1 _ _ Hx) in I as (m' & n' & G). rewrite Fr in G. discriminate G.
  - intros o' y Hy. destruct (C _ _ Hy) as [[-> ->]|[D G]]; [|exact (H3 _ _ G)]. cbn [ix_addrs]. rewrite app_length. cbn [length]. lia.
  - intros o' m' k' n' G. rewrite al_get_set in G. destruct (Z.eqb_spec o' o) as [->|D]; [rewrite Hx in G; discriminate G|].
    rewrite E. destruct ((m' =? m) && (k' =? k)); [congruence|exact (H4 _ _ _ _ G)].
  - intros m1 m2 k'. rewrite !E. destruct (Z.eqb_spec k' k) as [->|]; [|rewrite !andb_false_r; apply H5].
    rewrite !andb_true_r, !Fr. destruct (Z.eqb_spec m1 m), (Z.eqb_spec m2 m); intros; subst; congruence.
  - intros m' k' o' n' G. rewrite E in G. destruct ((m' =? m) && (k' =? k)) eqn:Q.
    + injection G as <- <-. split; [lia|]. exists (mkIdx n (ix_addrs x ++ [k])). split; [rewrite (al_get_same _ _ _ _ Hx); reflexivity|]. cbn [ix_counter]. lia.
    + destruct (H6 _ _ _ _ G) as (G1 & y & G2 & G3). split; [exact G1|]. rewrite al_get_set. destruct (Z.eqb_spec o' o) as [->|]; [|exists y; split; assumption].
      rewrite Hx in G2 |- *. injection G2 as <-. cbn [option_map]. exists (mkIdx n (ix_addrs x ++ [k])). split; [reflexivity|]. cbn [ix_counter]. lia.
  - intros o' y Hy. destruct (C _ _ Hy) as [[-> ->]|[D G]]; [cbn [ix_counter]; lia|exact (H7 _ _ G)].
Qed.

Lemma remove_first_in k l : In k l -> exists l', remove_first k l = Some l'.
Proof.
  induction l as [|x r IH]; [intros []|]. cbn [remove_first]. destruct (Z.eqb_spec x k) as [->|N]; [intros _; exists r; reflexivity|].
  intros [G|G]; [congruence|]. destruct (IH G) as (l' & ->). exists (x :: l'). reflexivity.
Qed.
Lemma remove_first_nodup k l l' : NoDup l -> remove_first k l = Some l' -> NoDup l' /\ In k l /\ (forall j, In j l' <-> In j l /\ j <> k) /\ (length l' <= length l)%nat.
Proof.
  revert l'. induction l as [|x r IH]; cbn [remove_first]; intros l' N H; [discriminate H|]. inversion N as [|? ? N1 N2]; subst.
  destruct (Z.eqb_spec x k) as [->|D].
  - injection H as <-. split; [exact N2|]. split; [left; reflexivity|]. split; [|cbn; lia]. intros j. cbn [In]. split; [intros G; split; [right; exact G|]; intros ->; exact (N1 G)|].
    intros [[G|G] G']; [congruence|exact G].
  - destruct (remove_first k r) as [r'|]; [|discriminate H]. injection H as <-. destruct (IH _ N2 eq_refl) as (G1 & G2 & G3 & G4).
    split; [constructor; [rewrite G3; tauto|exact G1]|]. split; [right; exact G2|]. split; [|cbn; lia]. intros j. cbn [In]. rewrite G3. intuition congruence.
Qed.

Lemma xok_remove addr V V' idx o x m k n l : xok addr V idx -> al_get o idx = Some x -> V m k = Some (o, n) -> remove_first k (ix_addrs x) = Some l ->
  (forall m' k', V' m' k' = if (m' =? m) && (k' =? k) then None else V m' k') ->
  xok addr V' (al_set o (mkIdx (ix_counter x) l) idx).
Proof.
  intros [H0 H1 H2 H3 H4 H5 H6 H7] Hx Hv Hr E. destruct (remove_first_nodup _ _ _ (H2 _ _ Hx) Hr) as (R1 & R2 & R3 & R4).
  assert (C : forall o' y, al_get o' (al_set o (mkIdx (ix_counter x) l) idx) = Some y ->
    (o' = o /\ y = mkIdx (ix_counter x) l) \/ (o' <> o /\ al_get o' idx = Some y)).
  { intros o' y G. rewrite al_get_set in G. destruct (Z.eqb_spec o' o) as [->|D]; [|right; split; assumption]. rewrite Hx in G. left. split; [reflexivity|]. cbn in G. congruence. }
  assert (S : forall m' k' v, V' m' k' = Some v -> V m' k' = Some v).
  { intros m' k' v G. rewrite E in G. destruct ((m' =? m) && (k' =? k)); [discriminate G|exact G]. }
  split.
  - rewrite al_keys_set. exact H0.
  - intros o' y Hy k'. destruct (C _ _ Hy) as [[-> ->]|[D G]].
    + cbn [ix_addrs]. rewrite R3, (H1 _ _ Hx). split.
      * intros [(m' & n' & G) N]. exists m', n'. rewrite E. replace (k' =? k) with false by lia. rewrite andb_false_r. exact G.
      * intros (m' & n' & G). split; [exists m', n'; exact (S _ _ _ G)|]. intros ->. rewrite E, Z.eqb_refl, andb_true_r in G.
        destruct (Z.eqb_spec m' m) as [->|N]; [discriminate G|]. apply N. apply (H5 m' m k); congruence.
    + rewrite (H1 _ _ G). split; intros (m' & n' & F); exists m', n'; [|exact (S _ _ _ F)]. rewrite E.
      destruct ((m' =? m) && (k' =? k)) eqn:Q; [|exact F]. exfalso. apply andb_prop in Q as [Q1 Q2]. apply Z.eqb_eq in Q1, Q2. congruence.
  - intros o' y Hy. destruct (C _ _ Hy) as [[-> ->]|[D G]]; [exact R1|exact (H2 _ _ G)].
  - intros o' y Hy. destruct (C _ _ Hy) as [[-> ->]|[D G]]; [|exact (H3 _ _ G)]. cbn [ix_addrs]. pose proof (H3 _ _ Hx). lia.
  - intros o' m' k' n' G F. rewrite al_get_set in G. destruct (Z.eqb_spec o' o) as [->|D]; [rewrite Hx in G; discriminate G|]. exact (H4 _ _ _ _ G (S _ _ _ F)).
  - intros m1 m2 k' G G'. apply (H5 m1 m2 k').
    + destruct (V' m1 k') eqn:Q; [|congruence]. rewrite (S _ _ _ Q). discriminate.
    + destruct (V' m2 k') eqn:Q; [|congruence]. rewrite (S _ _ _ Q). discriminate.
  - intros m' k' o' n' G. destruct (H6 _ _ _ _ (S _ _ _ G)) as (G1 & y & G2 & G3). split; [exact G1|]. rewrite al_get_set.
    destruct (Z.eqb_spec o' o) as [->|]; [|exists y; split; assumption]. rewrite Hx in G2 |- *. injection G2 as <-. cbn [option_map].
    exists (mkIdx (ix_counter x) l). split; [reflexivity|exact G3].
  - intros o' y Hy. destruct (C _ _ Hy) as [[-> ->]|[D G]]; [exact (H7 _ _ Hx)|exact (H7 _ _ G)].
Qed.

(** ** The invariant *)
Lemma view_set p m s s' l m' k' : market_in p m = Some s ->
  view (mkProg (p_mkts (p_set_mkt p m s')) l (s_tok s')) m' k' = if m' =? m then idk (acct_get k' (w_accts (s_w s'))) else view p m' k'.
Proof.
  intros H. apply market_in_get in H as [H _]. unfold view. cbn [p_mkts p_set_mkt]. rewrite al_get_set. destruct (m' =? m); [|reflexivity]. rewrite H. reflexivity.
Qed.
Lemma view_of p m s k : market_in p m = Some s -> view p m k = idk (acct_get k (w_accts (s_w s))).
Proof. intros H. apply market_in_get in H as [H _]. unfold view. rewrite H. reflexivity. Qed.

Lemma exec_create e s k o d n s' out : exec e s (ICreateAccount k o d n) = Ok (s', out) ->
  s_closed s = false /\ k <> 0 /\ acct_get k (w_accts (s_w s)) = None /\ out = ONone /\
  s' = s_set_w s (w_set_accts (s_w s) ((k, mkOoa o d n 1 position0 (repeat open_order0 MAX_OPEN_ORDERS)) :: w_accts (s_w s))).
Proof.
  intros H. unfold exec in H. cbn [needs_market] in H. rewrite andb_true_r in H. destruct (s_closed s); [discriminate H|]. split; [reflexivity|].
  unfold exec_open in H. cbv zeta in H. unfold lift_w in H. apply bind_ok in H as (w & E & H). injection H as <- <-. unfold create_account_ix in E.
  apply bind_ok in E as (? & E1 & E). apply require_ok in E1. apply bind_ok in E as (? & E2 & E). apply require_ok in E2. injection E as <-.
  destruct (acct_get k (w_accts (s_w s))); [discriminate E1|]. split; [lia|]. split; [reflexivity|]. split; reflexivity.
Qed.
Lemma close_own e s u k s' out : exec e s (ICloseAccount u k) = Ok (s', out) ->
  exists a, acct_get k (w_accts (s_w s)) = Some a /\ a_owner a = u /\ position_is_empty (a_pos a) (a_version a) = true /\
  s' = s_set_w s (w_set_accts (s_w s) (acct_del k (w_accts (s_w s)))).
Proof.
  intros H. unfold exec in H. cbn [needs_market] in H. rewrite andb_false_r in H. unfold exec_open in H. cbv zeta in H. unfold lift_w in H.
  apply bind_ok in H as (w & E & H). injection H as <- <-. unfold close_account_ix in E. apply bind_ok in E as (a & Ea & E). apply acct_load_ok in Ea.
  apply bind_ok in E as (? & E1 & E). apply require_ok in E1. apply bind_ok in E as (? & E2 & E). apply require_ok in E2. injection E as <-.
  exists a. split; [exact Ea|]. split; [lia|]. split; [exact E2|reflexivity].
Qed.

Lemma pexec_xok addr e p i p' out : addresses_differ addr -> preachable addr p -> xok addr (view p) (p_idx p) -> pexec addr e p i = Ok (p', out) ->
  xok addr (view p') (p_idx p').
Proof.
  intros Hd Hr Hx H. pose proof (preachable_inv _ _ Hr) as Hp.
  destruct i as [m i|i|m c te|owner|owner|m owner delegate nl|m owner k]; cbn [pexec] in H.
  - apply bind_ok in H as (? & E1 & H). apply require_ok in E1. apply bind_ok in H as (? & E2 & H).
    apply bind_ok in H as (s & Em & H). apply load_market_in in Em. apply bind_ok in H as ([s' o] & E & H). injection H as <- _.
    apply (xok_ext _ (view p)); [|exact Hx]. intros m' k'. change (p_set_mkt p m s') with (mkProg (p_mkts (p_set_mkt p m s')) (p_idx p) (s_tok s')).
    rewrite (view_set _ _ _ _ _ _ _ Em). destruct (Z.eqb_spec m' m) as [->|]; [|reflexivity]. rewrite (view_of _ _ _ _ Em).
    apply (exec_ids _ _ _ _ _ (pv_reach _ Hp _ _ Em) E). destruct (uses_indexer i); [|reflexivity]. rewrite orb_true_r in E1. discriminate E1.
  - apply bind_ok in H as (? & E2 & H). apply bind_ok in H as (t & E & H). injection H as <- _. exact Hx.
  - apply bind_ok in H as (? & E1 & H). apply require_ok in E1. apply bind_ok in H as (? & E2 & H). apply bind_ok in H as (s & E & H). injection H as <- _.
    apply (xok_ext _ (view p)); [|exact Hx]. intros m' k'. unfold view. cbn [p_mkts al_get]. destruct (Z.eqb_spec m' m) as [->|]; [|reflexivity].
    destruct (al_get m (p_mkts p)); [discriminate E1|]. cbn [fst].
    unfold create_market_ix in E. cbv zeta in E. do 8 (apply bind_ok in E as (? & _ & E)). injection E as <-. reflexivity.
  - apply bind_ok in H as (? & _ & H). apply bind_ok in H as (? & E & H). apply require_ok in E. injection H as <- _.
    apply (xok_new addr (view p)); [exact Hx|]. destruct (al_get owner (p_idx p)); [discriminate E|reflexivity].
  - apply bind_ok in H as (? & _ & H). apply bind_ok in H as (y & Ex & H). apply al_load_ok in Ex. apply bind_ok in H as (? & E & H). apply require_ok in E. injection H as <- _.
    apply (xok_end addr (view p) _ _ y); [exact Hx|exact Ex|]. unfold has_active_open_orders_accounts in E. destruct (ix_addrs y); [reflexivity|discriminate E].
  - apply bind_ok in H as (? & E2 & H). apply bind_ok in H as (y & Ex & H). apply al_load_ok in Ex. apply bind_ok in H as (? & El & H). apply require_ok in El.
    apply bind_ok in H as (? & Eu & H). apply massert_ok in Eu. cbv zeta in H.
    apply bind_ok in H as (? & Et & H). apply bind_ok in H as (s & Em & H). apply load_market_in in Em. apply bind_ok in H as (? & _ & H).
    apply bind_ok in H as ([s' o] & E & H). injection H as <- _. apply exec_create in E as (_ & _ & En & _ & ->).
    apply (xok_add addr (view p) _ (p_idx p) owner y m (addr owner (ix_counter y + 1)) (ix_counter y + 1) Hd Hx Ex);
      [reflexivity|unfold u32_max in Eu; lia|unfold MAX_INDEXED in El; lia|reflexivity|].
    intros m' k'. match goal with |- view (p_set_idx (p_set_mkt p m ?s') ?o ?z) _ _ = _ => change (p_set_idx (p_set_mkt p m s') o z) with (mkProg (p_mkts (p_set_mkt p m s')) (al_set o z (p_idx p)) (s_tok s')) end.
    rewrite (view_set _ _ _ _ _ _ _ Em). destruct (Z.eqb_spec m' m) as [->|]; [|reflexivity]. cbn [andb s_set_w s_w w_set_accts w_accts acct_get].
    rewrite (view_of _ _ _ _ Em). destruct (k' =? addr owner (ix_counter y + 1)); reflexivity.
  - apply bind_ok in H as (? & E2 & H). apply bind_ok in H as (y & Ex & H). apply al_load_ok in Ex. apply bind_ok in H as (? & _ & H).
    apply bind_ok in H as (s & Em & H). apply load_market_in in Em. apply bind_ok in H as ([s' o] & E & H). apply bind_ok in H as (l & El & H). injection H as <- _.
    pose proof (close_own _ _ _ _ _ _ E) as (a & Ea & Eo & _). destruct (close_account_ok _ _ _ _ _ _ _ (pv_reach _ Hp _ _ Em) E Ea) as (_ & _ & _ & N1 & N2).
    apply (xok_remove addr (view p) _ (p_idx p) owner y m k (a_num a) l Hx Ex); [rewrite (view_of _ _ _ _ Em), Ea; cbn; congruence| |].
    + unfold unwrap in El. destruct (remove_first k (ix_addrs y)); [congruence|discriminate El].
    + intros m' k'. match goal with |- view (p_set_idx (p_set_mkt p m ?s') ?o ?z) _ _ = _ => change (p_set_idx (p_set_mkt p m s') o z) with (mkProg (p_mkts (p_set_mkt p m s')) (al_set o z (p_idx p)) (s_tok s')) end.
      rewrite (view_set _ _ _ _ _ _ _ Em). destruct (Z.eqb_spec m' m) as [->|]; [|reflexivity]. cbn [andb].
      rewrite (view_of _ _ _ _ Em). destruct (Z.eqb_spec k' k) as [->|D]; [rewrite N1; reflexivity|rewrite (N2 _ D); reflexivity].
Qed.
Lemma preachable_xok addr p : addresses_differ addr -> preachable addr p -> xok addr (view p) (p_idx p).
Proof.
  intros Hd. induction 1 as [t|e p i p' out R IH H]; [|exact (pexec_xok _ _ _ _ _ _ Hd R IH H)].
  split; cbn [prog0 p_idx p_mkts al_get map].
  - constructor.
  - intros o x G. discriminate G.
  - intros o x G. discriminate G.
  - intros o x G. discriminate G.
  - intros o m k n _ G. discriminate G.
  - intros m m' k G. exfalso. apply G. reflexivity.
  - intros m k o n G. discriminate G.
  - intros o x G. discriminate G.
Qed.

(** ** When the instructions succeed *)
Lemma not_taken addr p o x : addresses_differ addr -> preachable addr p -> al_get o (p_idx p) = Some x -> ix_counter x < 4294967295 ->
  forall m, view p m (addr o (ix_counter x + 1)) = None.
Proof.
  intros Hd Hr Hx Hc m. pose proof (preachable_xok _ _ Hd Hr) as [_ _ _ _ _ _ H6 H7]. pose proof (H7 _ _ Hx).
  destruct (view p m (addr o (ix_counter x + 1))) as [[o' n']|] eqn:G; [|reflexivity]. exfalso.
  destruct (H6 _ _ _ _ G) as (G1 & y & G2 & G3). pose proof (H7 _ _ G2). destruct Hd as [Da _].
  destruct (Da o (ix_counter x + 1) o' n' ltac:(lia) ltac:(lia) G1) as [<- <-]. rewrite Hx in G2. injection G2 as <-. lia.
Qed.
Lemma address_free p k : (forall m, view p m k = None) -> NoDup (map fst (p_mkts p)) -> address_taken p k = false.
Proof.
  intros H N. unfold address_taken. destruct (existsb _ (p_mkts p)) eqn:E; [|reflexivity]. exfalso.
  apply existsb_exists in E as ([m x] & I & E). cbn [snd] in E. apply (al_get_key _ _ _ N) in I. specialize (H m). unfold view in H. rewrite I in H.
  destruct (acct_get k (w_accts (fst x))); [discriminate H|discriminate E].
Qed.

Lemma creates_iff addr e p m o d nl : addresses_differ addr -> preachable addr p -> is_authority p o = false ->
  (exists p' out, pexec addr e p (PCreateAccount m o d nl) = Ok (p', out)) <->
  (exists x s, al_get o (p_idx p) = Some x /\ (length (ix_addrs x) < 256)%nat /\ ix_counter x < 4294967295 /\
     market_in p m = Some s /\ s_closed s = false /\ nl <= 32).
Proof.
  intros Hd Hr Ha. pose proof (preachable_inv _ _ Hr) as Hp. split.
  - intros (p' & out & H). cbn [pexec] in H. apply bind_ok in H as (? & _ & H). apply bind_ok in H as (y & Ex & H). apply al_load_ok in Ex.
    apply bind_ok in H as (? & El & H). apply require_ok in El. apply bind_ok in H as (? & Eu & H). apply massert_ok in Eu. cbv zeta in H.
    apply bind_ok in H as (? & _ & H). apply bind_ok in H as (s & Em & H). apply load_market_in in Em. apply bind_ok in H as (? & En & H). apply require_ok in En.
    apply bind_ok in H as ([s' o'] & E & _). apply exec_create in E as (Hc & _). unfold MAX_INDEXED in El. unfold u32_max in Eu. unfold NAME_LEN in En.
    exists y, s. split; [exact Ex|]. split; [lia|]. split; [lia|]. split; [exact Em|]. split; [exact Hc|lia].
  - intros (x & s & Hx & Hl & Hc & Hm & Ho & Hn). cbn [pexec]. rewrite Ha. cbn [negb require bind]. unfold al_load. rewrite Hx. cbn [bind].
    replace (Z.of_nat (length (ix_addrs x)) <? MAX_INDEXED) with true by (unfold MAX_INDEXED; lia). cbn [require bind].
    replace (ix_counter x + 1 <=? u32_max) with true by (unfold u32_max; lia). cbn [massert bind]. cbv zeta.
    pose proof (not_taken _ _ _ _ Hd Hr Hx Hc) as Hv. rewrite (address_free _ _ Hv (pv_keys _ Hp)). cbn [negb require bind].
    rewrite (market_in_load _ _ _ Hm). cbn [bind]. replace (nl <=? NAME_LEN) with true by (unfold NAME_LEN; lia). cbn [require bind].
    specialize (Hv m). rewrite (view_of _ _ _ _ Hm) in Hv.
    unfold exec. rewrite Ho. cbn [andb]. unfold exec_open. cbv zeta. unfold create_account_ix, lift_w.
    destruct (acct_get (addr o (ix_counter x + 1)) (w_accts (s_w s))); [discriminate Hv|]. cbn [require bind].
    pose proof (x_cnt _ _ _ (preachable_xok _ _ Hd Hr) _ _ Hx) as Hb. pose proof (proj2 Hd o (ix_counter x + 1) ltac:(lia)) as Hz.
    replace (addr o (ix_counter x + 1) =? 0) with false by lia. cbn [negb require bind]. eexists. eexists. reflexivity.
Qed.

Lemma creates_what addr e p m o d nl p' out : addresses_differ addr -> preachable addr p -> pexec addr e p (PCreateAccount m o d nl) = Ok (p', out) ->
  exists x a, al_get o (p_idx p) = Some x /\ let n := ix_counter x + 1 in
    al_get o (p_idx p') = Some (mkIdx n (ix_addrs x ++ [addr o n])) /\ account_in p' m (addr o n) a /\ a_owner a = o /\ a_delegate a = d /\ a_num a = n /\
    a_pos a = position0 /\ (forall oo, In oo (a_orders a) -> oo = open_order0) /\ ~ (exists m' a', account_in p m' (addr o n) a').
Proof.
  intros Hd Hr H. pose proof (preachable_xok _ _ Hd Hr) as Hx. cbn [pexec] in H. apply bind_ok in H as (? & _ & H). apply bind_ok in H as (y & Ex & H). apply al_load_ok in Ex.
  apply bind_ok in H as (? & El & H). apply bind_ok in H as (? & Eu & H). apply massert_ok in Eu. cbv zeta in H.
  apply bind_ok in H as (? & _ & H). apply bind_ok in H as (s & Em & H). apply load_market_in in Em. apply bind_ok in H as (? & En & H).
  apply bind_ok in H as ([s' o'] & E & H). injection H as <- _. apply exec_create in E as (Hc & Hz & Hf & _ & ->).
  eexists. eexists. split; [exact Ex|]. cbv zeta. cbn [p_set_idx p_idx]. split; [exact (al_get_same _ _ _ _ Ex)|]. split.
  - eexists. split; [unfold market_in; cbn [p_set_idx p_mkts p_set_mkt]; rewrite (al_get_same _ _ _ _ (proj1 (market_in_get _ _ _ Em))); reflexivity|].
    cbn [s_w fst s_set_w w_set_accts w_accts acct_get]. rewrite Z.eqb_refl. reflexivity.
  - cbn [a_owner a_delegate a_num a_pos a_orders]. split; [reflexivity|]. split; [reflexivity|]. split; [reflexivity|]. split; [reflexivity|]. split.
    + intros oo G. exact (repeat_spec _ _ _ G).
    + intros (m' & a' & G). apply view_in in G. unfold u32_max in Eu. rewrite (not_taken _ _ _ _ Hd Hr Ex ltac:(lia) m') in G. discriminate G.
Qed.

Lemma closes_iff addr e p m o k : addresses_differ addr -> preachable addr p -> is_authority p o = false ->
  (exists p' out, pexec addr e p (PCloseAccount m o k) = Ok (p', out)) <->
  (exists a, account_in p m k a /\ a_owner a = o /\ position_is_empty (a_pos a) (a_version a) = true).
Proof.
  intros Hd Hr Ha. pose proof (preachable_inv _ _ Hr) as Hp. pose proof (preachable_xok _ _ Hd Hr) as Hx. split.
  - intros (p' & out & H). cbn [pexec] in H. apply bind_ok in H as (? & _ & H). apply bind_ok in H as (y & Ex & H). apply bind_ok in H as (? & _ & H).
    apply bind_ok in H as (s & Em & H). apply load_market_in in Em. apply bind_ok in H as ([s' o'] & E & _). apply close_own in E as (a & G1 & G2 & G3 & _).
    exists a. split; [exists s; split; assumption|]. split; assumption.
  - intros (a & Hk & Ho & He). pose proof (view_in _ _ _ _ Hk) as Hv. rewrite Ho in Hv. destruct (x_num _ _ _ Hx _ _ _ _ Hv) as (_ & x & Ex & _).
    assert (I : In k (ix_addrs x)) by (apply (x_lists _ _ _ Hx _ _ Ex); exists m, (a_num a); exact Hv).
    destruct (remove_first_in _ _ I) as (l & El). destruct Hk as (s & Hm & Hk).
    cbn [pexec]. rewrite Ha. cbn [negb require bind]. unfold al_load. rewrite Ex. cbn [bind].
    replace (0 <? Z.of_nat (length (ix_addrs x))) with true by (destruct (ix_addrs x); [destruct I|cbn [length]; lia]). cbn [massert bind].
    rewrite (market_in_load _ _ _ Hm). cbn [bind]. unfold exec. cbn [needs_market]. rewrite andb_false_r. unfold exec_open. cbv zeta. unfold close_account_ix, lift_w, acct_load.
    rewrite Hk. cbn [bind]. rewrite Ho, Z.eqb_refl. cbn [require bind]. rewrite He. cbn [require bind]. rewrite El. cbn [unwrap bind]. eexists. eexists. reflexivity.
Qed.

Lemma ends_iff addr e p o : addresses_differ addr -> preachable addr p -> is_authority p o = false ->
  (exists p' out, pexec addr e p (PCloseIndexer o) = Ok (p', out)) <-> (al_get o (p_idx p) <> None /\ forall k, ~ owns p o k).
Proof.
  intros Hd Hr Ha. pose proof (preachable_xok _ _ Hd Hr) as Hx. destruct (xok_well _ _ Hx) as [Hw _]. split.
  - intros (p' & out & H). cbn [pexec] in H. apply bind_ok in H as (? & _ & H). apply bind_ok in H as (y & Ex & H). apply al_load_ok in Ex. apply bind_ok in H as (? & E & _). apply require_ok in E.
    split; [congruence|]. intros k G. apply (wi_lists _ Hw _ _ Ex) in G. unfold has_active_open_orders_accounts in E. destruct (ix_addrs y); [exact G|discriminate E].
  - intros [N G]. destruct (al_get o (p_idx p)) as [x|] eqn:Ex; [|congruence]. cbn [pexec]. rewrite Ha. cbn [negb require bind]. unfold al_load. rewrite Ex. cbn [bind].
    unfold has_active_open_orders_accounts. destruct (ix_addrs x) as [|k r] eqn:El.
    + cbn [negb require bind]. eexists. eexists. reflexivity.
    + exfalso. apply (G k). apply (wi_lists _ Hw _ _ Ex). rewrite El. left. reflexivity.
Qed.

(** ** Addresses are not used twice while the indexer lives *)
Lemma idx_step addr e p i p' out o : pexec addr e p i = Ok (p', out) -> i <> PCloseIndexer o -> addresses_differ addr -> preachable addr p ->
  counted p o <= counted p' o /\
  (forall m k n, view p' m k = Some (o, n) -> n <= counted p o -> view p m k = Some (o, n)).
Proof.
  intros H N Hd Hr. pose proof (preachable_xok _ _ Hd Hr) as Hx. pose proof (preachable_inv _ _ Hr) as Hp.
  assert (Sm : p_idx p' = p_idx p -> (forall m k, view p' m k = view p m k) -> counted p o <= counted p' o /\
     (forall m k n, view p' m k = Some (o, n) -> n <= counted p o -> view p m k = Some (o, n))).
  { intros E1 E2. split; [unfold counted; rewrite E1; lia|]. intros m k n G _. congruence. }
  destruct i as [m i|i|m c te|owner|owner|m owner delegate nl|m owner k]; cbn [pexec] in H.
  - apply bind_ok in H as (? & E1 & H). apply require_ok in E1. apply bind_ok in H as (? & E2 & H).
    apply bind_ok in H as (s & Em & H). apply load_market_in in Em. apply bind_ok in H as ([s' o'] & E & H). injection H as <- _.
    apply Sm; [reflexivity|]. intros m' k'. change (p_set_mkt p m s') with (mkProg (p_mkts (p_set_mkt p m s')) (p_idx p) (s_tok s')).
    rewrite (view_set _ _ _ _ _ _ _ Em). destruct (Z.eqb_spec m' m) as [->|]; [|reflexivity]. rewrite (view_of _ _ _ _ Em).
    apply (exec_ids _ _ _ _ _ (pv_reach _ Hp _ _ Em) E). destruct (uses_indexer i); [|reflexivity]. rewrite orb_true_r in E1. discriminate E1.
  - apply bind_ok in H as (? & E2 & H). apply bind_ok in H as (t & E & H). injection H as <- _. apply Sm; reflexivity.
  - apply bind_ok in H as (? & E1 & H). apply require_ok in E1. apply bind_ok in H as (? & E2 & H). apply bind_ok in H as (s & E & H). injection H as <- _.
    apply Sm; [reflexivity|]. intros m' k'. unfold view. cbn [p_mkts al_get]. destruct (Z.eqb_spec m' m) as [->|]; [|reflexivity].
    destruct (al_get m (p_mkts p)); [discriminate E1|]. cbn [fst].
    unfold create_market_ix in E. cbv zeta in E. do 8 (apply bind_ok in E as (? & _ & E)). injection E as <-. reflexivity.
  - apply bind_ok in H as (? & _ & H). apply bind_ok in H as (? & E & H). apply require_ok in E. injection H as <- _. split.
    + unfold counted. cbn [p_idx al_get]. destruct (Z.eqb_spec o owner) as [->|]; [|lia]. destruct (al_get owner (p_idx p)); [discriminate E|cbn; lia].
    + intros m k n G _. exact G.
  - apply bind_ok in H as (? & _ & H). apply bind_ok in H as (y & Ex & H). apply bind_ok in H as (? & E & H). injection H as <- _. split.
    + unfold counted. cbn [p_idx]. rewrite al_get_del by congruence. lia.
    + intros m k n G _. exact G.
  - apply bind_ok in H as (? & E2 & H). apply bind_ok in H as (y & Ex & H). apply al_load_ok in Ex. apply bind_ok in H as (? & El & H).
    apply bind_ok in H as (? & Eu & H). cbv zeta in H. apply bind_ok in H as (? & Et & H). apply bind_ok in H as (s & Em & H). apply load_market_in in Em. apply bind_ok in H as (? & _ & H).
    apply bind_ok in H as ([s' o'] & E & H). injection H as <- _. apply exec_create in E as (_ & _ & En & _ & ->). split.
    + unfold counted. cbn [p_set_idx p_idx p_set_mkt]. rewrite al_get_set. destruct (Z.eqb_spec o owner) as [->|]; [rewrite Ex; cbn; lia|lia].
    + intros m' k' n. match goal with |- view (p_set_idx (p_set_mkt p m ?s') ?o ?z) _ _ = _ -> _ => change (p_set_idx (p_set_mkt p m s') o z) with (mkProg (p_mkts (p_set_mkt p m s')) (al_set o z (p_idx p)) (s_tok s')) end.
      rewrite (view_set _ _ _ _ _ _ _ Em). destruct (Z.eqb_spec m' m) as [->|]; [|intros G _; exact G]. cbn [andb s_set_w s_w w_set_accts w_accts acct_get].
      rewrite (view_of _ _ _ _ Em). destruct (k' =? addr owner (ix_counter y + 1)); [|intros G _; exact G]. cbn [idk option_map a_owner a_num].
      intros G L. injection G as -> <-. unfold counted in L. rewrite Ex in L. lia.
  - apply bind_ok in H as (? & E2 & H). apply bind_ok in H as (y & Ex & H). apply al_load_ok in Ex. apply bind_ok in H as (? & _ & H).
    apply bind_ok in H as (s & Em & H). apply load_market_in in Em. apply bind_ok in H as ([s' o'] & E & H). apply bind_ok in H as (l & El & H). injection H as <- _.
    pose proof (close_own _ _ _ _ _ _ E) as (a & Ea & Eo & _). destruct (close_account_ok _ _ _ _ _ _ _ (pv_reach _ Hp _ _ Em) E Ea) as (_ & _ & _ & N1 & N2). split.
    + unfold counted. cbn [p_set_idx p_idx p_set_mkt]. rewrite al_get_set. destruct (Z.eqb_spec o owner) as [->|]; [rewrite Ex; cbn; lia|lia].
    + intros m' k' n. match goal with |- view (p_set_idx (p_set_mkt p m ?s') ?o ?z) _ _ = _ -> _ => change (p_set_idx (p_set_mkt p m s') o z) with (mkProg (p_mkts (p_set_mkt p m s')) (al_set o z (p_idx p)) (s_tok s')) end.
      rewrite (view_set _ _ _ _ _ _ _ Em). destruct (Z.eqb_spec m' m) as [->|]; [|intros G _; exact G].
      rewrite (view_of _ _ _ _ Em). destruct (Z.eqb_spec k' k) as [->|D]; [rewrite N1; discriminate|rewrite (N2 _ D); intros G _; exact G].
Qed.
Lemma runs_idx addr o p p' : runs_indexed addr o p p' -> addresses_differ addr -> preachable addr p ->
  counted p o <= counted p' o /\ (forall m k n, view p' m k = Some (o, n) -> n <= counted p o -> view p m k = Some (o, n)).
Proof.
  induction 1 as [p|e p i p1 out p2 H N _ IH]; intros Hd Hr; [split; [lia|auto]|].
  destruct (idx_step _ _ _ _ _ _ o H N Hd Hr) as [A1 A2]. destruct (IH Hd (pr_step _ _ _ _ _ _ Hr H)) as [B1 B2].
  split; [lia|]. intros m k n G L. apply A2; [|exact L]. apply B2; [exact G|lia].
Qed.
Lemma no_reuse addr o p p' m k a : runs_indexed addr o p p' -> addresses_differ addr -> preachable addr p ->
  account_in p' m k a -> a_owner a = o -> a_num a <= counted p o -> exists a0, account_in p m k a0 /\ a_owner a0 = o /\ a_num a0 = a_num a.
Proof.
  intros H Hd Hr Ha Ho Hn. apply (runs_idx _ _ _ _ H Hd Hr) with (m := m) (k := k) (n := a_num a) in Hn.
  - apply in_view in Hn. exact Hn.
  - rewrite (view_in _ _ _ _ Ha), Ho. reflexivity.
Qed.
