(** Proofs about finding open orders accounts. *)
From Coq Require Import ZArith List Bool Lia ZifyBool.
From Verif Require Import Base Nodes OrderTree BookSide Heap Market OpenOrders Order Book Instructions SpecBook SpecLedger SpecSystem SpecFit
  BaseFacts Ledger LedgerOrder LedgerInv SystemFacts LifeFacts FitIx SpecWind LockFacts Program SpecProgram ProgFacts IndexFacts ProgramProofs
  Ts Bytes SpecBytes BytesFacts BytesDec BytesOn Find FindOo SpecFindOo.
Import ListNotations.
Open Scope Z_scope.

Lemma indexer_length disc bump x : length disc = 8%nat ->
  Z.of_nat (length (indexer_account disc bump x)) = indexer_space (Z.of_nat (length (ix_addrs x))).
Proof.
  intros Hd. unfold indexer_account, indexer_space. rewrite !app_length, Hd, !le_length.
  assert (E : length (concat (map (le 32) (ix_addrs x))) = (32 * length (ix_addrs x))%nat).
  { induction (ix_addrs x) as [|k l IH]; [reflexivity|]. cbn [map concat length]. rewrite app_length, le_length, IH. lia. }
  rewrite E. lia.
Qed.
Lemma indexer_reads disc bump x : length disc = 8%nat -> is_u8 bump -> is_u32 (ix_counter x) -> (length (ix_addrs x) <= 256)%nat -> Forall is_address (ix_addrs x) ->
  ts_indexer (indexer_account disc bump x) = Some (bump, ix_counter x, ix_addrs x).
Proof.
  intros Hd Hb Hc Hl Ha. unfold ts_indexer, indexer_account. rewrite (skip_app disc _ 8 0) by lia. rewrite skipn_O.
  rewrite rd_le, rd_le, rd_le.
  rewrite (Z.mod_small bump) by exact Hb. rewrite (Z.mod_small (ix_counter x)) by exact Hc.
  rewrite Z.mod_small by (change (256 ^ Z.of_nat 4) with 4294967296; lia). rewrite Nat2Z.id.
  pose proof (rd_many_ok (rd 32) (fun z => z) (le 32) (ix_addrs x)) as R. rewrite <- (app_nil_r (concat _)). rewrite R, map_id; [reflexivity|].
  intros k r Hk. rewrite rd_le. rewrite Forall_forall in Ha. rewrite Z.mod_small by exact (Ha _ Hk). reflexivity.
Qed.
(** Whatever its counter and bump are, the list is read. *)
Lemma indexer_lists disc bump x : length disc = 8%nat -> (length (ix_addrs x) <= 256)%nat -> Forall is_address (ix_addrs x) ->
  exists b c, ts_indexer (indexer_account disc bump x) = Some (b, c, ix_addrs x).
Proof.
  intros Hd Hl Ha. unfold ts_indexer, indexer_account. rewrite (skip_app disc _ 8 0) by lia. rewrite skipn_O.
  rewrite rd_le, rd_le, rd_le.
  rewrite (Z.mod_small (Z.of_nat _)) by (change (256 ^ Z.of_nat 4) with 4294967296; lia). rewrite Nat2Z.id.
  pose proof (rd_many_ok (rd 32) (fun z => z) (le 32) (ix_addrs x)) as R. rewrite <- (app_nil_r (concat _)). rewrite R, map_id; [eauto|].
  intros k r Hk. rewrite rd_le. rewrite Forall_forall in Ha. rewrite Z.mod_small by exact (Ha _ Hk). reflexivity.
Qed.

(** ** Every market on chain *)
Lemma outside_run w cl t t' : outside w t t' -> run_on_chain (mkSys w t cl) -> run_on_chain (mkSys w t' cl).
Proof.
  induction 1 as [t|t i t1 t2 Hi Hs H _ IH]; intros R; [exact R|]. apply IH.
  apply (on_step (mkEnv 0 (Ok None)) _ i _ ONone R); [|exact (action_exec _ _ _ _ _ _ Hi Hs H)]. split; [cbn; lia|destruct i; try discriminate Hi; exact I].
Qed.
Definition sound_market (m : Z) (s : sys) : Prop :=
  run_on_chain s /\ keys_fit (m_cfg (w_mkt (s_w s))) /\ c_market (m_cfg (w_mkt (s_w s))) = m /\ is_address m.
Definition chain_inv (p : prog) : Prop := forall m s, market_in p m = Some s -> sound_market m s.
Lemma sound_step m s e i s' out : sound_market m s -> machine_call e i -> exec e s i = Ok (s', out) -> sound_market m s'.
Proof.
  intros (R & K & C & A) Hc H. split; [exact (on_step _ _ _ _ _ R Hc H)|].
  rewrite (ag_cfg _ _ (exec_ages _ _ _ _ _ (chain_reachable _ R) H)). auto.
Qed.
Lemma created_cfg now t c te s : create_market_ix now t c te = Ok s -> m_cfg (w_mkt (s_w s)) = c.
Proof.
  intros H. unfold create_market_ix in H. cbv zeta in H. repeat (apply bind_ok in H as (? & _ & H)). injection H as <-. reflexivity.
Qed.
Lemma chain_reaches addr p : program_on_chain addr p -> preachable addr p.
Proof. induction 1 as [t|e p i p' out _ IH _ H]; [constructor|exact (pr_step _ _ _ _ _ _ IH H)]. Qed.
Lemma keep_other addr e p i p' out m s s' : preachable addr p -> chain_inv p -> pexec addr e p i = Ok (p', out) ->
  market_in p m = Some s -> market_of i <> Some m -> market_in p' m = Some s' -> sound_market m s'.
Proof.
  intros Hr IM H Hm N Hm'. pose proof (preachable_inv _ _ Hr) as Hp. destruct (proj2 (pexec_inv _ _ _ _ _ _ Hp H) _ _ Hm N) as [E O].
  rewrite Hm' in E. injection E as ->. destruct (IM _ _ Hm) as (R & S). split; [|exact S].
  rewrite (market_tok _ _ _ Hm) in R. exact (outside_run _ _ _ _ O R).
Qed.
Lemma keep_rest addr e p i p' out m s' : preachable addr p -> chain_inv p -> pexec addr e p i = Ok (p', out) ->
  al_get m (p_mkts p') = None \/ al_get m (p_mkts p) <> None -> market_of i <> Some m -> market_in p' m = Some s' -> sound_market m s'.
Proof.
  intros Hr IM H G N Hm'. assert (X : exists s0, market_in p m = Some s0).
  { destruct G as [G|G]; [unfold market_in in Hm'; rewrite G in Hm'; discriminate Hm'|]. unfold market_in. destruct (al_get m (p_mkts p)); [eexists; reflexivity|congruence]. }
  destruct X as (s0 & X). exact (keep_other _ _ _ _ _ _ _ _ _ Hr IM H X N Hm').
Qed.
Lemma other_key {A} m k (v : A) l : m <> k -> al_get m (al_set k v l) = None \/ al_get m l <> None.
Proof. intros N. rewrite al_get_other by exact N. destruct (al_get m l); [right; discriminate|left; reflexivity]. Qed.
Lemma step_one addr e p i p' out m s j s1 o l : preachable addr p -> chain_inv p -> pexec addr e p i = Ok (p', out) ->
  market_in p m = Some s -> machine_call e j -> exec e s j = Ok (s1, o) -> market_of i = Some m ->
  p' = mkProg (al_set m (s_w s1, s_closed s1) (p_mkts p)) l (s_tok s1) -> chain_inv p'.
Proof.
  intros Hr IM H Hm Hj E Mo Ep m' s' Hm'. destruct (Z.eq_dec m' m) as [->|N].
  - pose proof (sound_step _ _ _ _ _ _ (IM _ _ Hm) Hj E) as G. rewrite Ep in Hm'. unfold market_in in Hm'. cbn [p_mkts p_tok] in Hm'.
    rewrite (al_get_same _ _ _ _ (proj1 (market_in_get _ _ _ Hm))) in Hm'. cbn [option_map fst snd] in Hm'. destruct s1. injection Hm' as <-. exact G.
  - apply (keep_rest addr e p i p' out m' s' Hr IM H); [|congruence|exact Hm']. rewrite Ep. exact (other_key _ _ _ _ N).
Qed.
Lemma next_u32 z v : 0 <= z -> massert (z + 1 <=? u32_max) = Ok v -> is_u32 (z + 1).
Proof.
  intros Hz H. destruct (Z.leb_spec (z + 1) u32_max) as [L|L]; [|discriminate H]. unfold is_u32. change u32_max with 4294967295 in L. change (2 ^ 32) with 4294967296. lia.
Qed.
Lemma chain_step addr e p i p' out : addresses_differ addr -> preachable addr p -> chain_inv p -> machine_pcall e i -> pexec addr e p i = Ok (p', out) -> chain_inv p'.
Proof.
  intros HA Hr IM [Hn Hi] H. pose proof H as H0.
  assert (Same : market_of i = None -> p_mkts p' = p_mkts p -> chain_inv p').
  { intros Mo Em m' s' Hm'. apply (keep_rest addr e p i p' out m' s' Hr IM H0); [|congruence|exact Hm']. rewrite Em. destruct (al_get m' (p_mkts p)); [right; discriminate|left; reflexivity]. }
  destruct i as [m i|i|m c te|owner|owner|m owner delegate nl|m owner k]; cbn [pexec] in H.
  - do 2 (apply bind_ok in H as (? & _ & H)). apply bind_ok in H as (s & Em & H). apply load_market_in in Em. apply bind_ok in H as ([s' o] & E & H). injection H as H _.
    exact (step_one _ _ _ _ _ _ _ _ _ _ _ _ Hr IM H0 Em Hi E eq_refl (eq_sym H)).
  - apply bind_ok in H as (? & _ & H). apply bind_ok in H as (t & E & H). injection H as H _. apply Same; [reflexivity|rewrite <- H; reflexivity].
  - apply bind_ok in H as (? & E1 & H). apply require_ok in E1. apply bind_ok in H as (? & E2 & H). apply require_ok in E2. apply andb_prop in E2 as [_ E2]. apply andb_prop in E2 as [_ E2].
    apply bind_ok in H as (s & E & H). injection H as H _. intros m' s' Hm'. destruct (Z.eq_dec m' m) as [->|N].
    + rewrite <- H in Hm'. unfold market_in in Hm'. cbn [p_mkts p_tok al_get] in Hm'. rewrite Z.eqb_refl in Hm'. cbn [option_map fst snd] in Hm'.
      destruct (create_tokens _ _ _ _ _ E) as (_ & _ & Ec & _). rewrite <- Ec in Hm'. pose proof (on_create _ _ _ _ _ E) as R. pose proof (created_cfg _ _ _ _ _ E) as C.
      assert (Es : s' = s) by (injection Hm' as <-; destruct s; reflexivity). rewrite Es.
      split; [exact R|]. rewrite C. split; [exact (proj2 Hi)|]. split; [apply Z.eqb_eq; exact E2|exact (proj1 Hi)].
    + apply (keep_rest _ _ _ _ _ _ m' s' Hr IM H0); [|cbn [market_of]; congruence|exact Hm']. rewrite <- H. cbn [p_mkts al_get]. destruct (Z.eqb_spec m' m); [contradiction|].
      destruct (al_get m' (p_mkts p)); [right; discriminate|left; reflexivity].
  - apply bind_ok in H as (? & _ & H). apply bind_ok in H as (? & _ & H). injection H as H _. apply Same; [reflexivity|rewrite <- H; reflexivity].
  - apply bind_ok in H as (? & _ & H). apply bind_ok in H as (idx & _ & H). apply bind_ok in H as (? & _ & H). injection H as H _. apply Same; [reflexivity|rewrite <- H; reflexivity].
  - apply bind_ok in H as (? & _ & H). apply bind_ok in H as (idx & Ei & H). apply al_load_ok in Ei. apply bind_ok in H as (? & _ & H). apply bind_ok in H as (? & Eu & H). cbv zeta in H.
    apply bind_ok in H as (? & _ & H). apply bind_ok in H as (s & Em & H). apply load_market_in in Em. apply bind_ok in H as (? & _ & H).
    apply bind_ok in H as ([s' o] & E & H). injection H as H _. pose proof (x_cnt _ _ _ (preachable_xok _ _ HA Hr) _ _ Ei) as C0.
    assert (Hj : machine_call e (ICreateAccount (addr owner (ix_counter idx + 1)) owner delegate (ix_counter idx + 1))).
    { split; [exact Hn|]. split; [exact (proj1 Hi)|]. split; [exact (proj2 Hi)|].
      exact (next_u32 _ _ (proj1 C0) Eu). }
    exact (step_one _ _ _ _ _ _ _ _ _ _ _ _ Hr IM H0 Em Hj E eq_refl (eq_sym H)).
  - apply bind_ok in H as (? & _ & H). apply bind_ok in H as (idx & Ei & H). apply bind_ok in H as (? & _ & H).
    apply bind_ok in H as (s & Em & H). apply load_market_in in Em. apply bind_ok in H as ([s' o] & E & H). apply bind_ok in H as (l & _ & H). injection H as H _.
    assert (Hj : machine_call e (ICloseAccount owner k)) by (split; [exact Hn|exact I]).
    exact (step_one _ _ _ _ _ _ _ _ _ _ _ _ Hr IM H0 Em Hj E eq_refl (eq_sym H)).
Qed.
Lemma chain_always addr p : addresses_differ addr -> program_on_chain addr p -> chain_inv p.
Proof.
  intros HA. induction 1 as [t|e p i p' out R IH Hc H]; [intros m s G; discriminate G|].
  exact (chain_step _ _ _ _ _ _ HA (chain_reaches _ _ R) IH Hc H).
Qed.
Lemma all_addresses addr p m k a : addresses_differ addr -> program_on_chain addr p -> account_in p m k a -> is_address m /\ is_address (a_owner a).
Proof.
  intros HA Hp (s & Hs & Ha). destruct (chain_always _ _ HA Hp _ _ Hs) as (R & _ & _ & A). split; [exact A|].
  exact (at_owner _ (af_accounts _ (chain_fits _ R) _ _ Ha)).
Qed.

Section Found.
  Context (addr : Z -> Z -> Z) (d : kinds) (place : Z -> Z) (p : prog) (get : Z -> option (list Z)).
  Hypothesis (Hk : kinds_ok d) (HA : addresses_differ addr) (HC : program_on_chain addr p) (HG : kept d place p get).
  Let Hp : preachable addr p := chain_reaches _ _ HC.
  Let addrs_ok := fun m k a => all_addresses addr p m k a HA HC.

  Lemma found_all o : NoDup (ts_find_all get (place o)) /\ forall k, In k (ts_find_all get (place o)) <-> owns p o k.
  Proof.
    destruct (indexers_right addr p HA Hp) as [[W1 W2 W3 W4 W5] _]. unfold ts_find_all.
    destruct (al_get o (p_idx p)) as [x|] eqn:E.
    - destruct (kp_indexer _ _ _ _ HG _ _ E) as (bump & ->).
      destruct (indexer_lists (kd_indexer d) bump x (ko_indexer _ Hk) (W3 _ _ E)) as (b & c & ->).
      + apply Forall_forall. intros k Hkk. apply (W1 _ _ E) in Hkk as (m & a & Ha & _). exact (kp_address _ _ _ _ HG _ _ _ Ha).
      + split; [exact (W2 _ _ E)|exact (W1 _ _ E)].
    - rewrite (kp_no_indexer _ _ _ _ HG _ E). split; [constructor|]. intros k. split; [intros []|]. intros H. exact (W4 _ _ E H).
  Qed.

  Lemma slots24 m k a : account_in p m k a -> length (a_orders a) = 24%nat.
  Proof.
    intros (s & Hs & Ha). pose proof (market_alone addr p m s Hp Hs) as Hr.
    destruct (reachable_inv _ Hr) as (cl & ct & P & HI).
    exact (ac_len _ _ _ _ (ld_acct _ _ _ (iv_led _ _ _ _ _ _ HI) _ _ Ha)).
  Qed.
  Lemma account_market disc m name bump a : length disc = 8%nat -> length name = 32%nat -> length (a_orders a) = 24%nat -> is_address m ->
    exists a', ts_account (account_account disc m name bump a) = Some (m, a').
  Proof.
    intros Hd Hn Ho Hm. unfold ts_account, account_account. rewrite (skip_app disc _ 8 0) by lia. rewrite skipn_O.
    change idl_OpenOrdersAccount with rust_OpenOrdersAccount. rewrite decode_ok by (reflexivity || (apply account_shaped; assumption)).
    unfold rust_OpenOrdersAccount, account_val. rewrite norm_rec. cbn [norms]. rewrite arr_norm, (norm_rec [TKey]). cbn [norms].
    rewrite (nK m) by exact Hm.
    assert (P : exists q, position_of (norm rust_Position (position_val (a_pos a))) = Some q) by (eexists; unfold rust_Position, position_val; rewrite norm_rec; cbn [norms norm]; reflexivity).
    destruct P as (q & EP).
    assert (S : exists l, all_some slot_of (map (norm rust_OpenOrder) (map slot_val (a_orders a))) = Some l).
    { clear. induction (a_orders a) as [|oo l (l' & IH)]; [eexists; reflexivity|]. cbn [map all_some]. rewrite IH.
      assert (X : exists y, slot_of (norm rust_OpenOrder (slot_val oo)) = Some y) by (eexists; unfold rust_OpenOrder, slot_val; rewrite norm_rec; cbn [norms norm]; reflexivity).
      destruct X as (y & ->). eauto. }
    destruct S as (l & ES). cbn [norm]. rewrite EP, ES. eauto.
  Qed.

  Lemma found_for_market o m : NoDup (ts_find_for_market get (place o) m) /\
    forall k, In k (ts_find_for_market get (place o) m) <-> exists a, account_in p m k a /\ a_owner a = o.
  Proof.
    destruct (found_all o) as [N F]. split; [apply NoDup_filter; exact N|]. intros k. unfold ts_find_for_market. rewrite filter_In, F.
    destruct (indexers_right addr p HA Hp) as [[_ _ _ _ W5] _].
    assert (X : forall m' a, account_in p m' k a -> exists a', ts_open_orders get k = Some (m', a')).
    { intros m' a Ha. destruct (kp_account _ _ _ _ HG _ _ _ Ha) as (name & bump & Hn & E). unfold ts_open_orders. rewrite E.
      apply account_market; [exact (ko_account _ Hk)|exact Hn|exact (slots24 _ _ _ Ha)|exact (proj1 (addrs_ok _ _ _ Ha))]. }
    split.
    - intros [(m' & a & Ha & Ho) Hf]. destruct (X _ _ Ha) as (a' & E). rewrite E in Hf. apply Z.eqb_eq in Hf. subst m'. eauto.
    - intros (a & Ha & Ho). split; [exists m, a; auto|]. destruct (X _ _ Ha) as (a' & ->). apply Z.eqb_refl.
  Qed.

  (** ** The Rust client *)
  Lemma account_front disc m name bump a : length name = 32%nat -> length (a_orders a) = 24%nat ->
    exists r, account_account disc m name bump a = disc ++ le 32 (a_owner a) ++ r.
  Proof.
    intros Hn Ho. unfold account_account. rewrite bytes_flat by (reflexivity || (apply account_shaped; assumption)).
    unfold rust_OpenOrdersAccount, account_val. rewrite flat_rec. cbn [flats]. eexists. reflexivity.
  Qed.
  Lemma memcmp_kind disc b : length disc = 8%nat -> memcmp 0 disc b = true -> firstn 8 b = disc.
  Proof.
    intros Hd. unfold memcmp. destruct (_ <? _)%nat; [discriminate|]. rewrite skipn_O, Hd. destruct (list_eq_dec _ _ _) as [E|]; [auto|discriminate].
  Qed.
  Lemma memcmp_front disc r : memcmp 0 disc (disc ++ r) = true.
  Proof.
    unfold memcmp. rewrite app_length. replace (_ <? _)%nat with false by (symmetry; apply Nat.ltb_ge; lia). rewrite skipn_O, firstn_app, Nat.sub_diag, firstn_O, app_nil_r, firstn_all.
    destruct (list_eq_dec _ _ _) as [|N]; [reflexivity|congruence].
  Qed.
  Lemma NoDup_map_filter {A B} (f : A -> B) q l : NoDup (map f l) -> NoDup (map f (filter q l)).
  Proof.
    induction l as [|x l IH]; [constructor|]. cbn [map filter]. intros H. inversion H as [|? ? N H']; subst. destruct (q x); [|auto].
    cbn [map]. constructor; [|auto]. intros Hin. apply N. apply in_map_iff in Hin as (y & <- & Hy). apply filter_In in Hy as [Hy _]. apply in_map. exact Hy.
  Qed.
  Lemma rust_found all o : all_accounts d p get all -> is_address o ->
    NoDup (rc_fetch (kd_account d) o all) /\ forall k, In k (rc_fetch (kd_account d) o all) <-> owns p o k.
  Proof.
    intros [AO AW AK] Ho. unfold rc_fetch. split; [apply NoDup_map_filter; exact AO|]. intros k. rewrite in_map_iff.
    assert (X : forall m a b, account_in p m k a -> get k = Some b -> exists r, b = kd_account d ++ le 32 (a_owner a) ++ r).
    { intros m a b Ha Hb. destruct (kp_account _ _ _ _ HG _ _ _ Ha) as (name & bump & Hn & E). rewrite E in Hb. injection Hb as <-.
      exact (account_front _ _ _ _ _ Hn (slots24 _ _ _ Ha)). }
    split.
    - intros ([k' b] & <- & Hin). apply filter_In in Hin as [Hin Hf]. cbn [fst snd] in *. apply AW in Hin. apply andb_true_iff in Hf as [H1 H2].
      destruct (AK _ _ Hin (memcmp_kind _ _ (ko_account _ Hk) H1)) as (m & a & Ha). destruct (X _ _ _ Ha Hin) as (r & ->). exists m, a. split; [exact Ha|].
      apply (memcmp_here _ _ r 8 _ (ko_account _ Hk) (proj2 (addrs_ok _ _ _ Ha)) Ho). exact H2.
    - intros (m & a & Ha & E). destruct (kp_account _ _ _ _ HG _ _ _ Ha) as (name & bump & Hn & G). eexists (k, _). split; [reflexivity|].
      apply filter_In. split; [apply AW; exact G|]. cbn [snd]. destruct (X _ _ _ Ha G) as (r & ->). rewrite memcmp_front. cbn [andb].
      apply (memcmp_here _ _ r 8 _ (ko_account _ Hk) (proj2 (addrs_ok _ _ _ Ha)) Ho). exact E.
  Qed.
End Found.

(** ** Loading them with their markets *)
Lemma all_some_ex {A B} (f : A -> option B) (R : A -> B -> Prop) l : (forall x, In x l -> exists y, f x = Some y /\ R x y) ->
  exists l', all_some f l = Some l' /\ Forall2 R l l'.
Proof.
  induction l as [|x l IH]; intros H; [exists []; split; [reflexivity|constructor]|].
  destruct (H x (or_introl eq_refl)) as (y & E & Y). destruct IH as (l' & E' & F); [intros z Hz; apply H; right; exact Hz|].
  exists (y :: l'). cbn [all_some]. rewrite E, E'. split; [reflexivity|constructor; assumption].
Qed.
Lemma all_some_length {A B} (f : A -> option B) l : forall l', all_some f l = Some l' -> length l' = length l.
Proof.
  induction l as [|x l IH]; intros l' H; cbn [all_some] in H; [injection H as <-; reflexivity|].
  destruct (f x); [|discriminate H]. destruct (all_some f l) as [r|]; [|discriminate H]. injection H as <-. cbn [length]. rewrite (IH _ eq_refl). reflexivity.
Qed.
Lemma all_some_none {A B} (f : A -> option B) l x : In x l -> f x = None -> all_some f l = None.
Proof.
  induction l as [|y l IH]; intros H E; [destruct H|]. cbn [all_some]. destruct H as [<-|H]; [rewrite E; reflexivity|]. rewrite (IH H E). destruct (f y); reflexivity.
Qed.
Lemma Forall2_same {A B} (R : A -> B -> Prop) l l' : Forall2 R l l' -> length l = length l'.
Proof. induction 1; cbn [length]; congruence. Qed.
Lemma nth_error_ext' {A} (l : list A) : forall l', (forall i, nth_error l i = nth_error l' i) -> l = l'.
Proof.
  induction l as [|x l IH]; intros [|y l'] H; [reflexivity|discriminate (H 0%nat)|discriminate (H 0%nat)|].
  pose proof (H 0%nat) as E. injection E as ->. f_equal. apply IH. intros i. exact (H (S i)).
Qed.
Lemma Forall2_nth {A B} (R : A -> B -> Prop) l l' : Forall2 R l l' -> forall i x, nth_error l i = Some x -> exists y, nth_error l' i = Some y /\ R x y.
Proof.
  induction 1 as [|x y l l' H _ IH]; intros i z E; [destruct i; discriminate E|]. destruct i as [|i]; cbn [nth_error] in *; [injection E as <-; eauto|exact (IH _ _ E)].
Qed.
Lemma nth_pairs {A B} (f g : A -> B) l : forall i x, nth_error l i = Some x ->
  nth_error (concat (map (fun m => [f m; g m]) l)) (2 * i) = Some (f x) /\ nth_error (concat (map (fun m => [f m; g m]) l)) (2 * i + 1) = Some (g x).
Proof.
  induction l as [|y l IH]; intros i x E; [destruct i; discriminate E|]. destruct i as [|i].
  - injection E as <-. split; reflexivity.
  - cbn [nth_error] in E. replace (2 * S i)%nat with (S (S (2 * i)))%nat by lia. replace (S (S (2 * i)) + 1)%nat with (S (S (2 * i + 1)))%nat by lia. exact (IH _ _ E).
Qed.
Lemma pairs_length {A B} (f g : A -> B) l : length (concat (map (fun m => [f m; g m]) l)) = (2 * length l)%nat.
Proof. induction l as [|y l IH]; [reflexivity|]. cbn [map concat length app]. rewrite IH. lia. Qed.
Lemma Forall2_seq {A B} (R : nat -> B -> Prop) (l : list A) l' : Forall2 R (seq 0 (length l)) l' ->
  forall i y, nth_error l' i = Some y -> (i < length l)%nat /\ R i y.
Proof.
  intros H i y E. assert (L : length l' = length l) by (apply Forall2_same in H; rewrite seq_length in H; lia).
  assert (Hi : (i < length l)%nat) by (rewrite <- L; apply nth_error_Some; congruence). split; [exact Hi|].
  assert (E0 : nth_error (seq 0 (length l)) i = Some i) by (rewrite (nth_error_nth' _ 0%nat) by (rewrite seq_length; exact Hi); rewrite seq_nth by exact Hi; reflexivity).
  destruct (Forall2_nth _ _ _ H _ _ E0) as (y' & E' & R'). congruence.
Qed.

Section Loaded.
  Context (addr : Z -> Z -> Z) (d : kinds) (place : Z -> Z) (p : prog) (get : Z -> option (list Z)).
  Hypothesis (Hk : kinds_ok d) (HA : addresses_differ addr) (HC : program_on_chain addr p) (HG : kept d place p get).
  Let HR := chain_always _ _ HA HC.
  Let addrs_ok := fun m k a => all_addresses addr p m k a HA HC.

  Definition goes_with (k : Z) (x : Z * ooa) : Prop := account_in p (fst x) k (snd x).
  Definition market_with (x : Z * ooa) (y : market_rest * market) : Prop :=
    exists s, market_in p (fst x) = Some s /\ snd y = w_mkt (s_w s) /\
      get (mr_bids (fst y)) = Some (side_account (kd_side d) (w_book (s_w s) Bid)) /\
      get (mr_asks (fst y)) = Some (side_account (kd_side d) (w_book (s_w s) Ask)).

  Lemma loads_all addrs : (length addrs <= 50)%nat ->
    (forall k, In k addrs -> exists m a s, account_in p m k a /\ market_in p m = Some s /\ s_closed s = false) ->
    exists l, ts_load_all get addrs = Some l /\ map ld_key l = addrs /\ Forall (as_it_is p) l.
  Proof.
    intros HL HO.
    destruct (all_some_ex (ts_open_orders get) (fun k x => goes_with k x /\ exists s, market_in p (fst x) = Some s /\ s_closed s = false) addrs) as (oos & E1 & F1).
    { intros k Hin. destruct (HO k Hin) as (m & a & s & Ha & Hs & Hc). exists (m, a). split; [|split; [exact Ha|exists s; split; [exact Hs|exact Hc]]].
      destruct (kp_account _ _ _ _ HG _ _ _ Ha) as (name & bump & Hn & G). unfold ts_open_orders. rewrite G.
      destruct Ha as (s0 & Hs0 & Ha). apply (account_decodes s0 k); [exact (proj1 (HR _ _ Hs0))|exact Ha|exact (ko_account _ Hk)|exact Hn|].
      exact (proj1 (addrs_ok m k a (ex_intro _ s0 (conj Hs0 Ha)))). }
    destruct (all_some_ex (fun x : Z * ooa => match get (fst x) with Some b => ts_market (fst x) b | None => None end) market_with oos) as (mkts & E2 & F2).
    { intros x Hin. assert (X : exists s, market_in p (fst x) = Some s /\ s_closed s = false).
      { apply In_nth_error in Hin as (i & Hi). assert (Hlen : (i < length addrs)%nat) by (apply Forall2_same in F1; rewrite F1; apply nth_error_Some; congruence).
        destruct (nth_error addrs i) as [k|] eqn:Ek; [|apply nth_error_None in Ek; lia].
        destruct (Forall2_nth _ _ _ F1 _ _ Ek) as (x' & Ex & _ & S). rewrite Hi in Ex. injection Ex as <-. exact S. }
      destruct X as (s & Hs & Hc). destruct (kp_market _ _ _ _ HG _ _ Hs Hc) as (r & Hr & G & Gb & Ga). exists (r, w_mkt (s_w s)). rewrite G.
      destruct (HR _ _ Hs) as (R1 & R2 & R3 & _). split; [|exists s; split; [exact Hs|split; [reflexivity|split; [exact Gb|exact Ga]]]].
      pose proof (market_decodes s (kd_market d) r R1 (ko_market _ Hk) Hr R2) as D. rewrite R3 in D. exact D. }
    pose proof (Forall2_same _ _ _ F1) as L1. pose proof (Forall2_same _ _ _ F2) as L2.
    unfold ts_load_all. rewrite E1, E2. unfold ts_infos. rewrite pairs_length.
    replace (NODE_LIMIT <? 2 * length mkts)%nat with false by (symmetry; apply Nat.ltb_ge; unfold NODE_LIMIT; lia).
    set (infos := map get _).
    match goal with |- context [all_some ?f _] => set (F := f) end.
    destruct (all_some_ex F (fun i y => nth_error addrs i = Some (ld_key y) /\ as_it_is p y) (seq 0 (length oos))) as (l & E & FL).
    { intros i Hi. apply in_seq in Hi. unfold F.
      destruct (nth_error addrs i) as [k|] eqn:Ek; [|apply nth_error_None in Ek; lia].
      destruct (Forall2_nth _ _ _ F1 _ _ Ek) as ([m a] & Ex & Ha & _). rewrite Ex. change (account_in p m k a) in Ha.
      destruct (Forall2_nth _ _ _ F2 _ _ Ex) as ([r mm] & Em & s & Hs & Hm & Gb & Ga). rewrite Em. cbn [fst snd] in *.
      destruct (nth_pairs (fun m : market_rest * market => mr_bids (fst m)) (fun m : market_rest * market => mr_asks (fst m)) mkts i _ Em) as [N1 N2].
      destruct (HR _ _ Hs) as (R1 & _).
      destruct (side_decodes s Bid (kd_side d) R1 (ko_side _ Hk)) as (b & B1 & _ & _ & B2 & _).
      destruct (side_decodes s Ask (kd_side d) R1 (ko_side _ Hk)) as (c & C1 & _ & _ & C2 & _).
      unfold ts_side_info, infos. rewrite !nth_error_map, N1, N2. cbn [option_map fst]. rewrite Gb, Ga, B1, C1.
      eexists. split; [reflexivity|]. split; [reflexivity|]. exists s. cbn [ld_market ld_key ld_account ld_state]. split; [exact Hs|].
      split; [|split; [exact Hm|]].
      - destruct Ha as (s0 & Hs0 & Ha). rewrite Hs in Hs0. injection Hs0 as <-. exact Ha.
      - intros [] t; cbn [ld_book ld_bids ld_asks]; [apply B2|apply C2]. }
    exists l. split; [exact E|]. pose proof (Forall2_same _ _ _ FL) as L3. rewrite seq_length in L3. split.
    - apply nth_error_ext'. intros i. rewrite nth_error_map. destruct (nth_error l i) as [y|] eqn:Ey; cbn [option_map].
      + symmetry. exact (proj1 (proj2 (Forall2_seq _ _ _ FL _ _ Ey))).
      + symmetry. apply nth_error_None. apply nth_error_None in Ey. lia.
    - apply Forall_forall. intros y Hy. apply In_nth_error in Hy as (i & Hi). exact (proj2 (proj2 (Forall2_seq _ _ _ FL _ _ Hi))).
  Qed.

  Lemma closed_market_in_the_way addrs k m a s : In k addrs -> account_in p m k a -> market_in p m = Some s -> s_closed s = true -> ts_load_all get addrs = None.
  Proof.
    intros Hin Ha Hs Hc. unfold ts_load_all. destruct (all_some (ts_open_orders get) addrs) as [oos|] eqn:E; [|reflexivity].
    assert (X : In (m, a) oos).
    { assert (D : ts_open_orders get k = Some (m, a)).
      { destruct (kp_account _ _ _ _ HG _ _ _ Ha) as (name & bump & Hn & G). unfold ts_open_orders. rewrite G. pose proof Ha as (s0 & Hs0 & Ha0).
        apply (account_decodes s0 k); [exact (proj1 (HR _ _ Hs0))|exact Ha0|exact (ko_account _ Hk)|exact Hn|exact (proj1 (addrs_ok _ _ _ Ha))]. }
      clear - Hin D E. revert oos E. induction addrs as [|x l IH]; intros oos E; [destruct Hin|]. cbn [all_some] in E.
      destruct (ts_open_orders get x) as [y|] eqn:Ex; [|discriminate E]. destruct (all_some _ l) as [r|]; [|discriminate E]. injection E as <-.
      destruct Hin as [->|Hin]; [left; congruence|right; exact (IH Hin _ eq_refl)]. }
    rewrite (all_some_none _ oos (m, a) X); [reflexivity|]. cbn [fst]. rewrite (kp_closed _ _ _ _ HG _ _ Hs Hc). reflexivity.
  Qed.
End Loaded.

(** Whatever the node has, more than fifty accounts are too many. *)
Lemma too_many get addrs : (50 < length addrs)%nat -> ts_load_all get addrs = None.
Proof.
  intros H. unfold ts_load_all. destruct (all_some (ts_open_orders get) addrs) as [oos|] eqn:E1; [|reflexivity].
  destruct (all_some _ oos) as [mkts|] eqn:E2; [|reflexivity]. apply all_some_length in E1, E2. unfold ts_infos. rewrite pairs_length.
  replace (NODE_LIMIT <? _)%nat with true; [reflexivity|]. symmetry. apply Nat.ltb_lt. unfold NODE_LIMIT. lia.
Qed.
