(** Stub oracles state what their owner last said. *)
From Coq Require Import ZArith List Bool Lia SpecFloat.
From Verif Require Import Base Nodes OrderTree BookSide Heap Market OpenOrders Order Book Instructions Program
  Oracle SpecOracle OracleFacts Stub SpecStub.
Import ListNotations.
Open Scope Z_scope.

Lemma get_set {A} k k' (v : A) l : al_get k' (al_set k v l) = if k' =? k then (match al_get k l with Some _ => Some v | None => None end) else al_get k' l.
Proof.
  induction l as [|[k0 a] r IH]; cbn [al_set al_get].
  - now destruct (k' =? k).
  - destruct (Z.eqb_spec k k0) as [E|E]; cbn [al_get].
    + subst k0. destruct (k' =? k); reflexivity.
    + rewrite IH. destruct (Z.eqb_spec k' k0) as [E'|E'].
      * subst k0. destruct (Z.eqb_spec k' k); [congruence|reflexivity].
      * reflexivity.
Qed.

Lemma get_notin {A} k (l : list (Z * A)) : ~ In k (map fst l) -> al_get k l = None.
Proof.
  induction l as [|[k0 a] r IH]; cbn [al_get map fst]; intros N; [reflexivity|].
  destruct (Z.eqb_spec k k0) as [E|E]; [exfalso; apply N; now left|]. apply IH. intros I. apply N. now right.
Qed.

Lemma get_del {A} k k' (l : list (Z * A)) : NoDup (map fst l) -> al_get k' (al_del k l) = if k' =? k then None else al_get k' l.
Proof.
  induction l as [|[k0 a] r IH]; cbn [al_del al_get map fst]; intros N.
  - now destruct (k' =? k).
  - inversion N as [|? ? N1 N2]; subst. destruct (Z.eqb_spec k k0) as [E|E]; cbn [al_get].
    + subst k0. destruct (Z.eqb_spec k' k) as [E'|E']; [subst k'; now apply get_notin|reflexivity].
    + rewrite IH by assumption. destruct (Z.eqb_spec k' k0) as [E'|E'].
      * subst k0. destruct (Z.eqb_spec k' k); [congruence|reflexivity].
      * reflexivity.
Qed.

Lemma keys_set {A} k (v : A) l : map fst (al_set k v l) = map fst l.
Proof.
  induction l as [|[k0 a] r IH]; cbn [al_set map fst]; [reflexivity|].
  destruct (k =? k0); cbn [map fst]; [reflexivity|]. now rewrite IH.
Qed.
Lemma keys_del {A} k (l : list (Z * A)) : NoDup (map fst l) -> NoDup (map fst (al_del k l)).
Proof.
  induction l as [|[k0 a] r IH]; cbn [al_del map fst]; intros N; [constructor|].
  inversion N as [|? ? N1 N2]; subst. destruct (k =? k0); cbn [map fst]; [assumption|].
  constructor; [|auto]. intros I. apply N1. clear -I. induction r as [|[k1 b] r IHr]; [destruct I|].
  cbn [al_del map fst] in *. destruct (k =? k1); cbn [map fst] in I; [now right|]. destruct I as [I|I]; [now left|right; auto].
Qed.
Lemma get_none {A} k (l : list (Z * A)) : al_get k l = None -> ~ In k (map fst l).
Proof.
  induction l as [|[k0 a] r IH]; cbn [al_get map fst]; intros H I; [destruct I|].
  destruct (Z.eqb_spec k k0) as [E|E]; [discriminate|]. destruct I as [I|I]; [congruence|]. exact (IH H I).
Qed.

Lemma exec_inv addr signed ts slot st i st' : stub_exec addr signed ts slot st i = Ok st' ->
  In (stub_signer i) signed /\
  match i with
  | SCreate o m p => al_get (addr o m) st = None /\ st' = (addr o m, mkStub o m p ts slot (f64_of 0)) :: st
  | SSet o k p => exists s, al_get k st = Some s /\ sb_owner s = o /\ st' = al_set k (mkStub (sb_owner s) (sb_mint s) p ts slot (sb_deviation s)) st
  | SClose o k => exists s, al_get k st = Some s /\ sb_owner s = o /\ st' = al_del k st
  end.
Proof.
  unfold stub_exec. destruct (existsb _ signed) eqn:S; cbn [require bind]; [|discriminate].
  intros H. split.
  { apply existsb_exists in S. destruct S as (x & I & E). apply Z.eqb_eq in E. now rewrite E. }
  destruct i as [o m p|o k p|o k].
  - destruct (al_get (addr o m) st) eqn:G; cbn [require bind] in H; [discriminate|]. split; [reflexivity|]. congruence.
  - unfold al_load in H. destruct (al_get k st) as [s|] eqn:G; cbn [bind] in H; [|discriminate].
    destruct (Z.eqb_spec (sb_owner s) o) as [E|E]; cbn [require bind] in H; [|discriminate].
    exists s. repeat split; congruence.
  - unfold al_load in H. destruct (al_get k st) as [s|] eqn:G; cbn [bind] in H; [|discriminate].
    destruct (Z.eqb_spec (sb_owner s) o) as [E|E]; cbn [require bind] in H; [|discriminate].
    exists s. repeat split; congruence.
Qed.

Lemma history_keys addr h st : stub_history addr h st -> NoDup (map fst st).
Proof.
  induction 1 as [|h st c st' H IH E]; [constructor|].
  apply exec_inv in E. destruct E as [_ E]. destruct (sc_ix c).
  - destruct E as [G ->]. cbn [map fst]. constructor; [now apply get_none|exact IH].
  - destruct E as (s & _ & _ & ->). rewrite keys_set. exact IH.
  - destruct E as (s & _ & _ & ->). now apply keys_del.
Qed.

(** Every account is at the address of its owner and mint. *)
Lemma history_at addr h st k s : stub_history addr h st -> al_get k st = Some s -> k = addr (sb_owner s) (sb_mint s).
Proof.
  intros H. revert k s. induction H as [|h st c st' H IH E]; intros k s G; [discriminate|].
  pose proof (history_keys _ _ _ H) as N.
  apply exec_inv in E. destruct E as [_ E]. destruct (sc_ix c) as [o m p|o k0 p|o k0].
  - destruct E as [_ ->]. cbn [al_get] in G. destruct (Z.eqb_spec k (addr o m)) as [E|E].
    + injection G as <-. exact E.
    + exact (IH k s G).
  - destruct E as (s0 & G0 & _ & ->). rewrite get_set in G. destruct (Z.eqb_spec k k0) as [E|E].
    + subst k0. rewrite G0 in G. injection G as <-. cbn [sb_owner sb_mint]. exact (IH k s0 G0).
    + exact (IH k s G).
  - destruct E as (s0 & G0 & _ & ->). rewrite get_del in G by exact N. destruct (Z.eqb_spec k k0) as [E|E]; [discriminate|]. exact (IH k s G).
Qed.

Theorem stub_last addr h st o m : stub_addresses_differ addr -> stub_history addr h st ->
  match last_stated addr o m h with
  | Some (p, slot) => exists s, al_get (addr o m) st = Some s /\ sb_owner s = o /\ sb_mint s = m /\ sb_price s = p /\
                        sb_last_slot s = slot /\ sb_deviation s = f64_of 0
  | None => al_get (addr o m) st = None
  end.
Proof.
  intros A. induction 1 as [|h st c st' H IH E]; [reflexivity|].
  pose proof (history_keys _ _ _ H) as N. pose proof (history_at addr h st (addr o m)) as At.
  apply exec_inv in E. destruct E as [_ E]. cbn [last_stated]. destruct (sc_ix c) as [o' m' p|o' k p|o' k].
  - destruct E as [G ->]. cbn [al_get].
    destruct (Z.eqb_spec (addr o m) (addr o' m')) as [Ea|Ea].
    + apply A in Ea. destruct Ea as [-> ->]. rewrite !Z.eqb_refl. cbn [andb].
      eexists. repeat split.
    + destruct (Z.eqb_spec o' o) as [E1|E1]; cbn [andb]; [|exact IH].
      destruct (Z.eqb_spec m' m) as [E2|E2]; [congruence|exact IH].
  - destruct E as (s0 & G0 & Eo & ->). rewrite get_set. rewrite (Z.eqb_sym (addr o m) k).
    destruct (Z.eqb_spec k (addr o m)) as [E|E]; [|exact IH].
    subst k. rewrite G0. pose proof (At s0 H G0) as Es. apply A in Es. destruct Es as [Es1 Es2].
    eexists. split; [reflexivity|]. cbn [sb_owner sb_mint sb_price sb_last_slot sb_deviation]. repeat split; try congruence.
    destruct (last_stated addr o m h) as [[p0 t0]|].
    + destruct IH as (s1 & G1 & _ & _ & _ & _ & D). congruence.
    + congruence.
  - destruct E as (s0 & G0 & Eo & ->). rewrite get_del by exact N. rewrite (Z.eqb_sym (addr o m) k).
    destruct (Z.eqb_spec k (addr o m)) as [E|E]; [reflexivity|exact IH].
Qed.

Theorem stub_only_owner addr h st c st' o m : stub_addresses_differ addr -> stub_history addr h st ->
  stub_exec addr (sc_signed c) (sc_ts c) (sc_slot c) st (sc_ix c) = Ok st' ->
  al_get (addr o m) st' <> al_get (addr o m) st -> In o (sc_signed c).
Proof.
  intros A H E D. pose proof (history_keys _ _ _ H) as N. apply exec_inv in E. destruct E as [S E].
  destruct (sc_ix c) as [o' m' p|o' k p|o' k]; cbn [stub_signer] in S.
  - destruct E as [_ ->]. cbn [al_get] in D. destruct (Z.eqb_spec (addr o m) (addr o' m')) as [Ea|Ea]; [|congruence].
    apply A in Ea. destruct Ea as [-> _]. exact S.
  - destruct E as (s0 & G0 & Eo & ->). rewrite get_set in D. destruct (Z.eqb_spec (addr o m) k) as [Ea|Ea]; [|congruence].
    subst k. pose proof (history_at _ _ _ _ _ H G0) as Es. apply A in Es. destruct Es as [-> _]. now rewrite Eo.
  - destruct E as (s0 & G0 & Eo & ->). rewrite get_del in D by exact N. destruct (Z.eqb_spec (addr o m) k) as [Ea|Ea]; [|congruence].
    subst k. pose proof (history_at _ _ _ _ _ H G0) as Es. apply A in Es. destruct Es as [-> _]. now rewrite Eo.
Qed.

(** ** Markets that read them *)
Theorem stub_price addr h st o mint m c slot v : stub_addresses_differ addr -> stub_history addr h st ->
  c_oracle_a (m_cfg m) = addr o mint -> c_oracle_b (m_cfg m) = 0 ->
  oracle_price m c (Some (stub_account st (addr o mint))) None slot = Ok (Some v) ->
  exists p t adj, last_stated addr o mint h = Some (p, t) /\ (0 <= oc_max_staleness c -> t <> 0 -> slot <= t + oc_max_staleness c) /\
    decimal_adjustment c = Ok adj /\ i80f48_of_f64 (f64_mul p adj) = Some v.
Proof.
  intros A H Ka Kb P. pose proof (stub_last addr h st o mint A H) as L.
  apply price_inv in P. destruct P as [_ [[_ P]|[B _]]]; [|congruence].
  destruct P as (acc & os & adj & Ea & _ & U & S & _ & D & I). injection Ea as <-.
  destruct (last_stated addr o mint h) as [[p t]|].
  - destruct L as (s & G & _ & _ & <- & <- & _). unfold stub_account in U. rewrite G in U.
    exists (sb_price s), (sb_last_slot s), adj. split; [reflexivity|]. split; [|split; [exact D|]].
    + intros M T. apply (not_stale_fresh os c slot); try assumption.
      unfold oracle_state_unchecked in U. cbn [oa_data] in U. injection U as <-. cbn [os_slot].
      rewrite (proj2 (Z.eqb_neq _ 0) T). reflexivity.
    + unfold oracle_state_unchecked in U. cbn [oa_data] in U. injection U as <-. exact I.
  - unfold stub_account in U. rewrite L in U. discriminate.
Qed.

(** Conversely a price with that property that is not negative is taken. *)
Theorem stub_taken addr h st o mint m c slot p t adj : stub_addresses_differ addr -> stub_history addr h st ->
  c_oracle_a (m_cfg m) = addr o mint -> addr o mint <> 0 -> c_oracle_b (m_cfg m) = 0 ->
  last_stated addr o mint h = Some (p, t) -> (oc_max_staleness c < 0 \/ 0 < t /\ slot <= t + oc_max_staleness c) ->
  oc_max_staleness c <= 9223372036854775807 -> slot <= u64_max ->
  f64_gt (f64_of 0) (f64_mul (oc_conf_filter c) p) = false -> decimal_adjustment c = Ok adj ->
  oracle_price m c (Some (stub_account st (addr o mint))) None slot = Ok (i80f48_of_f64 (f64_mul p adj)).
Proof.
  intros A H Ka K0 Kb L F M SU C D. pose proof (stub_last addr h st o mint A H) as G. rewrite L in G.
  destruct G as (s & G & _ & _ & <- & <- & Dv).
  unfold oracle_price. rewrite Kb, Ka. rewrite (proj2 (Z.eqb_neq _ 0) K0). cbn [negb andb unwrap bind Z.eqb].
  unfold oracle_price_from_a. rewrite Ka. unfold stub_account. cbn [oa_key]. rewrite Z.eqb_refl, G. cbn [massert bind].
  unfold oracle_state_unchecked. cbn [oa_data bind].
  unfold has_valid_confidence, is_stale. cbn [os_deviation os_price os_slot]. rewrite Dv, C. cbn [negb].
  replace ((0 <=? oc_max_staleness c) && _) with false.
  2:{ symmetry. apply andb_false_iff. destruct F as [F|[T F]]; [left; apply Z.leb_gt; exact F|].
      destruct (Z.leb_spec 0 (oc_max_staleness c)) as [G0|G0]; [right|now left].
      rewrite (proj2 (Z.eqb_neq (sb_last_slot s) 0)) by lia. apply Z.ltb_ge.
      unfold as_u64, two64, u64_max in *. rewrite Z.mod_small by lia. lia. }
  cbn [orb]. rewrite D. reflexivity.
Qed.

(** A market whose stub oracle is closed gets an error. *)
Theorem stub_closed addr h st o mint m c slot : stub_addresses_differ addr -> stub_history addr h st ->
  c_oracle_a (m_cfg m) = addr o mint -> addr o mint <> 0 -> c_oracle_b (m_cfg m) = 0 -> last_stated addr o mint h = None ->
  oracle_price m c (Some (stub_account st (addr o mint))) None slot = Err Panic.
Proof.
  intros A H Ka K0 Kb L. pose proof (stub_last addr h st o mint A H) as G. rewrite L in G.
  unfold oracle_price. rewrite Kb, Ka. rewrite (proj2 (Z.eqb_neq _ 0) K0). cbn [negb andb unwrap bind Z.eqb].
  unfold oracle_price_from_a. rewrite Ka. unfold stub_account. cbn [oa_key]. rewrite Z.eqb_refl, G. reflexivity.
Qed.
