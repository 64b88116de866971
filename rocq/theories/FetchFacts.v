(** Proofs about the client's account cache with coalesced requests. *)
From Coq Require Import ZArith List Bool Lia.
From Verif Require Import Base Fetch SpecFetch.
Import ListNotations.
Open Scope Z_scope.

Lemma query_eqb_eq a b : query_eqb a b = true <-> a = b.
Proof. destruct a, b; cbn; try rewrite Z.eqb_eq; split; intros H; try discriminate; congruence. Qed.
Lemma query_eqb_refl a : query_eqb a a = true.
Proof. apply query_eqb_eq. reflexivity. Qed.
Lemma query_dec (a b : query) : {a = b} + {a <> b}.
Proof. destruct (query_eqb a b) eqn:E; [left; apply query_eqb_eq; exact E|right; intros H; apply query_eqb_eq in H; congruence]. Qed.
Lemma query_eqb_neq a b : a <> b -> query_eqb a b = false.
Proof. intros H. destruct (query_eqb a b) eqn:E; [|reflexivity]. apply query_eqb_eq in E. contradiction. Qed.

Lemma nset_same {A} (f : nat -> A) n a : nset f n a n = a.
Proof. unfold nset. now rewrite Nat.eqb_refl. Qed.
Lemma nset_other {A} (f : nat -> A) n a x : x <> n -> nset f n a x = f x.
Proof. intros H. unfold nset. apply Nat.eqb_neq in H. now rewrite H. Qed.

Lemma qget_del_same q m : qget q (qdel q m) = None.
Proof.
  unfold qdel. induction m as [|[q' a] m IH]; [reflexivity|]. cbn [filter fst]. destruct (query_eqb q q') eqn:E; cbn [negb]; [exact IH|].
  cbn [qget]. rewrite E. exact IH.
Qed.
Lemma qget_del_other q q' m : q <> q' -> qget q (qdel q' m) = qget q m.
Proof.
  intros N. unfold qdel. induction m as [|[q1 a] m IH]; [reflexivity|]. cbn [filter fst qget]. destruct (query_eqb q' q1) eqn:E; cbn [negb].
  - rewrite IH. apply query_eqb_eq in E as <-. now rewrite (query_eqb_neq _ _ N).
  - cbn [qget]. now rewrite IH.
Qed.

Lemma zget_app {A} k (m m' : list (Z * A)) : zget k (m ++ m') = match zget k m with Some a => Some a | None => zget k m' end.
Proof. induction m as [|[k' a] m IH]; [reflexivity|]. cbn [app zget]. destruct (k =? k'); [reflexivity|exact IH]. Qed.
Lemma zget_in {A} k (m : list (Z * A)) a : zget k m = Some a -> In (k, a) m.
Proof.
  induction m as [|[k' b] m IH]; [discriminate|]. cbn [zget]. destruct (k =? k') eqn:E; intros H.
  - apply Z.eqb_eq in E as <-. injection H as ->. left. reflexivity.
  - right. exact (IH H).
Qed.
Lemma zget_some {A} k (m : list (Z * A)) : In k (map fst m) -> exists a, zget k m = Some a.
Proof.
  induction m as [|[k' b] m IH]; [intros []|]. cbn [map fst zget]. intros [<-|H]; [rewrite Z.eqb_refl; eauto|].
  destruct (k =? k'); [eauto|exact (IH H)].
Qed.
Lemma zget_all_some {A} ks (m : list (Z * A)) : (forall k, In k ks -> exists a, zget k m = Some a) ->
  exists l, zget_all ks m = Some l /\ map fst l = ks /\ forall k a, In (k, a) l -> zget k m = Some a.
Proof.
  induction ks as [|k ks IH]; intros H.
  - exists []. repeat split. intros k a [].
  - destruct (H k (or_introl eq_refl)) as [a Ha]. destruct IH as (l & El & Fl & Gl); [intros k' Hk; apply H; right; exact Hk|].
    exists ((k, a) :: l). cbn [zget_all]. rewrite Ha, El. split; [reflexivity|]. cbn [map fst]. rewrite Fl. split; [reflexivity|].
    intros k' a' [E|E]; [injection E as <- <-; exact Ha|exact (Gl _ _ E)].
Qed.

(** ** The invariant *)
Definition good (c : chain) (now : Z) (q : query) (r : reply) : Prop :=
  match r with
  | RErr => True
  | ROk l =>
      match q with
      | QAccount k => exists t v, 0 <= t <= now /\ c_data c k t = Some v /\ l = [(k, v)]
      | QProgram p => exists t, 0 <= t <= now /\ map fst l = map fst (c_list c p t) /\
          forall k v, In (k, v) l -> exists t', 0 <= t' <= now /\ c_data c k t' = Some v
      end
  end.
Record finv (c : chain) (s : fstate) : Prop := {
  fi_now : 0 <= f_now s;
  fi_index : forall q j, qget q (f_index s) = Some j -> unfinished s j q;
  fi_listed : forall q j, unfinished s j q -> qget q (f_index s) = Some j;
  fi_jobs : forall j r, (j < f_njobs s)%nat -> (j_phase (f_jobs s j) = JRead r \/ j_phase (f_jobs s j) = JDone r) ->
    good c (f_now s) (j_query (f_jobs s j)) r;
  fi_accounts : forall k v, zget k (f_accounts s) = Some v -> exists t, 0 <= t <= f_now s /\ c_data c k t = Some v;
  fi_keys : forall p ks, zget p (f_keys s) = Some ks -> (exists t, 0 <= t <= f_now s /\ ks = map fst (c_list c p t)) /\
    forall k, In k ks -> exists v, zget k (f_accounts s) = Some v;
  fi_calls : forall i, (i < f_ncalls s)%nat ->
    match fc_standing (f_calls s i) with
    | TWaits j => (j < f_njobs s)%nat /\ j_query (f_jobs s j) = fc_query (f_calls s i)
    | TReturned r => good c (f_now s) (fc_query (f_calls s i)) r
    | TDropped => True
    | TPanicked => False
    end }.

Lemma good_later c now now' q r : now <= now' -> good c now q r -> good c now' q r.
Proof.
  intros Hn. destruct r as [l|]; [|auto]. destruct q as [k|p]; cbn.
  - intros (t & v & H & G). exists t, v. split; [lia|exact G].
  - intros (t & H & G1 & G2). exists t. split; [lia|]. split; [exact G1|]. intros k v Hk. destruct (G2 k v Hk) as (t' & H' & G'). exists t'. split; [lia|exact G'].
Qed.
Lemma good_read c now q : honest c -> 0 <= now -> good c now q (node_reads c now q).
Proof.
  intros Hh Hn. destruct q as [k|p]; cbn.
  - destruct (c_data c k now) as [v|] eqn:E; cbn; [|exact I]. exists now, v. repeat split; [lia|lia|exact E].
  - exists now. split; [lia|]. split; [reflexivity|]. intros k v H. exists now. split; [lia|exact (Hh _ _ _ _ H)].
Qed.

Lemma finv0 c : finv c fetch0.
Proof.
  constructor; try (cbn; intros; discriminate); cbn; try lia; try (intros; lia). intros q j [H _]. cbn in H. lia.
Qed.

Lemma cached_standing c s q x : finv c s -> from_cache s q = Some x -> exists l, x = TReturned (ROk l) /\ good c (f_now s) q (ROk l).
Proof.
  intros I. destruct q as [k|p]; cbn [from_cache].
  - destruct (zget k (f_accounts s)) as [v|] eqn:E; [|discriminate]. cbn. intros H. injection H as <-. exists [(k, v)]. split; [reflexivity|].
    destruct (fi_accounts c s I k v E) as (t & Ht & G). exists t, v. auto.
  - destruct (zget p (f_keys s)) as [ks|] eqn:E; [|discriminate]. cbn [option_map]. destruct (fi_keys c s I p ks E) as [(t & Ht & Hk) Hin].
    destruct (zget_all_some ks (f_accounts s) Hin) as (l & El & Fl & Gl). rewrite El. intros H. injection H as <-. exists l. split; [reflexivity|].
    exists t. split; [exact Ht|]. split; [congruence|]. intros k v Hkv. exact (fi_accounts c s I k v (Gl k v Hkv)).
Qed.

Ltac calls_case i n := destruct (Nat.eq_dec i n) as [->|]; [rewrite ?nset_same|rewrite ?nset_other by assumption].

Lemma finv_call c s q : finv c s -> finv c (call s q).
Proof.
  intros I. unfold call. destruct (from_cache s q) as [x|] eqn:Ec.
  - destruct (cached_standing c s q x I Ec) as (l & -> & G). destruct I as [I1 I2 I3 I4 I5 I6 I7]. constructor; cbn; auto.
    intros i Hi. calls_case i (f_ncalls s); [cbn; exact G|]. apply I7. lia.
  - destruct (qget q (f_index s)) as [j|] eqn:Eq.
    + pose proof (fi_index c s I q j Eq) as (U1 & U2 & U3). destruct I as [I1 I2 I3 I4 I5 I6 I7]. constructor; cbn; auto.
      intros i Hi. calls_case i (f_ncalls s); [cbn; auto|]. apply I7. lia.
    + destruct I as [I1 I2 I3 I4 I5 I6 I7]. constructor; cbn [f_now f_accounts f_keys f_index f_jobs f_njobs f_calls f_ncalls]; auto.
      * intros q' j. cbn [qget]. destruct (query_eqb q' q) eqn:E.
        { apply query_eqb_eq in E as ->. intros H. injection H as <-. unfold unfinished. cbn. rewrite nset_same. cbn. repeat split; [lia|discriminate]. }
        { intros H. destruct (I2 q' j H) as (U1 & U2 & U3). unfold unfinished. cbn. rewrite nset_other by lia. repeat split; auto with arith. }
      * intros q' j (U1 & U2 & U3). cbn in U1, U2, U3. cbn [qget]. destruct (Nat.eq_dec j (f_njobs s)) as [->|Hj].
        { rewrite nset_same in U2. cbn in U2. subst q'. now rewrite query_eqb_refl. }
        { rewrite nset_other in U2, U3 by exact Hj. assert (U : unfinished s j q') by (repeat split; auto; lia). apply I3 in U.
          destruct (query_eqb q' q) eqn:E; [|exact U]. apply query_eqb_eq in E as ->. congruence. }
      * intros j r Hj. calls_case j (f_njobs s); cbn; [intros [H|H]; discriminate|]. intros H. apply I4; [lia|exact H].
      * intros i Hi. calls_case i (f_ncalls s).
        { cbn. rewrite nset_same. split; [lia|reflexivity]. }
        { specialize (I7 i ltac:(lia)). destruct (fc_standing (f_calls s i)) as [j| | |]; auto. destruct I7 as [J1 J2].
          rewrite nset_other by lia. split; [lia|exact J2]. }
Qed.

Lemma finv_phase c s j p : finv c s -> (j < f_njobs s)%nat -> (forall r, j_phase (f_jobs s j) <> JDone r) ->
  (forall r, p <> JDone r) -> (forall r, p = JRead r -> good c (f_now s) (j_query (f_jobs s j)) r) -> finv c (set_phase s j p).
Proof.
  intros [I1 I2 I3 I4 I5 I6 I7] Hj Hp Hd Hr. unfold set_phase. constructor; cbn [f_now f_accounts f_keys f_index f_jobs f_njobs f_calls f_ncalls]; auto.
  - intros q' j' H. destruct (I2 q' j' H) as (U1 & U2 & U3). unfold unfinished. cbn. calls_case j' j; [cbn; auto|auto].
  - intros q' j' (U1 & U2 & U3). cbn in U1, U2, U3. apply I3. destruct (Nat.eq_dec j' j) as [->|N].
    + rewrite nset_same in U2. cbn in U2. repeat split; auto.
    + rewrite nset_other in U2, U3 by exact N. repeat split; auto.
  - intros j' r Hj'. calls_case j' j; [cbn|auto]. intros [H|H]; [exact (Hr r H)|]. exfalso. exact (Hd r H).
  - intros i Hi. specialize (I7 i Hi). destruct (fc_standing (f_calls s i)) as [j'| | |]; auto. destruct I7 as [J1 J2]. split; [exact J1|].
    calls_case j' j; [cbn; exact J2|exact J2].
Qed.

Lemma finv_set_call c s i x : finv c s -> (i < f_ncalls s)%nat ->
  match x with
  | TWaits j => (j < f_njobs s)%nat /\ j_query (f_jobs s j) = fc_query (f_calls s i)
  | TReturned r => good c (f_now s) (fc_query (f_calls s i)) r
  | TDropped => True
  | TPanicked => False
  end -> finv c (set_call s i x).
Proof.
  intros [I1 I2 I3 I4 I5 I6 I7] Hi Hx. unfold set_call. constructor; cbn [f_now f_accounts f_keys f_index f_jobs f_njobs f_calls f_ncalls]; auto.
  intros i' Hi'. calls_case i' i; [cbn; exact Hx|exact (I7 i' Hi')].
Qed.

Lemma rev_zget k (l : list (Z * Z)) (v : Z) : zget k (rev l) = Some v -> In (k, v) l.
Proof. intros H. apply in_rev. exact (zget_in _ _ _ H). Qed.

Lemma finv_finish c s j r : finv c s -> (j < f_njobs s)%nat -> j_phase (f_jobs s j) = JRead r -> finv c (finish s j r).
Proof.
  intros I Hj Hp. pose proof (fi_jobs c s I j r Hj (or_introl Hp)) as Hg.
  assert (HU : unfinished s j (j_query (f_jobs s j))) by (repeat split; [exact Hj|]; intros r'; rewrite Hp; discriminate).
  pose proof (fi_listed c s I _ _ HU) as HL. destruct I as [I1 I2 I3 I4 I5 I6 I7].
  unfold finish. destruct (store s (j_query (f_jobs s j)) r) as [acc keys] eqn:Es.
  assert (Hacc : (forall k v, zget k acc = Some v -> exists t, 0 <= t <= f_now s /\ c_data c k t = Some v) /\
                 (forall k v, zget k (f_accounts s) = Some v -> exists v', zget k acc = Some v') /\
                 (forall p ks, zget p keys = Some ks -> (exists t, 0 <= t <= f_now s /\ ks = map fst (c_list c p t)) /\
                    forall k, In k ks -> exists v, zget k acc = Some v)).
  { unfold store in Es. destruct r as [l|].
    - assert (E1 : rev l ++ f_accounts s = acc) by congruence.
      assert (E2 : match j_query (f_jobs s j) with QAccount _ => f_keys s | QProgram p => (p, map fst l) :: f_keys s end = keys) by congruence.
      clear Es. subst acc.
      assert (Hl : forall k v, In (k, v) l -> exists t, 0 <= t <= f_now s /\ c_data c k t = Some v).
      { intros k v Hk. destruct (j_query (f_jobs s j)) as [k0|p].
        - destruct Hg as (t & v0 & Ht & G & ->). destruct Hk as [E|[]]. injection E as <- <-. eauto.
        - destruct Hg as (t & Ht & G1 & G2). exact (G2 k v Hk). }
      assert (Hin : forall k, In k (map fst l) -> exists v, zget k (rev l ++ f_accounts s) = Some v).
      { intros k Hk. rewrite zget_app. destruct (zget_some k (rev l)) as [v ->]; [rewrite map_rev; apply -> in_rev; exact Hk|eauto]. }
      assert (Hold : forall k v, zget k (f_accounts s) = Some v -> exists v', zget k (rev l ++ f_accounts s) = Some v').
      { intros k v Hk. rewrite zget_app. destruct (zget k (rev l)); eauto. }
      split; [|split; [exact Hold|]].
      + intros k v. rewrite zget_app. destruct (zget k (rev l)) as [v'|] eqn:E; [|apply I5]. intros H. injection H as <-. apply Hl. exact (rev_zget _ _ _ E).
      + assert (Hk : forall p ks, zget p (f_keys s) = Some ks -> (exists t, 0 <= t <= f_now s /\ ks = map fst (c_list c p t)) /\
          forall k, In k ks -> exists v, zget k (rev l ++ f_accounts s) = Some v).
        { intros p ks H. destruct (I6 p ks H) as [G1 G2]. split; [exact G1|]. intros k Hk. destruct (G2 k Hk) as [v Hv]. exact (Hold k v Hv). }
        destruct (j_query (f_jobs s j)) as [k0|p0]; subst keys; [exact Hk|]. intros p ks. cbn [zget]. destruct (p =? p0) eqn:E; [|apply Hk].
        apply Z.eqb_eq in E as ->. intros H. injection H as <-. destruct Hg as (t & Ht & G1 & G2). split; [exists t; split; [exact Ht|exact G1]|exact Hin].
    - injection Es as <- <-. split; [exact I5|]. split; [eauto|exact I6]. }
  destruct Hacc as (A1 & A2 & A3).
  constructor; cbn [f_now f_accounts f_keys f_index f_jobs f_njobs f_calls f_ncalls]; auto.
  - intros q' j' H. destruct (query_dec q' (j_query (f_jobs s j))) as [->|N]; [rewrite qget_del_same in H; discriminate|].
    rewrite (qget_del_other _ _ _ N) in H. destruct (I2 q' j' H) as (U1 & U2 & U3). unfold unfinished. cbn.
    assert (j' <> j) by (intros ->; apply N; symmetry; exact U2). rewrite nset_other by assumption. auto.
  - intros q' j' (U1 & U2 & U3). cbn in U1, U2, U3. destruct (Nat.eq_dec j' j) as [->|N].
    + rewrite nset_same in U3. exfalso. exact (U3 r eq_refl).
    + rewrite nset_other in U2, U3 by exact N. assert (U : unfinished s j' q') by (repeat split; auto). pose proof (I3 _ _ U) as H.
      rewrite qget_del_other; [exact H|]. intros ->. congruence.
  - intros j' r' Hj'. calls_case j' j; [|auto]. cbn. intros [H|H]; [discriminate|]. injection H as <-. exact Hg.
  - intros i Hi. specialize (I7 i Hi). destruct (fc_standing (f_calls s i)) as [j'| | |]; auto. destruct I7 as [J1 J2]. split; [exact J1|].
    calls_case j' j; [cbn; exact J2|exact J2].
Qed.

Lemma finv_step c s e : honest c -> finv c s -> finv c (fstep c s e).
Proof.
  intros Hh I. destruct e as [|q|i|j ok|i|]; cbn [fstep].
  - destruct I as [I1 I2 I3 I4 I5 I6 I7]. constructor; cbn [f_now f_accounts f_keys f_index f_jobs f_njobs f_calls f_ncalls]; auto.
    + lia.
    + intros j r Hj H. refine (good_later _ _ _ _ _ _ (I4 j r Hj H)). lia.
    + intros k v H. destruct (I5 k v H) as (t & Ht & G). exists t. split; [lia|exact G].
    + intros p ks H. destruct (I6 p ks H) as ((t & Ht & G) & G2). split; [exists t; split; [lia|exact G]|exact G2].
    + intros i Hi. specialize (I7 i Hi). destruct (fc_standing (f_calls s i)); auto. refine (good_later _ _ _ _ _ _ I7). lia.
  - exact (finv_call c s q I).
  - destruct (Nat.ltb i (f_ncalls s)) eqn:E; [|exact I]. apply Nat.ltb_lt in E. unfold poll.
    pose proof (fi_calls c s I i E) as Hc. destruct (fc_standing (f_calls s i)) as [j| | |] eqn:Ec; try exact I. destruct Hc as [Hj Hq].
    destruct (j_phase (f_jobs s j)) as [| |r|r] eqn:Ep; [|exact I| |].
    + apply finv_phase; auto; [rewrite Ep; discriminate|discriminate|discriminate].
    + pose proof (fi_jobs c s I j r Hj (or_introl Ep)) as Hg. apply finv_set_call; [exact (finv_finish c s j r I Hj Ep)| |].
      * unfold finish. destruct (store s (j_query (f_jobs s j)) r). cbn. exact E.
      * unfold finish. destruct (store s (j_query (f_jobs s j)) r). cbn. rewrite <- Hq. exact Hg.
    + pose proof (fi_jobs c s I j r Hj (or_intror Ep)) as Hg. apply finv_set_call; auto. rewrite <- Hq. exact Hg.
  - destruct (Nat.ltb j (f_njobs s)) eqn:E; [|exact I]. apply Nat.ltb_lt in E. destruct (j_phase (f_jobs s j)) eqn:Ep; try exact I.
    apply finv_phase; auto; [rewrite Ep; discriminate|discriminate|]. intros r H. injection H as <-.
    destruct ok; [exact (good_read c (f_now s) _ Hh (fi_now c s I))|exact Logic.I].
  - destruct (Nat.ltb i (f_ncalls s)) eqn:E; [|exact I]. apply Nat.ltb_lt in E. destruct (fc_standing (f_calls s i)); try exact I. apply finv_set_call; auto.
  - destruct I as [I1 I2 I3 I4 I5 I6 I7]. constructor; cbn [f_now f_accounts f_keys f_index f_jobs f_njobs f_calls f_ncalls]; auto; cbn; discriminate.
Qed.
Lemma finv_run c es : honest c -> forall s, finv c s -> finv c (frun c s es).
Proof. intros Hh. induction es as [|e es IH]; intros s I; [exact I|]. cbn [frun fold_left]. apply IH. exact (finv_step c s e Hh I). Qed.
Lemma happens_inv c s : honest c -> happens c s -> finv c s.
Proof. intros Hh [es ->]. exact (finv_run c es Hh fetch0 (finv0 c)). Qed.
Lemma run_now c es : forall s, f_now s <= f_now (frun c s es).
Proof.
  induction es as [|e es IH]; intros s; [cbn; lia|]. cbn [frun fold_left]. etransitivity; [|apply IH]. destruct e; cbn [fstep].
  - cbn. lia.
  - unfold call. destruct (from_cache s q); [cbn; lia|]. destruct (qget q (f_index s)); cbn; lia.
  - destruct (Nat.ltb i (f_ncalls s)); [|lia]. unfold poll, set_call, set_phase, finish. destruct (fc_standing (f_calls s i)); try lia.
    destruct (j_phase (f_jobs s j)); try (cbn; lia). destruct (store s (j_query (f_jobs s j)) r). cbn. lia.
  - destruct (Nat.ltb j (f_njobs s)); [|lia]. destruct (j_phase (f_jobs s j)); cbn; lia.
  - destruct (Nat.ltb i (f_ncalls s)); [|lia]. destruct (fc_standing (f_calls s i)); cbn; lia.
  - cbn. lia.
Qed.

(** ** What callers see *)
Theorem authentic c s i q l : honest c -> happens c s -> returned s i q (ROk l) ->
  match q with
  | QAccount k => exists t v, 0 <= t <= f_now s /\ c_data c k t = Some v /\ l = [(k, v)]
  | QProgram p => exists t, 0 <= t <= f_now s /\ map fst l = map fst (c_list c p t) /\
      forall k v, In (k, v) l -> exists t', 0 <= t' <= f_now s /\ c_data c k t' = Some v
  end.
Proof.
  intros Hh Hs [Hi Hr]. pose proof (fi_calls c s (happens_inv c s Hh Hs) i Hi) as H. rewrite Hr in H. cbn in H. destruct q; exact H.
Qed.

Theorem no_panic c s i : honest c -> happens c s -> (i < f_ncalls s)%nat -> fc_standing (f_calls s i) <> TPanicked.
Proof. intros Hh Hs Hi E. pose proof (fi_calls c s (happens_inv c s Hh Hs) i Hi) as H. rewrite E in H. exact H. Qed.

Theorem one_request c s j j' q : honest c -> happens c s -> unfinished s j q -> unfinished s j' q -> j = j'.
Proof.
  intros Hh Hs U U'. pose proof (happens_inv c s Hh Hs) as I. apply (fi_listed c s I) in U. apply (fi_listed c s I) in U'. congruence.
Qed.

Theorem always_returns c s i q : honest c -> happens c s -> pending s i q ->
  exists es r, (length es <= 3)%nat /\ returned (frun c s es) i q r.
Proof.
  intros Hh Hs (Hi & Hq & j & Hw). pose proof (fi_calls c s (happens_inv c s Hh Hs) i Hi) as Hc. rewrite Hw in Hc. destruct Hc as [Hj Hjq].
  assert (Hlt : Nat.ltb i (f_ncalls s) = true) by (apply Nat.ltb_lt; exact Hi).
  assert (Hjt : Nat.ltb j (f_njobs s) = true) by (apply Nat.ltb_lt; exact Hj).
  assert (E : forall s' r, f_calls s' i = f_calls s i -> f_ncalls s' = f_ncalls s -> j_phase (f_jobs s' j) = JRead r -> returned (fstep c s' (EPoll i)) i q r).
  { intros s' r Ec En Ep. cbn [fstep]. rewrite En, Hlt. unfold poll. rewrite Ec, Hw, Ep. unfold finish. destruct (store s' (j_query (f_jobs s' j)) r).
    unfold returned, set_call. cbn. rewrite nset_same, Ec, Hq, En. auto. }
  destruct (j_phase (f_jobs s j)) as [| |r|r] eqn:Ep.
  - exists [EPoll i; ENode j true; EPoll i], (node_reads c (f_now s) (j_query (f_jobs s j))). split; [cbn; lia|]. cbn [frun fold_left].
    assert (E1 : fstep c s (EPoll i) = set_phase s j JAsked) by (cbn [fstep]; rewrite Hlt; unfold poll; rewrite Hw, Ep; reflexivity).
    rewrite E1. apply E; cbn [fstep set_phase f_njobs f_jobs f_now]; rewrite Hjt, nset_same; cbn [j_phase j_query]; [reflexivity|reflexivity|].
    unfold set_phase. cbn [f_jobs]. rewrite !nset_same. reflexivity.
  - exists [ENode j true; EPoll i], (node_reads c (f_now s) (j_query (f_jobs s j))). split; [cbn; lia|]. cbn [frun fold_left]. apply E.
    + cbn [fstep]. rewrite Hjt, Ep. reflexivity.
    + cbn [fstep]. rewrite Hjt, Ep. reflexivity.
    + cbn [fstep]. rewrite Hjt, Ep. cbn. rewrite nset_same. reflexivity.
  - exists [EPoll i], r. split; [cbn; lia|]. cbn [frun fold_left]. apply E; auto.
  - exists [EPoll i], r. split; [cbn; lia|]. cbn [frun fold_left fstep]. rewrite Hlt. unfold poll. rewrite Hw, Ep. unfold returned, set_call. cbn.
    rewrite nset_same, Hq. auto.
Qed.

(** ** The cache *)
Lemma in_cache_at_once c s q x : finv c s -> from_cache s q = Some x -> exists l, at_once s q l.
Proof.
  intros I E. destruct (cached_standing c s q x I E) as (l & -> & _). exists l. unfold at_once, returned, call. rewrite E. cbn. rewrite nset_same. auto.
Qed.
Lemma cache_kept c s e q : finv c s -> is_clear e = false -> from_cache s q <> None -> from_cache (fstep c s e) q <> None.
Proof.
  intros I Hc H.
  assert (K : forall s', f_accounts s' = f_accounts s -> f_keys s' = f_keys s -> from_cache s' q <> None).
  { intros s' E1 E2. unfold from_cache in *. rewrite E1, E2. exact H. }
  assert (G : forall k x l, zget k x <> None -> zget k (l ++ x : list (Z * Z)) <> None).
  { intros k x l Hk. rewrite zget_app. destruct (zget k l); [discriminate|exact Hk]. }
  destruct e as [|q'|i|j ok|i|]; cbn [fstep]; try discriminate; try (apply K; reflexivity).
  - unfold call. destruct (from_cache s q'); [apply K; reflexivity|]. destruct (qget q' (f_index s)); apply K; reflexivity.
  - destruct (Nat.ltb i (f_ncalls s)); [|exact H]. unfold poll. destruct (fc_standing (f_calls s i)); try exact H.
    destruct (j_phase (f_jobs s j)); try (apply K; reflexivity). unfold finish, store. destruct r as [l|]; [|apply K; reflexivity].
    destruct q as [k|p]; cbn [from_cache set_call f_accounts f_keys] in *.
    + destruct (zget k (rev l ++ f_accounts s)) eqn:E; [discriminate|]. exfalso. revert E. apply G. destruct (zget k (f_accounts s)); [discriminate|exfalso; exact (H eq_refl)].
    + intros E. destruct (j_query (f_jobs s j)) as [k0|p0].
      * destruct (zget p (f_keys s)); [discriminate E|exact (H eq_refl)].
      * cbn [zget] in E. destruct (p =? p0); [discriminate E|]. destruct (zget p (f_keys s)); [discriminate E|exact (H eq_refl)].
  - destruct (Nat.ltb j (f_njobs s)); [|exact H]. destruct (j_phase (f_jobs s j)); apply K; reflexivity.
  - destruct (Nat.ltb i (f_ncalls s)); [|exact H]. destruct (fc_standing (f_calls s i)); apply K; reflexivity.
Qed.
Lemma cache_kept_run c es q : honest c -> forall s, finv c s -> existsb is_clear es = false -> from_cache s q <> None -> from_cache (frun c s es) q <> None.
Proof.
  intros Hh. induction es as [|e es IH]; intros s I Hc H; [exact H|]. cbn [existsb] in Hc. apply orb_false_iff in Hc as [H1 H2]. cbn [frun fold_left].
  apply IH; [exact (finv_step c s e Hh I)|exact H2|exact (cache_kept c s e q I H1 H)].
Qed.

(** A step in which request [j] is dealt with. *)
Lemma dealt c s e j q r : finv c s -> unfinished s j q -> f_jobs (fstep c s e) j = mkJob q (JDone r) ->
  exists i, e = EPoll i /\ fstep c s e = set_call (finish s j r) i (TReturned r).
Proof.
  intros I (U1 & U2 & U3) H.
  assert (K : f_jobs s j = mkJob q (JDone r) -> False) by (intros E; apply (U3 r); rewrite E; reflexivity).
  destruct e as [|q'|i|j' ok|i|]; cbn [fstep] in *; try (exfalso; exact (K H)).
  - exfalso. unfold call in H. destruct (from_cache s q'); [exact (K H)|]. destruct (qget q' (f_index s)); [exact (K H)|].
    cbn in H. rewrite nset_other in H by lia. exact (K H).
  - exists i. split; [reflexivity|]. destruct (Nat.ltb i (f_ncalls s)); [|exfalso; exact (K H)]. unfold poll in *.
    destruct (fc_standing (f_calls s i)) as [j0| | |]; try (exfalso; exact (K H)).
    destruct (j_phase (f_jobs s j0)) as [| |r0|r0] eqn:Ep; try (exfalso; exact (K H)).
    + exfalso. cbn in H. destruct (Nat.eq_dec j j0) as [->|N]; [rewrite nset_same in H; discriminate|rewrite nset_other in H by exact N; exact (K H)].
    + assert (Ej : j = j0).
      { destruct (Nat.eq_dec j j0) as [E|N]; [exact E|]. exfalso. unfold finish in H. destruct (store s (j_query (f_jobs s j0)) r0). cbn in H.
        rewrite nset_other in H by exact N. exact (K H). }
      subst j0. unfold finish in H. destruct (store s (j_query (f_jobs s j)) r0). cbn in H. rewrite nset_same in H. injection H as _ ->. reflexivity.
  - exfalso. destruct (Nat.ltb j' (f_njobs s)); [|exact (K H)]. destruct (j_phase (f_jobs s j')); try exact (K H). cbn in H.
    destruct (Nat.eq_dec j j') as [->|N]; [rewrite nset_same in H; discriminate|rewrite nset_other in H by exact N; exact (K H)].
  - exfalso. destruct (Nat.ltb i (f_ncalls s)); [|exact (K H)]. destruct (fc_standing (f_calls s i)); exact (K H).
Qed.

Theorem remembered c s e j q l es : honest c -> happens c s -> unfinished s j q -> succeeded (fstep c s e) j q l ->
  existsb is_clear es = false -> exists l', at_once (frun c (fstep c s e) es) q l'.
Proof.
  intros Hh Hs U [_ Hd] Hc. pose proof (happens_inv c s Hh Hs) as I. pose proof (finv_step c s e Hh I) as I'.
  destruct (dealt c s e j q (ROk l) I U Hd) as (i & _ & Es). destruct U as (U1 & U2 & U3).
  assert (Hin : from_cache (fstep c s e) q <> None).
  { assert (Hg : good c (f_now (fstep c s e)) q (ROk l)).
    { pose proof (fi_jobs c _ I' j (ROk l)) as Hg. rewrite Hd in Hg. cbn in Hg. apply Hg; [|right; reflexivity]. rewrite Es. unfold finish.
      destruct (store s (j_query (f_jobs s j)) (ROk l)). cbn. exact U1. }
    rewrite Es. unfold finish, store. rewrite U2. destruct q as [k|p]; cbn [from_cache set_call f_accounts f_keys].
    - cbn in Hg. destruct Hg as (t & v & _ & _ & ->). cbn. rewrite Z.eqb_refl. discriminate.
    - cbn [zget]. rewrite Z.eqb_refl. discriminate. }
  pose proof (cache_kept_run c es q Hh _ I' Hc Hin) as H. destruct (from_cache (frun c (fstep c s e) es) q) as [x|] eqn:E; [|contradiction].
  exact (in_cache_at_once c _ q x (finv_run c es Hh _ I') E).
Qed.

Theorem error_forgotten c s e j q : honest c -> happens c s -> unfinished s j q -> failed (fstep c s e) j q ->
  asks_anew (fstep c s e) q \/ exists l, at_once s q l.
Proof.
  intros Hh Hs U [_ Hd]. pose proof (happens_inv c s Hh Hs) as I. pose proof (finv_step c s e Hh I) as I'.
  destruct (dealt c s e j q RErr I U Hd) as (i & _ & Es). destruct (from_cache s q) as [x|] eqn:Ec.
  - right. exact (in_cache_at_once c s q x I Ec).
  - left. destruct U as (U1 & U2 & U3). rewrite Es. unfold finish, store. rewrite U2. unfold asks_anew, call, set_call.
    assert (En : forall s', f_accounts s' = f_accounts s -> f_keys s' = f_keys s -> from_cache s' q = None).
    { intros s' E1 E2. unfold from_cache in *. rewrite E1, E2. exact Ec. }
    rewrite En by reflexivity. cbn [f_index]. rewrite qget_del_same. cbn. unfold unfinished, pending. cbn. rewrite !nset_same. cbn.
    repeat split; try lia; try discriminate. eauto.
Qed.

(** ** Fresh data *)
Definition caught (c : chain) (from : Z) (s : fstate) (q : query) (j : nat) : Prop :=
  (j < f_njobs s)%nat /\ j_query (f_jobs s j) = q /\
  match j_phase (f_jobs s j) with
  | JNew | JAsked => True
  | JRead r | JDone r => forall l, r = ROk l -> exists t, from <= t <= f_now s /\ shows c t q l
  end.
Definition follows (c : chain) (from : Z) (s : fstate) (q : query) (i j : nat) : Prop :=
  (i < f_ncalls s)%nat /\ fc_query (f_calls s i) = q /\ from <= f_now s /\ caught c from s q j /\
  match fc_standing (f_calls s i) with
  | TWaits j' => j' = j
  | TReturned r => forall l, r = ROk l -> exists t, from <= t <= f_now s /\ shows c t q l
  | _ => True
  end.
Lemma window from now now' c q (r : reply) : now <= now' -> (forall l, r = ROk l -> exists t, from <= t <= now /\ shows c t q l) ->
  forall l, r = ROk l -> exists t, from <= t <= now' /\ shows c t q l.
Proof. intros Hn H l E. destruct (H l E) as (t & Ht & G). exists t. split; [lia|exact G]. Qed.
Lemma follows_step c from s q i j e : follows c from s q i j -> follows c from (fstep c s e) q i j.
Proof.
  intros (Hi & Hq & Hf & (Hj & Hjq & Hp) & Hw). destruct e as [|q'|i'|j' ok|i'|]; cbn [fstep].
  - split; [exact Hi|]. split; [exact Hq|]. split; [cbn; lia|]. split.
    + split; [exact Hj|]. split; [exact Hjq|]. cbn [f_now f_jobs]. destruct (j_phase (f_jobs s j)); auto; apply (window _ (f_now s)); auto; lia.
    + cbn [f_now f_calls]. destruct (fc_standing (f_calls s i)); auto. apply (window _ (f_now s)); auto; lia.
  - unfold call. destruct (from_cache s q') as [x|].
    + unfold follows, caught. cbn. rewrite nset_other by lia. repeat split; auto.
    + destruct (qget q' (f_index s)) as [j0|].
      * unfold follows, caught. cbn. rewrite nset_other by lia. repeat split; auto.
      * unfold follows, caught. cbn. rewrite !nset_other by lia. repeat split; auto.
  - destruct (Nat.ltb i' (f_ncalls s)) eqn:El; [|repeat split; auto]. unfold poll. destruct (fc_standing (f_calls s i')) as [j0| | |] eqn:Ew; try (repeat split; auto; fail).
    destruct (j_phase (f_jobs s j0)) as [| |r|r] eqn:Ep.
    + unfold follows, caught, set_phase. cbn. repeat split; auto; destruct (Nat.eq_dec j j0) as [->|N]; rewrite ?nset_same, ?nset_other by assumption; cbn; auto.
    + repeat split; auto.
    + unfold finish. destruct (store s (j_query (f_jobs s j0)) r) as [x y]. unfold follows, caught, set_call. cbn.
      assert (Hjj : j_query (nset (f_jobs s) j0 (mkJob (j_query (f_jobs s j0)) (JDone r)) j) = q /\
        match j_phase (nset (f_jobs s) j0 (mkJob (j_query (f_jobs s j0)) (JDone r)) j) with
        | JNew | JAsked => True
        | JRead r | JDone r => forall l, r = ROk l -> exists t, from <= t <= f_now s /\ shows c t q l end).
      { destruct (Nat.eq_dec j j0) as [->|N]; rewrite ?nset_same, ?nset_other by assumption; cbn; [|auto]. rewrite Ep in Hp. auto. }
      destruct Hjj as [J1 J2]. destruct (Nat.eq_dec i i') as [->|N].
      * rewrite nset_same. cbn. rewrite Ew in Hw. subst j0. rewrite Ep in Hp. repeat split; auto.
      * rewrite (nset_other (f_calls s)) by exact N. repeat split; auto.
    + unfold follows, caught, set_call. cbn. destruct (Nat.eq_dec i i') as [->|N].
      * rewrite nset_same. cbn. rewrite Ew in Hw. subst j0. rewrite Ep in Hp. rewrite Ep. repeat split; auto.
      * rewrite nset_other by exact N. repeat split; auto.
  - destruct (Nat.ltb j' (f_njobs s)) eqn:El; [|repeat split; auto]. destruct (j_phase (f_jobs s j')) eqn:Ep; try (repeat split; auto; fail).
    unfold follows, caught, set_phase. cbn. repeat split; auto; destruct (Nat.eq_dec j j') as [->|N]; rewrite ?nset_same, ?nset_other by assumption; cbn; auto.
    intros l E. exists (f_now s). split; [lia|]. destruct ok; [|discriminate]. rewrite Hjq in E. destruct q as [k|p]; cbn in E |- *.
    + destruct (c_data c k (f_now s)) as [v|]; [|discriminate]. injection E as <-. eauto.
    + congruence.
  - destruct (Nat.ltb i' (f_ncalls s)) eqn:El; [|repeat split; auto]. destruct (fc_standing (f_calls s i')) eqn:Ew; try (repeat split; auto; fail).
    unfold follows, caught, set_call. cbn. destruct (Nat.eq_dec i i') as [->|N]; [rewrite nset_same; cbn|rewrite nset_other by exact N]; repeat split; auto.
  - repeat split; auto.
Qed.
Lemma follows_run c from q i j es : forall s, follows c from s q i j -> follows c from (frun c s es) q i j.
Proof. induction es as [|e es IH]; intros s H; [exact H|]. cbn [frun fold_left]. apply IH. apply follows_step. exact H. Qed.

Theorem fresh c s q es l : asks_anew s q -> returned (frun c (call s q) es) (f_ncalls s) q (ROk l) ->
  exists t, f_now s <= t <= f_now (frun c (call s q) es) /\ shows c t q l.
Proof.
  intros (U & En & P) [_ R].
  assert (F : follows c (f_now s) (call s q) q (f_ncalls s) (f_njobs s)).
  { revert U En P. unfold call. destruct (from_cache s q) as [x|]; [intros _ E; cbn in E; lia|]. destruct (qget q (f_index s)); [intros _ E; cbn in E; lia|].
    intros _ _ _. unfold follows, caught. cbn. rewrite !nset_same. cbn. repeat split; lia. }
  destruct (follows_run c _ _ _ _ es _ F) as (_ & _ & _ & _ & H). rewrite R in H. cbn in H. exact (H l eq_refl).
Qed.

(** Nothing on the way and nothing in the cache. *)
Lemma anew c s q : honest c -> happens c s -> (forall l, ~ at_once s q l) -> (forall j, ~ unfinished s j q) -> asks_anew s q.
Proof.
  intros Hh Hs Hn Hu. pose proof (happens_inv c s Hh Hs) as I. destruct (from_cache s q) as [x|] eqn:Ec.
  { destruct (in_cache_at_once c s q x I Ec) as [l Hl]. exfalso. exact (Hn l Hl). }
  destruct (qget q (f_index s)) as [j|] eqn:Eq; [exfalso; exact (Hu j (fi_index c s I q j Eq))|].
  unfold asks_anew, call. rewrite Ec, Eq. unfold unfinished, pending. cbn. rewrite !nset_same. cbn. repeat split; try lia; try discriminate. eauto.
Qed.

(** ** Stability: without listings and clearing *)
Record stable (s : fstate) : Prop := {
  sb_index : forall q j, unfinished s j q -> exists k, q = QAccount k /\ zget k (f_accounts s) = None;
  sb_shape : forall j r, (j < f_njobs s)%nat -> j_phase (f_jobs s j) = JRead r \/ j_phase (f_jobs s j) = JDone r ->
    r = RErr \/ exists k v, j_query (f_jobs s j) = QAccount k /\ r = ROk [(k, v)];
  sb_done : forall j r, (j < f_njobs s)%nat -> j_phase (f_jobs s j) = JDone r ->
    r = RErr \/ exists k v, r = ROk [(k, v)] /\ zget k (f_accounts s) = Some v;
  sb_calls : forall i r, (i < f_ncalls s)%nat -> fc_standing (f_calls s i) = TReturned r ->
    r = RErr \/ exists k v, r = ROk [(k, v)] /\ zget k (f_accounts s) = Some v }.
Lemma stable0 : stable fetch0.
Proof. constructor; cbn; intros; try lia. destruct H; cbn in *; lia. Qed.
Lemma stable_step c s e : finv c s -> stable s -> is_clear e = false -> is_listing e = false -> stable (fstep c s e).
Proof.
  intros I [B1 B2 B3 B4] Hc Hl. destruct e as [|q|i|j ok|i|]; cbn [fstep]; try discriminate.
  - constructor; auto.
  - destruct q as [k|p]; [|discriminate]. unfold call. destruct (from_cache s (QAccount k)) as [x|] eqn:Ec.
    + constructor; auto; cbn.
      * intros i r Hi. calls_case i (f_ncalls s); [|apply B4; lia]. cbn. intros ->. cbn in Ec. destruct (zget k (f_accounts s)) as [v|] eqn:E; [|discriminate].
        injection Ec as <-. right. eauto.
    + assert (Ek : zget k (f_accounts s) = None) by (cbn in Ec; destruct (zget k (f_accounts s)); [discriminate|reflexivity]).
      destruct (qget (QAccount k) (f_index s)) as [j|].
      * constructor; auto; cbn. intros i r Hi. calls_case i (f_ncalls s); [discriminate|apply B4; lia].
      * constructor; cbn [f_now f_accounts f_keys f_index f_jobs f_njobs f_calls f_ncalls].
        -- intros q j (U1 & U2 & U3). cbn in U1, U2, U3. destruct (Nat.eq_dec j (f_njobs s)) as [->|N].
           ++ rewrite nset_same in U2. cbn in U2. exists k. split; [congruence|exact Ek].
           ++ rewrite nset_other in U2, U3 by exact N. apply (B1 q j). repeat split; auto. lia.
        -- intros j r Hj. calls_case j (f_njobs s); [cbn; intros [H|H]; discriminate|apply B2; lia].
        -- intros j r Hj. calls_case j (f_njobs s); [cbn; discriminate|apply B3; lia].
        -- intros i r Hi. calls_case i (f_ncalls s); [cbn; discriminate|apply B4; lia].
  - destruct (Nat.ltb i (f_ncalls s)) eqn:El; [|constructor; auto]. apply Nat.ltb_lt in El. unfold poll. pose proof (fi_calls c s I i El) as Hw.
    destruct (fc_standing (f_calls s i)) as [j| | |] eqn:Ew; try (constructor; auto; fail). destruct Hw as [Hj Hq].
    destruct (j_phase (f_jobs s j)) as [| |r|r] eqn:Ep; [|constructor; auto| |].
    + constructor; cbn [set_phase f_now f_accounts f_keys f_index f_jobs f_njobs f_calls f_ncalls]; auto.
      * intros q j' (U1 & U2 & U3). cbn in U1, U2, U3. apply (B1 q j'). destruct (Nat.eq_dec j' j) as [->|N].
        -- rewrite nset_same in U2. cbn in U2. repeat split; auto. rewrite Ep. discriminate.
        -- rewrite nset_other in U2, U3 by exact N. repeat split; auto.
      * intros j' r Hj'. calls_case j' j; [cbn; intros [H|H]; discriminate|apply B2; exact Hj'].
      * intros j' r Hj'. calls_case j' j; [cbn; discriminate|apply B3; exact Hj'].
    + assert (U : unfinished s j (j_query (f_jobs s j))) by (repeat split; auto; rewrite Ep; discriminate).
      destruct (B1 _ _ U) as (k & Ek & Hk). destruct (B2 j r Hj (or_introl Ep)) as [->|(k' & v & Ek' & ->)].
      * unfold finish, store. constructor; cbn [set_call f_now f_accounts f_keys f_index f_jobs f_njobs f_calls f_ncalls].
        -- intros q j' (U1 & U2 & U3). cbn in U1, U2, U3. apply (B1 q j'). destruct (Nat.eq_dec j' j) as [->|N].
           ++ rewrite nset_same in U3. exfalso. exact (U3 RErr eq_refl).
           ++ rewrite nset_other in U2, U3 by exact N. repeat split; auto.
        -- intros j' r Hj'. calls_case j' j; [cbn; intros [H|H]; [discriminate|injection H as <-; left; reflexivity]|apply B2; exact Hj'].
        -- intros j' r Hj'. calls_case j' j; [cbn; intros H; injection H as <-; left; reflexivity|apply B3; exact Hj'].
        -- intros i' r Hi'. calls_case i' i; [cbn; intros H; injection H as <-; left; reflexivity|apply B4; exact Hi'].
      * assert (k' = k) by congruence. subst k'. unfold finish, store.
        assert (Hget : forall x w, zget x (f_accounts s) = Some w -> zget x ((k, v) :: f_accounts s) = Some w).
        { intros x w Hx. cbn [zget]. destruct (x =? k) eqn:E; [|exact Hx]. apply Z.eqb_eq in E as ->. congruence. }
        assert (Hup : forall r : reply, r = RErr \/ (exists k v, r = ROk [(k, v)] /\ zget k (f_accounts s) = Some v) ->
          r = RErr \/ (exists x w, r = ROk [(x, w)] /\ zget x ((k, v) :: f_accounts s) = Some w)).
        { intros r' [H|(x & w & H1 & H2)]; [left; exact H|right; exists x, w; split; [exact H1|exact (Hget x w H2)]]. }
        assert (Hnew : exists x w, ROk [(k, v)] = ROk [(x, w)] /\ zget x ((k, v) :: f_accounts s) = Some w).
        { exists k, v. split; [reflexivity|]. cbn [zget]. now rewrite Z.eqb_refl. }
        constructor; cbn [set_call f_now f_accounts f_keys f_index f_jobs f_njobs f_calls f_ncalls rev app].
        -- intros q j' (U1 & U2 & U3). cbn in U1, U2, U3. destruct (Nat.eq_dec j' j) as [->|N].
           ++ rewrite nset_same in U3. exfalso. exact (U3 _ eq_refl).
           ++ rewrite nset_other in U2, U3 by exact N. assert (U' : unfinished s j' q) by (repeat split; auto). destruct (B1 q j' U') as (x & -> & Hx).
              exists x. split; [reflexivity|]. cbn [zget]. destruct (x =? k) eqn:E; [|exact Hx]. exfalso. apply Z.eqb_eq in E as ->. apply N.
              rewrite Ek in U. apply (fi_listed c s I) in U. apply (fi_listed c s I) in U'. congruence.
        -- intros j' r Hj'. calls_case j' j; [cbn; intros [H|H]; [discriminate|injection H as <-; right; exists k, v; split; [exact Ek|reflexivity]]|apply B2; exact Hj'].
        -- intros j' r Hj'. calls_case j' j; [cbn; intros H; injection H as <-; right; exact Hnew|]. intros H. apply Hup. exact (B3 j' r Hj' H).
        -- intros i' r Hi'. calls_case i' i; [cbn; intros H; injection H as <-; right; exact Hnew|]. intros H. apply Hup. exact (B4 i' r Hi' H).
    + constructor; auto; cbn. intros i' r' Hi'. calls_case i' i; [|apply B4; exact Hi']. cbn. intros H. injection H as <-. exact (B3 j r Hj Ep).
  - destruct (Nat.ltb j (f_njobs s)) eqn:El; [|constructor; auto]. apply Nat.ltb_lt in El. destruct (j_phase (f_jobs s j)) eqn:Ep; try (constructor; auto; fail).
    assert (U : unfinished s j (j_query (f_jobs s j))) by (repeat split; auto; rewrite Ep; discriminate).
    destruct (B1 _ _ U) as (k & Ek & Hk).
    constructor; cbn [set_phase f_now f_accounts f_keys f_index f_jobs f_njobs f_calls f_ncalls]; auto.
    + intros q j' (U1 & U2 & U3). cbn in U1, U2, U3. apply (B1 q j'). destruct (Nat.eq_dec j' j) as [->|N].
      * rewrite nset_same in U2. cbn in U2. repeat split; auto. rewrite Ep. discriminate.
      * rewrite nset_other in U2, U3 by exact N. repeat split; auto.
    + intros j' r Hj'. calls_case j' j; [|apply B2; exact Hj']. cbn. intros [H|H]; [|discriminate]. injection H as <-. rewrite Ek. destruct ok; [|left; reflexivity]. cbn.
      destruct (c_data c k (f_now s)) as [v|]; [right; eauto|left; reflexivity].
    + intros j' r Hj'. calls_case j' j; [cbn; discriminate|apply B3; exact Hj'].
  - destruct (Nat.ltb i (f_ncalls s)) eqn:El; [|constructor; auto]. destruct (fc_standing (f_calls s i)) eqn:Ew; try (constructor; auto; fail).
    constructor; auto; cbn. intros i' r Hi'. calls_case i' i; [cbn; discriminate|apply B4; exact Hi'].
Qed.
Lemma stable_run c es : honest c -> forall s, finv c s -> stable s -> existsb is_clear es = false -> existsb is_listing es = false -> stable (frun c s es).
Proof.
  intros Hh. induction es as [|e es IH]; intros s I B H1 H2; [exact B|]. cbn [existsb] in H1, H2. apply orb_false_iff in H1 as [H1 H1'].
  apply orb_false_iff in H2 as [H2 H2']. cbn [frun fold_left]. apply IH; auto; [exact (finv_step c s e Hh I)|exact (stable_step c s e I B H1 H2)].
Qed.
Theorem same_answers c es i i' k l l' : honest c -> existsb is_clear es = false -> existsb is_listing es = false ->
  let s := frun c fetch0 es in
  returned s i (QAccount k) (ROk l) -> returned s i' (QAccount k) (ROk l') -> l = l'.
Proof.
  intros Hh H1 H2 s [Hi R] [Hi' R']. pose proof (stable_run c es Hh _ (finv0 c) stable0 H1 H2) as B. fold s in B.
  pose proof (finv_run c es Hh _ (finv0 c)) as I. fold s in I.
  pose proof (fi_calls c s I i Hi) as G. rewrite R in G. cbn in G. destruct G as (t & v & _ & _ & ->).
  pose proof (fi_calls c s I i' Hi') as G. rewrite R' in G. cbn in G. destruct G as (t' & v' & _ & _ & ->).
  destruct (sb_calls s B i (ROk [(k, v)]) Hi) as [E|(x & w & E & Hx)]; [rewrite R; reflexivity|discriminate|].
  destruct (sb_calls s B i' (ROk [(k, v')]) Hi') as [E'|(x' & w' & E' & Hx')]; [rewrite R'; reflexivity|discriminate|].
  injection E as <- <-. injection E' as <- <-. congruence.
Qed.
