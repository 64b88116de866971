(** Facts about layouts: what is stored without gaps is read back. *)
From Coq Require Import ZArith List Bool Lia ZifyBool.
From Verif Require Import Base Bytes SpecBytes.
Import ListNotations.
Open Scope Z_scope.

(** ** Induction over types *)
Definition ty_rect' (P : ty -> Prop) (HU : forall n, P (TU n)) (HI : forall n, P (TI n)) (HK : P TKey) (HB : forall n a, P (TBlob n a))
  (HA : forall t n, P t -> P (TArr t n)) (HR : forall ts, Forall P ts -> P (TRec ts)) : forall t, P t :=
  fix F (t : ty) : P t :=
    match t with
    | TU n => HU n | TI n => HI n | TKey => HK | TBlob n a => HB n a
    | TArr t n => HA t n (F t)
    | TRec ts => HR ts ((fix G (ts : list ty) : Forall P ts :=
                           match ts with [] => Forall_nil P | t :: r => Forall_cons t (F t) (G r) end) ts)
    end.

(** ** Without gaps *)
Fixpoint flat (t : ty) (v : val) {struct t} : list Z :=
  match t, v with
  | TU n, VZ z | TI n, VZ z => le n z
  | TKey, VZ z => le 32 z
  | TBlob _ _, VB bs => bs
  | TArr t _, VL l => concat (map (flat t) l)
  | TRec ts, VL l =>
      (fix go (ts : list ty) (l : list val) : list Z :=
         match ts, l with t :: ts', v :: l' => flat t v ++ go ts' l' | _, _ => [] end) ts l
  | _, _ => []
  end.
Fixpoint flats (ts : list ty) (l : list val) : list Z :=
  match ts, l with t :: ts', v :: l' => flat t v ++ flats ts' l' | _, _ => [] end.
Lemma flat_rec ts l : flat (TRec ts) (VL l) = flats ts l.
Proof. cbn [flat]. revert l. induction ts as [|t ts IH]; intros [|v l]; cbn [flats]; reflexivity. Qed.

(** The shape of a value, and its numbers reduced to the width of their fields. *)
Fixpoint shaped (t : ty) (v : val) {struct t} : Prop :=
  match t, v with
  | TU _, VZ _ | TI _, VZ _ | TKey, VZ _ => True
  | TBlob n _, VB bs => length bs = n
  | TArr t n, VL l => length l = n /\ Forall (shaped t) l
  | TRec ts, VL l =>
      (fix go (ts : list ty) (l : list val) : Prop :=
         match ts, l with t :: ts', v :: l' => shaped t v /\ go ts' l' | [], [] => True | _, _ => False end) ts l
  | _, _ => False
  end.
Fixpoint shapeds (ts : list ty) (l : list val) : Prop :=
  match ts, l with t :: ts', v :: l' => shaped t v /\ shapeds ts' l' | [], [] => True | _, _ => False end.
Lemma shaped_rec ts l : shaped (TRec ts) (VL l) <-> shapeds ts l.
Proof. cbn [shaped]. revert l. induction ts as [|t ts IH]; intros [|v l]; cbn [shapeds]; tauto. Qed.

Fixpoint norm (t : ty) (v : val) {struct t} : val :=
  match t, v with
  | TU n, VZ z => VZ (z mod 256 ^ Z.of_nat n)
  | TI n, VZ z => VZ (signed n (z mod 256 ^ Z.of_nat n))
  | TKey, VZ z => VZ (z mod 256 ^ 32)
  | TArr t _, VL l => VL (map (norm t) l)
  | TRec ts, VL l =>
      VL ((fix go (ts : list ty) (l : list val) : list val :=
             match ts, l with t :: ts', v :: l' => norm t v :: go ts' l' | _, _ => [] end) ts l)
  | _, _ => v
  end.
Fixpoint norms (ts : list ty) (l : list val) : list val :=
  match ts, l with t :: ts', v :: l' => norm t v :: norms ts' l' | _, _ => [] end.
Lemma norm_rec ts l : norm (TRec ts) (VL l) = VL (norms ts l).
Proof. reflexivity. Qed.

Fixpoint reads (ts : list ty) (bs : list Z) : option (list val * list Z) :=
  match ts with
  | [] => Some ([], bs)
  | t :: ts' =>
      match ts_read t bs with
      | Some (v, r) => match reads ts' r with Some (l, r') => Some (v :: l, r') | None => None end
      | None => None
      end
  end.
Lemma read_rec ts bs : ts_read (TRec ts) bs = match reads ts bs with Some (l, r) => Some (VL l, r) | None => None end.
Proof.
  cbn [ts_read]. set (g := fix go (ts : list ty) (bs : list Z) : option (list val * list Z) :=
               match ts with
               | [] => Some ([], bs)
               | t :: ts' =>
                   match ts_read t bs with
                   | Some (v, r) => match go ts' r with Some (l, r') => Some (v :: l, r') | None => None end
                   | None => None
                   end
               end).
  assert (E : forall ts bs, g ts bs = reads ts bs).
  { intros ts'. induction ts' as [|t ts' IH]; intros b; cbn; [reflexivity|]. destruct (ts_read t b) as [[v r]|]; [|reflexivity]. rewrite IH. reflexivity. }
  rewrite E. reflexivity.
Qed.

(** ** Numbers *)
Lemma le_length n : forall z, length (le n z) = n.
Proof. induction n as [|n IH]; intros z; cbn [le length]; [reflexivity|]. rewrite IH. reflexivity. Qed.
Lemma le_bytes n : forall z, Forall (fun b => 0 <= b < 256) (le n z).
Proof. induction n as [|n IH]; intros z; cbn [le]; constructor; [apply Z.mod_pos_bound; lia|apply IH]. Qed.
Lemma rd_le n : forall z r, rd n (le n z ++ r) = Some (z mod 256 ^ Z.of_nat n, r).
Proof.
  induction n as [|n IH]; intros z r; cbn [le rd app].
  - change (256 ^ Z.of_nat 0) with 1. rewrite Z.mod_1_r. reflexivity.
  - rewrite IH. do 2 f_equal. rewrite Nat2Z.inj_succ, Z.pow_succ_r by lia. rewrite Z.rem_mul_r; [reflexivity|lia|]. apply Z.pow_pos_nonneg; lia.
Qed.
Lemma rd_bytes_app bs : forall r, rd_bytes (length bs) (bs ++ r) = Some (bs, r).
Proof. induction bs as [|b bs IH]; intros r; cbn [length rd_bytes app]; [reflexivity|]. rewrite IH. reflexivity. Qed.
Lemma rd_many_ok {A B} (f : list Z -> option (A * list Z)) (g : B -> A) (h : B -> list Z) l :
  (forall x r, In x l -> f (h x ++ r) = Some (g x, r)) -> forall r, rd_many f (length l) (concat (map h l) ++ r) = Some (map g l, r).
Proof.
  induction l as [|x l IH]; intros H r; cbn [length rd_many map concat app]; [reflexivity|].
  rewrite <- app_assoc, (H x _ (or_introl eq_refl)). rewrite IH; [reflexivity|]. intros y r' Hy. apply H. right. exact Hy.
Qed.

(** ** Reading what is stored without gaps *)
Lemma read_flat t : forall v r, shaped t v -> ts_read t (flat t v ++ r) = Some (norm t v, r).
Proof.
  induction t as [n|n| |n a|t n IH|ts IH] using ty_rect'; intros v r H; destruct v as [z|bs|l]; try (cbn in H; contradiction).
  - cbn [ts_read flat norm]. rewrite rd_le. reflexivity.
  - cbn [ts_read flat norm]. rewrite rd_le. reflexivity.
  - cbn [ts_read flat norm]. rewrite rd_le. reflexivity.
  - cbn [ts_read flat norm]. cbn [shaped] in H. subst n. rewrite rd_bytes_app. reflexivity.
  - cbn [ts_read flat norm]. cbn [shaped] in H. destruct H as [<- H]. rewrite (rd_many_ok _ (norm t)); [reflexivity|].
    intros x r' Hx. apply IH. rewrite Forall_forall in H. apply H, Hx.
  - rewrite read_rec, flat_rec, norm_rec. rewrite shaped_rec in H.
    enough (E : reads ts (flats ts l ++ r) = Some (norms ts l, r)) by (rewrite E; reflexivity).
    revert l H. induction IH as [|t ts Ht Hts IHts]; intros [|v l] H; cbn [shapeds] in H; try contradiction; cbn [reads flats norms app]; [reflexivity|].
    destruct H as [H1 H2]. rewrite <- app_assoc, Ht by exact H1. rewrite IHts by exact H2. reflexivity.
Qed.

(** ** No hidden gaps *)
Lemma align_pos t : 1 <= align t.
Proof.
  induction t as [n|n| |n a|t n IH|ts IH] using ty_rect'; cbn [align]; try lia. induction IH as [|t ts Ht Hts IHts]; cbn [fold_right]; lia.
Qed.
Lemma up_same o a : 1 <= a -> o mod a = 0 -> up o a = o.
Proof.
  intros Ha H. unfold up. apply Z.div_exact in H; [|lia]. set (q := o / a) in *. rewrite H.
  replace (a * q + a - 1) with ((a - 1) + q * a) by lia. rewrite Z.div_add by lia. rewrite Z.div_small by lia. lia.
Qed.
Lemma bytes_flat t : forall v, packed t = true -> shaped t v -> bytes t v = flat t v.
Proof.
  induction t as [n|n| |n a|t n IH|ts IH] using ty_rect'; intros v P H; destruct v as [z|bs|l]; try reflexivity; try (cbn in H; contradiction).
  - cbn [bytes flat]. f_equal. apply map_ext_in. cbn [shaped packed] in H, P. destruct H as [_ H]. rewrite Forall_forall in H. intros x Hx. apply IH; auto.
  - rewrite flat_rec. apply shaped_rec in H. cbn [bytes packed] in P |- *. set (al := fold_right (fun t a => Z.max (align t) a) 1 ts) in *.
    assert (Hal : 1 <= al) by (apply (align_pos (TRec ts))). clearbody al.
    match goal with |- ?g ts l 0 = _ => set (by_ := g) end.
    match type of P with ?g ts 0 = true => set (pk := g) in P end.
    enough (E : forall off l, shapeds ts l -> pk ts off = true -> by_ ts l off = flats ts l) by (apply E; assumption).
    clear l H P. induction IH as [|t ts Ht Hts IHts]; intros off [|v l] H P; cbn [shapeds] in H; try contradiction; cbn [flats].
    + cbn [pk] in P. cbn [by_]. rewrite up_same by lia. rewrite Z.sub_diag. reflexivity.
    + destruct H as [H1 H2]. cbn [pk] in P. fold pk in P. apply andb_prop in P as [P P3]. apply andb_prop in P as [P1 P2]. pose proof (align_pos t) as Ha.
      cbn [by_]. fold by_. rewrite up_same by lia. rewrite Z.sub_diag. change (zeros 0) with (@nil Z). cbn [app]. rewrite Ht by assumption.
      rewrite IHts by assumption. reflexivity.
Qed.

Lemma flat_length t : forall v, packed t = true -> shaped t v -> Z.of_nat (length (flat t v)) = size t.
Proof.
  induction t as [n|n| |n a|t n IH|ts IH] using ty_rect'; intros v P H; destruct v as [z|bs|l]; try (cbn in H; contradiction).
  - cbn [flat size]. rewrite le_length. reflexivity.
  - cbn [flat size]. rewrite le_length. reflexivity.
  - cbn [flat size]. rewrite le_length. reflexivity.
  - cbn [shaped flat size] in *. lia.
  - cbn [shaped flat size packed] in *. destruct H as [<- H]. induction H as [|v l Hv Hl IHl]; cbn [map concat length]; [lia|].
    rewrite app_length. specialize (IH v P Hv). lia.
  - rewrite flat_rec. apply shaped_rec in H. cbn [size packed] in P |- *. set (al := fold_right (fun t a => Z.max (align t) a) 1 ts) in *.
    assert (Hal : 1 <= al) by (apply (align_pos (TRec ts))). clearbody al.
    match goal with |- _ = up (?g ts 0) al => set (sz := g) end.
    match type of P with ?g ts 0 = true => set (pk := g) in P end.
    assert (E : forall off l, shapeds ts l -> pk ts off = true -> off + Z.of_nat (length (flats ts l)) = sz ts off /\ sz ts off mod al = 0).
    { clear l H P. induction IH as [|t ts Ht Hts IHts]; intros off [|v l] H P; cbn [shapeds] in H; try contradiction; cbn [flats length].
      - cbn in P |- *. lia.
      - destruct H as [H1 H2]. cbn [pk] in P. fold pk in P. apply andb_prop in P as [P P3]. apply andb_prop in P as [P1 P2]. pose proof (align_pos t) as Ha.
        cbn [sz]. fold sz. rewrite up_same by lia. destruct (IHts (off + size t) l H2 P3) as [E1 E2]. split; [|exact E2]. rewrite <- E1, app_length.
        specialize (Ht v P1 H1). lia. }
    destruct (E 0 l H P) as [E1 E2]. rewrite up_same by lia. lia.
Qed.

(** ** Paddings and small pieces *)
Lemma shaped_pad n : shaped (TArr (TU 1) n) (pad n).
Proof. cbn [shaped pad]. rewrite repeat_length. split; [reflexivity|]. apply Forall_forall. intros x Hx. apply repeat_spec in Hx. subst x. exact I. Qed.
Lemma norm_pad n : norm (TArr (TU 1) n) (pad n) = pad n.
Proof. cbn [norm pad]. unfold pad. f_equal. rewrite <- (map_id (repeat (VZ 0) n)) at 2. apply map_ext_in. intros x Hx. apply repeat_spec in Hx. subst x. reflexivity. Qed.
Definition is_byte (b : Z) : Prop := 0 <= b < 256.
Lemma shaped_bytes l : shaped (TArr (TU 1) (length l)) (VL (map VZ l)).
Proof. cbn [shaped]. rewrite map_length. split; [reflexivity|]. apply Forall_forall. intros x Hx. apply in_map_iff in Hx as (z & <- & _). exact I. Qed.
Lemma norm_bytes n l : Forall is_byte l -> norm (TArr (TU 1) n) (VL (map VZ l)) = VL (map VZ l).
Proof.
  intros H. cbn [norm]. f_equal. rewrite map_map. apply map_ext_in. intros z Hz. rewrite Forall_forall in H. apply H in Hz. unfold is_byte in Hz.
  cbn [norm]. f_equal. apply Z.mod_small. exact Hz.
Qed.
Lemma flat_bytes n l : Forall is_byte l -> flat (TArr (TU 1) n) (VL (map VZ l)) = l.
Proof.
  intros H. cbn [flat]. rewrite map_map. induction H as [|b l Hb Hl IH]; [reflexivity|]. cbn [map concat]. rewrite IH. cbn [flat le app]. unfold is_byte in Hb.
  rewrite Z.mod_small by exact Hb. reflexivity.
Qed.

(** ** Values within their types are read back exactly *)
Lemma typed_shaped t : forall v, typed t v -> shaped t v.
Proof.
  induction t as [n|n| |n a|t n IH|ts IH] using ty_rect'; intros v H; destruct v as [z|bs|l]; try (cbn in H; contradiction); try exact I.
  - cbn [typed] in H. exact (proj1 H).
  - cbn [typed shaped] in *. destruct H as [H1 H2]. split; [exact H1|]. eapply Forall_impl; [|exact H2]. exact IH.
  - apply shaped_rec. cbn [typed] in H. revert l H. induction IH as [|t ts Ht Hts IHts]; intros [|v l] H; try contradiction; [exact I|].
    destruct H as [H1 H2]. cbn [shapeds]. split; [apply Ht, H1|apply IHts, H2].
Qed.
Lemma signed_back n z : (0 < n)%nat -> - 2 ^ (8 * Z.of_nat n - 1) <= z < 2 ^ (8 * Z.of_nat n - 1) -> signed n (z mod 256 ^ Z.of_nat n) = z.
Proof.
  intros Hn H. unfold signed.
  assert (E : 256 ^ Z.of_nat n = 2 * 2 ^ (8 * Z.of_nat n - 1)).
  { change 256 with (2 ^ 8). rewrite <- Z.pow_mul_r by lia. rewrite <- Z.pow_succ_r by lia. f_equal. lia. }
  assert (E' : 2 ^ (8 * Z.of_nat n) = 2 * 2 ^ (8 * Z.of_nat n - 1)) by (rewrite <- Z.pow_succ_r by lia; f_equal; lia).
  rewrite E, E'. set (p := 2 ^ (8 * Z.of_nat n - 1)) in *. clearbody p. clear E E'.
  destruct (Z.ltb_spec z 0) as [L|L].
  - rewrite <- (Z.mod_add z 1) by lia. rewrite Z.mod_small by lia. destruct (Z.ltb_spec (z + 1 * (2 * p)) p); lia.
  - rewrite Z.mod_small by lia. destruct (Z.ltb_spec z p); lia.
Qed.
Lemma typed_norm t : forall v, typed t v -> norm t v = v.
Proof.
  induction t as [n|n| |n a|t n IH|ts IH] using ty_rect'; intros v H; destruct v as [z|bs|l]; try (cbn in H; contradiction).
  - cbn [norm typed] in *. rewrite Z.mod_small; [reflexivity|]. change 256 with (2 ^ 8). rewrite <- Z.pow_mul_r by lia. exact H.
  - cbn [norm typed] in *. rewrite signed_back by (apply H). reflexivity.
  - cbn [norm typed] in *. rewrite Z.mod_small; [reflexivity|exact H].
  - reflexivity.
  - cbn [norm typed] in *. f_equal. destruct H as [_ H]. rewrite <- (map_id l) at 2. apply map_ext_in. rewrite Forall_forall in H. intros x Hx. apply IH, H, Hx.
  - rewrite norm_rec. f_equal. cbn [typed] in H. revert l H. induction IH as [|t ts Ht Hts IHts]; intros [|v l] H; try contradiction; [reflexivity|].
    destruct H as [H1 H2]. cbn [norms]. rewrite Ht, IHts by assumption. reflexivity.
Qed.
Theorem round_trip t v rest : packed t = true -> typed t v ->
  ts_read t (bytes t v ++ rest) = Some (v, rest) /\ Z.of_nat (length (bytes t v)) = size t.
Proof.
  intros P H. pose proof (typed_shaped _ _ H) as S. rewrite bytes_flat by assumption. split; [|apply flat_length; assumption].
  rewrite read_flat by exact S. rewrite typed_norm by exact H. reflexivity.
Qed.
