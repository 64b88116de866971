(** What [createOpenOrdersIx] does. *)
From Coq Require Import ZArith List Bool Lia ZifyBool.
From Verif Require Import Base Nodes OrderTree BookSide Heap Market OpenOrders Order Book Instructions
  SpecBook SpecOrder SpecLedger SpecEvents SpecSystem SpecControl Program SpecProgram ProgFacts IndexFacts BaseFacts TsOpen.
Import ListNotations.
Open Scope Z_scope.

(** A missing indexer is made. *)
Definition with_indexer (p : prog) (o : Z) : prog := mkProg (p_mkts p) ((o, mkIdx 0 []) :: p_idx p) (p_tok p).
Lemma made addr e p o r : pexec addr e p (PCreateIndexer o) = Ok r -> al_get o (p_idx p) = None /\ is_authority p o = false /\ r = (with_indexer p o, ONone).
Proof.
  cbn [pexec]. destruct (is_authority p o); [discriminate|]. cbn [negb require bind]. destruct (al_get o (p_idx p)); [discriminate|]. cbn [require bind].
  intros [= <-]. auto.
Qed.
Lemma makes addr e p o : al_get o (p_idx p) = None -> is_authority p o = false -> pexec addr e p (PCreateIndexer o) = Ok (with_indexer p o, ONone).
Proof. intros N A. cbn [pexec]. rewrite A, N. reflexivity. Qed.
Lemma made_get p o : al_get o (p_idx (with_indexer p o)) = Some (mkIdx 0 []).
Proof. cbn [with_indexer p_idx al_get]. rewrite Z.eqb_refl. reflexivity. Qed.

(** Opens iff. *)
Lemma opens_iff addr e p m o d nl : addresses_differ addr -> preachable addr p -> is_authority p o = false ->
  (exists p' k, ts_open addr e p (al_get o (p_idx p)) m o d nl = Ok (p', k)) <->
  ((forall x, al_get o (p_idx p) = Some x -> (length (ix_addrs x) < 256)%nat /\ ix_counter x < 4294967295) /\
   (exists s, market_in p m = Some s /\ s_closed s = false) /\ nl <= 32).
Proof.
  intros D R A. unfold ts_open, ts_address. destruct (al_get o (p_idx p)) as [x|] eqn:X; cbn [ts_next_number].
  - unfold al_load. split.
    + intros (p' & k & H). apply bind_ok in H as (k' & _ & H). cbn [bind] in H. rewrite X in H. cbn [bind] in H.
      apply bind_ok in H as (? & _ & H). apply bind_ok in H as ([p2 o2] & H & _).
      destruct (proj1 (creates_iff addr e p m o d nl D R A) (ex_intro _ p2 (ex_intro _ o2 H))) as (y & s & Y & L & C & M & O & N).
      rewrite X in Y. injection Y as <-. split; [intros z [= <-]; auto|]. split; [exists s; auto|exact N].
    + intros (L & (s & M & O) & N). destruct (L x eq_refl) as [L1 L2].
      replace (ix_counter x + 1 <=? u32_max) with true by (unfold u32_max; lia). cbn [require bind]. rewrite X. cbn [bind]. rewrite Z.eqb_refl. cbn [require bind].
      destruct (proj2 (creates_iff addr e p m o d nl D R A)) as (p2 & o2 & E).
      { exists x, s. do 5 (split; [assumption|]). exact N. }
      rewrite E. cbn [bind]. eauto.
  - change (1 <=? u32_max) with true. cbn [require bind]. rewrite (makes addr e p o X A). cbn [bind]. unfold al_load. rewrite made_get. cbn [bind ix_counter].
    change (0 + 1) with 1. rewrite Z.eqb_refl. cbn [require bind].
    assert (R1 : preachable addr (with_indexer p o)) by (eapply pr_step; [exact R|exact (makes addr e p o X A)]).
    pose proof (creates_iff addr e (with_indexer p o) m o d nl D R1 A) as I. split.
    + intros (p' & k & H). apply bind_ok in H as ([p2 o2] & H & _).
      destruct (proj1 I (ex_intro _ p2 (ex_intro _ o2 H))) as (y & s & Y & L & C & M & O & N). split; [discriminate|]. split; [exists s; auto|exact N].
    + intros (_ & (s & M & O) & N). destruct (proj2 I) as (p2 & o2 & E).
      { exists (mkIdx 0 []), s. split; [apply made_get|]. cbn [ix_addrs ix_counter length]. split; [lia|]. split; [lia|]. split; [exact M|]. split; [exact O|exact N]. }
      rewrite E. cbn [bind]. eauto.
Qed.

(** Whatever was read, the address returned is the account's. *)
Lemma opened addr e p read m o d nl p' k : addresses_differ addr -> preachable addr p -> ts_open addr e p read m o d nl = Ok (p', k) ->
  exists a x, account_in p' m k a /\ a_owner a = o /\ a_delegate a = d /\ a_pos a = position0 /\ (forall oo, In oo (a_orders a) -> oo = open_order0) /\
    ~ (exists m' a', account_in p m' k a') /\ al_get o (p_idx p') = Some x /\ last (ix_addrs x) 0 = k /\ k = addr o (a_num a) /\
    preachable addr p'.
Proof.
  intros D R H. unfold ts_open in H. apply bind_ok in H as (k' & _ & H). apply bind_ok in H as ([p1 o1] & E1 & H).
  apply bind_ok in H as (x & Ex & H). apply al_load_ok in Ex. apply bind_ok in H as (? & Q & H). apply require_ok in Q. apply Z.eqb_eq in Q.
  apply bind_ok in H as ([p2 o2] & E & H). injection H as <- <-.
  assert (P : preachable addr p1 /\ p_mkts p1 = p_mkts p /\ p_tok p1 = p_tok p).
  { destruct read.
    - injection E1 as <- _. auto.
    - split; [eapply pr_step; [exact R|exact E1]|]. apply made in E1 as (_ & _ & E1). injection E1 as -> _. split; reflexivity. }
  destruct P as (R1 & PM & PT). destruct (creates_what addr e p1 m o d nl p2 o2 D R1 E) as (y & a & Y & G1 & G2 & G3 & G4 & G5 & G6 & G7 & G8).
  rewrite Ex in Y. injection Y as <-. rewrite <- Q in *. exists a. eexists. split; [exact G2|]. split; [exact G3|]. split; [exact G4|]. split; [exact G6|].
  split; [exact G7|]. split.
  - intros (m' & a' & (s & M & B)). apply G8. exists m', a', s. split; [|exact B]. unfold market_in in *. rewrite PM, PT. exact M.
  - split; [exact G1|]. cbn [ix_addrs]. split; [apply last_last|]. split; [rewrite G5; exact Q|]. eapply pr_step; [exact R1|exact E].
Qed.

(** What was read is out of date. *)
Lemma stale addr e p read m o d nl : addresses_differ addr -> preachable addr p ->
  (forall x, read = Some x -> 0 <= ix_counter x) ->
  match read, al_get o (p_idx p) with Some x, Some y => ix_counter x <> ix_counter y | None, None => False | _, _ => True end ->
  exists er, ts_open addr e p read m o d nl = Err er.
Proof.
  intros D R N S. destruct (ts_open addr e p read m o d nl) as [[p' k]|er] eqn:H; [exfalso|now exists er].
  unfold ts_open in H. apply bind_ok in H as (k' & Ek & H). unfold ts_address in Ek. apply bind_ok in Ek as (? & U & Ek). apply require_ok in U. injection Ek as <-.
  apply bind_ok in H as ([p1 o1] & E1 & H). apply bind_ok in H as (y & Ey & H). apply al_load_ok in Ey. apply bind_ok in H as (? & Q & H). apply require_ok in Q. apply Z.eqb_eq in Q.
  apply bind_ok in H as ([p2 o2] & E & _). destruct read as [rd|].
  - injection E1 as <- _. rewrite Ey in S. cbn [ts_next_number] in *.
    pose proof (x_cnt _ _ _ (preachable_xok _ _ D R) _ _ Ey) as C. specialize (N rd eq_refl). unfold u32_max in U.
    assert (L : ix_counter y + 1 <= 4294967295).
    { cbn [pexec] in E. apply bind_ok in E as (? & _ & E). apply bind_ok in E as (z & Ez & E). apply al_load_ok in Ez. rewrite Ey in Ez. injection Ez as <-.
      apply bind_ok in E as (? & _ & E). apply bind_ok in E as (? & Eu & _). apply massert_ok in Eu. unfold u32_max in Eu. lia. }
    apply S. destruct (proj1 D o (ix_counter rd + 1) o (ix_counter y + 1) ltac:(lia) ltac:(lia) Q) as [_ G]. lia.
  - apply made in E1 as (Z0 & _). rewrite Z0 in S. exact S.
Qed.
