(** What [depositNativeIx] does. *)
From Coq Require Import ZArith List Bool Lia ZifyBool.
From Verif Require Import Base Nodes OrderTree BookSide Heap Market OpenOrders Order Book Instructions
  SpecBook SpecFees SpecOrder SpecLedger SpecSystem Solvency TsKeep TsKeepFacts TsNative.
Import ListNotations.
Open Scope Z_scope.

(** Token accounts that agree but for one. *)
Definition but_for (w : Z) (t t' : tokens) : Prop := forall k, k <> w -> t' k = t k.
Lemma but_for_sym w t t' : but_for w t t' -> but_for w t' t.
Proof. intros H k N. symmetry. now apply H. Qed.

Lemma transfer_frame w t t' x f to auth u : but_for w t t' -> f <> w -> to <> w ->
  token_transfer t x f to auth = Ok u -> exists u', token_transfer t' x f to auth = Ok u' /\ but_for w u u' /\ u' w = t' w.
Proof.
  intros A F T. unfold token_transfer. destruct (0 <? x).
  2:{ intros [= <-]. exists t'. auto. }
  unfold tok_load. rewrite (A f F), (A to T). destruct (t f) as [a|]; [|discriminate]. destruct (t to) as [b|]; [|discriminate]. cbn [bind].
  destruct (t_mint a =? t_mint b); [|discriminate]. destruct (t_owner a =? auth); [|discriminate]. destruct (x <=? t_amount a); [|discriminate].
  cbn [require bind]. cbv zeta.
  set (v := Some (mkTacc (t_mint a) (t_owner a) (t_amount a - x))).
  assert (E : upd t' f v to = upd t f v to) by (unfold upd; destruct (to =? f); [reflexivity|apply A, T]).
  rewrite E. destruct (upd t f v to) as [b1|]; [|discriminate]. cbn [bind].
  destruct (t_amount b1 + x <=? u64_max); [|discriminate]. cbn [require bind]. intros [= <-].
  eexists. split; [reflexivity|]. split.
  - intros k N. unfold upd. destruct (k =? to); [reflexivity|]. destruct (k =? f); [reflexivity|]. apply A, N.
  - unfold upd. destruct (Z.eqb_spec w to) as [Z1|_]; [now contradiction T|]. destruct (Z.eqb_spec w f) as [Z2|_]; [now contradiction F|]. reflexivity.
Qed.

Lemma check_frame w t t' u v r : but_for w t t' -> u <> w -> v <> w -> check_mint t u v = Ok r -> check_mint t' u v = Ok r.
Proof. intros A U V. unfold check_mint, tok_load. rewrite (A u U), (A v V). auto. Qed.

Lemma deposit_frame w e s t' u k ub uq b q s' : but_for w (s_tok s) t' -> ub <> w -> uq <> w ->
  c_base_vault (m_cfg (w_mkt (s_w s))) <> w -> c_quote_vault (m_cfg (w_mkt (s_w s))) <> w ->
  deposit_ix e s u k ub uq b q = Ok s' ->
  exists s2, deposit_ix e (s_set_tok s t') u k ub uq b q = Ok s2 /\ s_w s2 = s_w s' /\ s_closed s2 = s_closed s' /\
    but_for w (s_tok s') (s_tok s2) /\ s_tok s2 w = t' w.
Proof.
  intros A B Q VB VQ. unfold deposit_ix. cbv zeta. cbn [s_set_tok s_w s_tok s_closed].
  destruct (check_mint (s_tok s) ub _) as [r1|] eqn:C1; [|discriminate]. rewrite (check_frame w _ _ _ _ _ A B VB C1).
  cbn [bind]. destruct (check_mint (s_tok s) uq _) as [r2|] eqn:C2; [|discriminate]. rewrite (check_frame w _ _ _ _ _ A Q VQ C2).
  cbn [bind]. destruct (acct_load k _) as [a|]; [|discriminate]. cbn [bind].
  destruct (negb _); [|discriminate]. cbn [require bind].
  destruct (token_transfer (s_tok s) b ub _ u) as [t1|] eqn:T1; [|discriminate].
  destruct (transfer_frame w _ _ _ _ _ _ _ A B VB T1) as (t1' & -> & A1 & W1). cbn [bind].
  destruct (chk_u64 _) as [x1|]; [|discriminate]. cbn [bind]. destruct (chk_u64 _) as [x2|]; [|discriminate]. cbn [bind].
  destruct (token_transfer t1 q uq _ u) as [t2|] eqn:T2; [|discriminate].
  destruct (transfer_frame w _ _ _ _ _ _ _ A1 Q VQ T2) as (t2' & -> & A2 & W2). cbn [bind].
  destruct (chk_u64 _) as [x3|]; [|discriminate]. cbn [bind]. destruct (chk_u64 _) as [x4|]; [|discriminate]. cbn [bind].
  intros [= <-]. eexists. split; [reflexivity|]. cbn [s_w s_closed s_tok]. split; [reflexivity|]. split; [reflexivity|]. split; [exact A2|congruence].
Qed.

Lemma exec_deposit_frame w e s t' u k ub uq b q s' o : but_for w (s_tok s) t' -> ub <> w -> uq <> w ->
  c_base_vault (m_cfg (w_mkt (s_w s))) <> w -> c_quote_vault (m_cfg (w_mkt (s_w s))) <> w ->
  exec e s (IDeposit u k ub uq b q) = Ok (s', o) ->
  exists s2, exec e (s_set_tok s t') (IDeposit u k ub uq b q) = Ok (s2, o) /\ s_w s2 = s_w s' /\ s_closed s2 = s_closed s' /\
    but_for w (s_tok s') (s_tok s2) /\ s_tok s2 w = t' w.
Proof.
  intros A B Q VB VQ. unfold exec, exec_open. cbv zeta. cbn [s_set_tok s_w s_closed].
  destruct (s_closed s && _); [discriminate|].
  destruct (u64_arg b); [|discriminate]. destruct (u64_arg q); [|discriminate]. cbn [bind].
  destruct (negb _); [|discriminate]. cbn [require bind]. unfold lift_s.
  destruct (deposit_ix e s u k ub uq b q) as [s1|] eqn:D; [|discriminate]. cbn [bind]. intros [= <- <-].
  destruct (deposit_frame w e s t' u k ub uq b q s1 A B Q VB VQ D) as (s2 & E & H). exists s2.
  rewrite E. split; [reflexivity|exact H].
Qed.

Lemma vaults_there s w : reachable s -> s_tok s w = None ->
  c_base_vault (m_cfg (w_mkt (s_w s))) <> w /\ c_quote_vault (m_cfg (w_mkt (s_w s))) <> w.
Proof.
  intros R N. destruct (reachable_solvent s R) as [(v1 & V1 & _) (v2 & V2 & _) _ _]. split; intros E; rewrite E in *; congruence.
Qed.

(** It deposits what [depositIx] does, and the SOL comes back. *)
Lemma native_is_deposit sigs e s sol w native k a ub uq b q s' sol' : reachable s -> ub <> w -> uq <> w ->
  ts_deposit_native sigs e s sol w native k a ub uq b q = Ok (s', sol') ->
  sol' = sol /\ exists s1, keep_send sigs e s (ts_deposit k a ub uq b q) = Ok (s1, ONone) /\
    s_w s' = s_w s1 /\ s_closed s' = s_closed s1 /\ forall z, s_tok s' z = s_tok s1 z.
Proof.
  intros R B Q. unfold ts_deposit_native, open_wrapped. destruct (s_tok s w) as [x|] eqn:W; [discriminate|].
  destruct (vaults_there s w R W) as [VB VQ]. cbn [require bind].
  destruct (_ <=? sol); [|discriminate]. cbn [require bind].
  set (v := mkTacc native (a_owner a) (b + 10 ^ 7 - token_rent)). set (t1 := upd (s_tok s) w (Some v)).
  unfold keep_send. destruct (forallb _ _) eqn:S; [|discriminate]. cbn [require bind ts_deposit ki_do].
  destruct (exec e (s_set_tok s t1) _) as [[s2 o]|] eqn:E; [|discriminate]. cbn [bind].
  assert (A : but_for w (s_tok (s_set_tok s t1)) (s_tok s)).
  { intros z N. cbn [s_set_tok s_tok]. unfold t1, upd. destruct (Z.eqb_spec z w); [contradiction|reflexivity]. }
  destruct (exec_deposit_frame w e (s_set_tok s t1) (s_tok s) _ _ _ _ _ _ _ _ A B Q VB VQ E) as (s1 & E1 & H1 & H2 & H3 & H4).
  assert (Es : s_set_tok (s_set_tok s t1) (s_tok s) = s) by (destruct s; reflexivity). rewrite Es in E1.
  pose proof (exec_deposit_frame w e s t1 _ _ _ _ _ _ _ _ (but_for_sym _ _ _ A) B Q VB VQ E1) as (s3 & E3 & _ & _ & _ & W3).
  rewrite E in E3. injection E3 as E3. subst s3.
  unfold close_wrapped, tok_load. rewrite W3. unfold t1, upd. rewrite Z.eqb_refl. cbn [bind].
  unfold v. cbn [t_owner t_amount]. rewrite Z.eqb_refl. cbn [require bind]. intros [= <- <-]. split; [unfold token_rent; lia|].
  assert (o = ONone) as ->.
  { revert E1. unfold exec, exec_open, lift_s. cbv zeta. destruct (s_closed s && _); [discriminate|].
    destruct (u64_arg b); [|discriminate]. destruct (u64_arg q); [|discriminate]. cbn [bind].
    destruct (negb _); [|discriminate]. cbn [require bind]. destruct (deposit_ix _ _ _ _ _ _ _ _); [|discriminate]. cbn [bind]. congruence. }
  exists s1. split; [exact E1|]. cbn [s_set_tok s_w s_closed s_tok]. split; [congruence|]. split; [congruence|].
  intros z. unfold upd. destruct (Z.eqb_spec z w) as [->|N]; [congruence|]. symmetry. apply H3, N.
Qed.

(** Without the tokens in the named account it fails. *)
Lemma native_needs_tokens sigs e s sol w native k a ub uq b q x : reachable s -> ub <> w -> uq <> w ->
  s_tok s ub = Some x -> t_amount x < b -> 0 < b ->
  exists er, ts_deposit_native sigs e s sol w native k a ub uq b q = Err er.
Proof.
  intros R B Q X L P. destruct (ts_deposit_native _ _ _ _ _ _ _ _ _ _ _ _) as [[s' sol']|er] eqn:E; [|now exists er].
  destruct (native_is_deposit _ _ _ _ _ _ _ _ _ _ _ _ _ _ R B Q E) as (_ & s1 & D & _). exfalso. revert D.
  unfold keep_send. destruct (forallb _ _); [|discriminate]. cbn [require bind ts_deposit ki_do].
  unfold exec, exec_open. cbv zeta. destruct (s_closed s && _); [discriminate|].
  destruct (u64_arg b); [|discriminate]. destruct (u64_arg q); [|discriminate]. cbn [bind].
  destruct (negb _); [|discriminate]. cbn [require bind]. unfold deposit_ix. cbv zeta.
  destruct (check_mint _ ub _); [|discriminate]. cbn [bind]. destruct (check_mint _ uq _); [|discriminate]. cbn [bind].
  destruct (acct_load k _); [|discriminate]. cbn [bind]. destruct (negb _); [|discriminate]. cbn [require bind].
  unfold token_transfer at 1. replace (0 <? b) with true by lia. unfold tok_load at 1. rewrite X. cbn [bind].
  destruct (tok_load _ _); [|discriminate]. cbn [bind]. destruct (_ =? _); [|discriminate]. destruct (_ =? _); [|discriminate].
  cbn [require bind]. replace (b <=? t_amount x) with false by lia. discriminate.
Qed.

(** It goes through when the deposit does and the SOL is there. *)
Lemma native_goes sigs e s sol w native k a ub uq b q s1 : reachable s -> ub <> w -> uq <> w -> s_tok s w = None -> b + 10 ^ 7 <= sol ->
  keep_send sigs e s (ts_deposit k a ub uq b q) = Ok (s1, ONone) ->
  exists s', ts_deposit_native sigs e s sol w native k a ub uq b q = Ok (s', sol).
Proof.
  intros R B Q W L. destruct (vaults_there s w R W) as [VB VQ]. unfold ts_deposit_native, open_wrapped. rewrite W. cbn [require bind].
  replace (b + 10 ^ 7 <=? sol) with true by lia. cbn [require bind].
  set (v := mkTacc native (a_owner a) (b + 10 ^ 7 - token_rent)). set (t1 := upd (s_tok s) w (Some v)).
  unfold keep_send. destruct (forallb _ _) eqn:S; [|discriminate]. cbn [require bind ts_deposit ki_do]. intros E.
  assert (A : but_for w (s_tok s) t1).
  { intros z N. unfold t1, upd. destruct (Z.eqb_spec z w); [contradiction|reflexivity]. }
  destruct (exec_deposit_frame w e s t1 _ _ _ _ _ _ _ _ A B Q VB VQ E) as (s2 & -> & _ & _ & _ & H4). cbn [bind].
  unfold close_wrapped, tok_load. rewrite H4. unfold t1, upd. rewrite Z.eqb_refl. cbn [bind].
  unfold v. cbn [t_owner t_amount]. rewrite Z.eqb_refl. cbn [require bind]. eexists. f_equal. f_equal. unfold token_rent. lia.
Qed.
