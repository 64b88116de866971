(** Proofs of the fee properties. *)
From Coq Require Import ZArith List Bool Lia ZifyBool.
From Verif Require Import Base Nodes Market OpenOrders Book Instructions BaseFacts SpecFees FeeFacts StepFacts.
Import ListNotations.
Open Scope Z_scope.

Lemma created_cfg now t c te s m : create_market_ix now t c te = Ok s -> m_cfg m = c -> cfg_sound (m_cfg m).
Proof.
  intros H <-. pose proof (create_sound _ _ _ _ _ H) as [Hc _].
  unfold create_market_ix in H. do 8 (apply bind_ok in H as (? & _ & H)). cbv zeta in H. injection H as <-. exact Hc.
Qed.

Lemma in_le_sum x l : (forall y, In y l -> 0 <= y) -> In x l -> x <= sumZ l.
Proof.
  induction l as [|y l IH]; intros H Hi; [destruct Hi|]. cbn [sumZ fold_right]. fold (sumZ l).
  pose proof (sumZ_nonneg l (fun z Hz => H z (or_intror Hz))). destruct Hi as [->|Hi]; [lia|].
  specialize (IH (fun z Hz => H z (or_intror Hz)) Hi). pose proof (H y (or_introl eq_refl)). lia.
Qed.

Lemma forall2_map {A B} (P : A -> B -> Prop) (f : A -> B) l : (forall x, In x l -> P x (f x)) -> Forall2 P l (map f l).
Proof. induction l as [|x l IH]; intros H; constructor; [apply H; left; reflexivity|apply IH; intros; apply H; right; assumption]. Qed.

Lemma taker_fee_exact now t c te s m amount fills :
  create_market_ix now t c te = Ok s -> m_cfg m = c -> 0 <= amount < 2 ^ 64 ->
  (forall x, In x fills -> 0 <= x) -> sumZ fills = amount ->
  exists f, taker_fees_ceil chk_u64 m amount = Ok f /\
    amount * taker_fee m <= f * 1000000 < amount * taker_fee m + 1000000 /\ 0 <= f <= amount /\
    exists rs, Forall2 (fun x r => maker_rebate_floor m x = Ok r /\ 0 <= r) fills rs /\ sumZ rs <= f.
Proof.
  intros H Em Ha Hf Es. pose proof (created_cfg _ _ _ _ _ _ H Em) as Hc. change (2 ^ 64) with 18446744073709551616 in Ha.
  pose proof (taker_pays_bounds m amount Hc ltac:(lia)) as Hb.
  exists (taker_pays m amount). split.
  { unfold chk_u64. rewrite taker_fees_ceil_in by (assumption || lia). fold chk_u64. rewrite chk_u64_in by lia. reflexivity. }
  split; [apply fee_up_bounds|]. split; [exact Hb|].
  exists (map (maker_gets m) fills). split.
  - apply forall2_map. intros x Hx. pose proof (Hf x Hx). pose proof (in_le_sum x fills Hf Hx).
    rewrite maker_rebate_floor_in by (assumption || lia). pose proof (maker_gets_bounds m x Hc ltac:(lia)). split; [reflexivity|lia].
  - rewrite <- Es. apply rebates_le_taker; assumption.
Qed.

Lemma maker_fee_exact now t c te s m amount :
  create_market_ix now t c te = Ok s -> m_cfg m = c -> 0 <= amount < 2 ^ 64 ->
  exists f r, maker_fees_floor m amount = Ok f /\ maker_rebate_floor m amount = Ok r /\
    0 <= f <= amount /\ 0 <= r <= amount /\
    (0 <= maker_fee m -> f * 1000000 <= amount * maker_fee m < f * 1000000 + 1000000 /\ r = 0) /\
    (maker_fee m <= 0 -> r * 1000000 <= amount * - maker_fee m < r * 1000000 + 1000000 /\ f = 0).
Proof.
  intros H Em Ha. pose proof (created_cfg _ _ _ _ _ _ H Em) as Hc. change (2 ^ 64) with 18446744073709551616 in Ha.
  exists (maker_pays m amount), (maker_gets m amount).
  split; [apply maker_fees_floor_in; [exact Hc|lia]|]. split; [apply maker_rebate_floor_in; [exact Hc|lia]|].
  split; [apply maker_pays_bounds; [exact Hc|lia]|]. split; [apply maker_gets_bounds; [exact Hc|lia]|].
  unfold maker_pays, maker_gets. pose proof (fee_down_bounds (maker_fee m) amount). pose proof (fee_down_bounds (- maker_fee m) amount).
  destruct (0 <? maker_fee m) eqn:E; split; intros Hm; lia.
Qed.

Lemma locks_split_list m l b : (forall x, In x l -> 0 <= x) ->
  sumZ (map (maker_pays m) l) + maker_locks m b <= maker_locks m (sumZ l + b).
Proof.
  induction l as [|x l IH]; intros H; [cbn; lia|]. cbn [map sumZ fold_right]. fold (sumZ l) (sumZ (map (maker_pays m) l)).
  specialize (IH (fun y Hy => H y (or_intror Hy))). pose proof (maker_locks_split m x (sumZ l + b)).
  replace (x + sumZ l + b) with (x + (sumZ l + b)) by lia. lia.
Qed.

Lemma locked_fee_covers now t c te s m amount fills rest :
  create_market_ix now t c te = Ok s -> m_cfg m = c -> 0 <= amount < 2 ^ 63 ->
  (forall x, In x fills -> 0 <= x) -> 0 <= rest -> sumZ fills + rest = amount ->
  exists locked refund fs, maker_fees_ceil chk_i64 m amount = Ok locked /\
    maker_fees_ceil chk_u64 m rest = Ok refund /\
    Forall2 (fun x f => maker_fees_floor m x = Ok f /\ 0 <= f) fills fs /\
    0 <= refund /\ sumZ fs + refund <= locked <= amount.
Proof.
  intros H Em Ha Hf Hr Es. pose proof (created_cfg _ _ _ _ _ _ H Em) as Hc. change (2 ^ 63) with 9223372036854775808 in Ha.
  pose proof (sumZ_nonneg fills Hf) as Hs.
  pose proof (maker_locks_bounds m amount Hc ltac:(lia)) as B1. pose proof (maker_locks_bounds m rest Hc ltac:(lia)) as B2.
  exists (maker_locks m amount), (maker_locks m rest), (map (maker_pays m) fills).
  assert (G : forall a, (0 <? maker_fee m) = false -> maker_locks m a = 0) by (intros a E; unfold maker_locks; rewrite E; reflexivity).
  split.
  { unfold chk_i64. rewrite maker_fees_ceil_in by (assumption || lia). fold chk_i64. destruct (0 <? maker_fee m) eqn:E; [rewrite chk_i64_in by lia; reflexivity|rewrite G by reflexivity; reflexivity]. }
  split.
  { unfold chk_u64. rewrite maker_fees_ceil_in by (assumption || lia). fold chk_u64. destruct (0 <? maker_fee m) eqn:E; [rewrite chk_u64_in by lia; reflexivity|rewrite G by reflexivity; reflexivity]. }
  split.
  { apply forall2_map. intros x Hx. pose proof (Hf x Hx). pose proof (in_le_sum x fills Hf Hx).
    rewrite maker_fees_floor_in by (assumption || lia). pose proof (maker_pays_bounds m x Hc ltac:(lia)). split; [reflexivity|lia]. }
  split; [lia|]. split; [|lia]. rewrite <- Es. apply locks_split_list. exact Hf.
Qed.
