(** Proofs of the event heap properties stated in SpecHeap's vocabulary. *)
From Coq Require Import ZArith List Bool Lia ZifyBool.
From Verif Require Import Base Nodes Heap BaseFacts HeapFacts SpecHeap.
Import ListNotations.
Open Scope Z_scope.

Definition heap_inv (h : heap) (q : queue) (n : Z) : Prop := heap_ok h q /\ h_seq h = n.

Lemma heap_ok_range h q : heap_ok h q -> forall s, In s (map snd q) -> 0 <= s < 600.
Proof. intros (F & H) s Hs. apply (hr_range _ _ _ H). apply in_or_app. auto. Qed.
Lemma heap_ok_nodup h q : heap_ok h q -> NoDup (map snd q).
Proof. intros (F & H). eapply nodup_app_l. apply (hr_nodup _ _ _ H). Qed.
Lemma heap_ok_len h q : heap_ok h q -> (length q <= 600)%nat.
Proof. intros (F & H). eapply heap_rep_len; eauto. Qed.

Lemma find_slot_in q s e : NoDup (map snd q) -> In (e, s) q ->
  find (fun p : event * Z => snd p =? s) q = Some (e, s).
Proof.
  induction q as [|[e' s'] q IH]; cbn; intros Hn Hi; [destruct Hi|]. inversion Hn; subst.
  destruct Hi as [E|Hi].
  - injection E as -> ->. rewrite Z.eqb_refl. reflexivity.
  - destruct (Z.eqb_spec s' s) as [->|]; [|auto]. exfalso. apply H1. apply in_map_iff. exists (e, s). auto.
Qed.
Lemma find_slot_none (q : queue) s : ~ In s (map snd q) -> find (fun p : event * Z => snd p =? s) q = None.
Proof.
  induction q as [|[e' s'] q IH]; cbn; intros Hn; [reflexivity|].
  destruct (Z.eqb_spec s' s) as [->|]; [exfalso; auto|auto].
Qed.

Lemma at_slot_in h q s e : heap_ok h q -> In (e, s) q -> at_slot h s = Some e.
Proof.
  intros Hh Hi. assert (Hs : 0 <= s < 600) by (eapply heap_ok_range; [exact Hh|apply in_map_iff; exists (e, s); auto]).
  pose proof (heap_ok_nodup _ _ Hh) as Hn. destruct Hh as (F & H). rewrite (at_slot_rep _ _ _ _ H) by lia.
  rewrite (find_slot_in _ _ _ Hn Hi). reflexivity.
Qed.
Lemma at_slot_none h q s : heap_ok h q -> 0 <= s -> ~ In s (map snd q) -> at_slot h s = None.
Proof.
  intros (F & H) Hs Hi. rewrite (at_slot_rep _ _ _ _ H) by lia. rewrite find_slot_none by exact Hi. reflexivity.
Qed.

Lemma delete_absent h q s : heap_ok h q -> 0 <= s -> ~ In s (map snd q) -> exists x, delete_slot h s = Err x.
Proof.
  intros Hh Hs Hn. destruct (delete_slot h s) as [[h' e]|x] eqn:E; [|eauto]. exfalso.
  destruct (delete_slot_ok _ _ _ _ _ Hh Hs E) as (L1 & L2 & -> & _). apply Hn. rewrite map_app. apply in_or_app. right. left. reflexivity.
Qed.

Lemma push_full h q e : heap_ok h q -> length q = 600%nat -> exists x, push_back h e = Err x.
Proof.
  intros (F & H) Hl. unfold push_back, heap_is_full, MAX_EVENTS. rewrite (hr_count _ _ _ H), Hl. cbn. eauto.
Qed.

Lemma heap_step_spec h q op h' out n :
  heap_inv h q n -> heap_op_ok op -> 0 <= n < 18446744073709551615 -> heap_step h op = (h', out) ->
  exists q', queue_step q op out q' /\ heap_inv h' q' (match out with HPushed => n + 1 | _ => n end).
Proof.
  intros [Hh Hsq] Hop Hn He. destruct op as [e| |s]; cbn [heap_step] in He.
  - destruct (Nat.lt_ge_cases (length q) 600) as [Hlt|Hge].
    + destruct (push_back_succeeds h q e Hh Hlt ltac:(lia) ltac:(lia)) as (h2 & E). rewrite E in He. injection He as <- <-.
      destruct Hh as (F & H). pose proof (hr_nodup _ _ _ H) as Hnd.
      destruct (push_back_rep _ _ _ _ _ H E) as (s & F' & HF & _ & Hr & Hq). exists (q ++ [(e, s)]).
      assert (Hs : In s F) by (rewrite HF; left; reflexivity).
      split; [|split; [exists F'; exact Hr|lia]]. constructor; [exact Hlt| |].
      * apply (hr_range _ _ _ H). apply in_or_app. auto.
      * intros Hi. eapply nodup_app_disj; eauto.
    + pose proof (heap_ok_len _ _ Hh). assert (Hl : length q = 600%nat) by lia.
      destruct (push_full h q e Hh Hl) as (x & E). rewrite E in He. injection He as <- <-.
      exists q. split; [constructor; exact Hl|split; assumption].
  - destruct q as [|[e s] q].
    + assert (E : exists x, pop_front h = Err x).
      { unfold pop_front. pose proof Hh as (F & H). rewrite (hr_used _ _ _ H). apply (delete_absent h [] NO_NODE Hh); [unfold NO_NODE; cbn; lia|auto]. }
      destruct E as (x & E). rewrite E in He. injection He as <- <-. exists []. split; [constructor|split; assumption].
    + assert (E : exists h2, pop_front h = Ok (h2, e) /\ heap_ok h2 q /\ h_seq h2 = h_seq h).
      { destruct Hh as (F & H). unfold pop_front. rewrite (hr_used _ _ _ H). cbn [map hd snd].
        destruct (delete_slot_rep h [] e s q F H) as (h2 & Hd & Hr & Hq). exists h2. split; [exact Hd|].
        split; [exists (s :: F); exact Hr|exact Hq]. }
      destruct E as (h2 & E & Hh2 & Hq2). rewrite E in He. injection He as <- <-. exists q. split; [constructor|].
      split; [exact Hh2|congruence].
  - cbn in Hop. destruct (in_dec Z.eq_dec s (map snd q)) as [Hi|Hi].
    + apply map_snd_split in Hi as (L1 & e & L2 & ->). destruct Hh as (F & H).
      destruct (delete_slot_rep _ _ _ _ _ _ H) as (h2 & E & Hr & Hq). rewrite E in He. injection He as <- <-.
      exists (L1 ++ L2). split; [constructor|]. split; [exists (s :: F); exact Hr|congruence].
    + destruct (delete_absent _ _ _ Hh Hop Hi) as (x & E). rewrite E in He. injection He as <- <-.
      exists q. split; [constructor; exact Hi|split; assumption].
Qed.

Lemma pushes_cons o outs : Z.of_nat (pushes (o :: outs)) = (match o with HPushed => 1 | _ => 0 end) + Z.of_nat (pushes outs).
Proof. unfold pushes. cbn [filter]. destruct o; cbn [length]; lia. Qed.

Lemma heap_run_spec ops : forall h q n h' outs,
  heap_inv h q n -> Forall heap_op_ok ops -> 0 <= n -> n + Z.of_nat (length ops) < 18446744073709551616 ->
  heap_run h ops = (h', outs) ->
  exists q', queue_run q ops outs q' /\ heap_inv h' q' (n + Z.of_nat (pushes outs)).
Proof.
  induction ops as [|op ops IH]; intros h q n h' outs Hi Hok Hn Hl He; cbn [heap_run] in He.
  - injection He as <- <-. exists q. split; [constructor|]. cbn. rewrite Z.add_0_r. exact Hi.
  - inversion Hok as [|? ? Hop Hok']; subst. destruct (heap_step h op) as [h1 out] eqn:E1.
    destruct (heap_run h1 ops) as [h2 outs2] eqn:E2. injection He as <- <-.
    cbn [length] in Hl.
    destruct (heap_step_spec _ _ _ _ _ _ Hi Hop ltac:(lia) E1) as (q1 & Hs1 & Hi1).
    destruct (IH _ _ _ _ _ Hi1 Hok' ltac:(destruct out; lia) ltac:(destruct out; lia) E2) as (q2 & Hr2 & Hi2).
    exists q2. split; [econstructor; eauto|]. rewrite pushes_cons.
    replace (n + _) with (match out with HPushed => n + 1 | _ => n end + Z.of_nat (pushes outs2)) by (destruct out; lia).
    exact Hi2.
Qed.

Lemma heap_is_queue ops h outs : Forall heap_op_ok ops -> Z.of_nat (length ops) < 2 ^ 64 ->
  heap_run heap_init ops = (h, outs) ->
  exists q, queue_run [] ops outs q /\ heap_iter h = Ok q /\ NoDup (map snd q) /\
    heap_front h = Ok (match q with [] => None | (e, _) :: _ => Some e end) /\
    h_count h = Z.of_nat (length q) /\ h_seq h = Z.of_nat (pushes outs).
Proof.
  intros Hok Hl He. assert (H0 : heap_inv heap_init [] 0) by (split; [exact heap_init_ok|reflexivity]).
  destruct (heap_run_spec ops _ _ _ _ _ H0 Hok ltac:(lia) ltac:(lia) He) as (q & Hr & Hh & Hs).
  exists q. split; [exact Hr|]. split; [apply heap_iter_rep; exact Hh|]. split; [eapply heap_ok_nodup; eauto|].
  split; [apply heap_front_rep; exact Hh|]. split; [|exact Hs]. destruct Hh as (F & H). apply (hr_count _ _ _ H).
Qed.

Lemma slot_stable ops h outs q op h' out s e :
  Forall heap_op_ok ops -> Z.of_nat (length ops) < 2 ^ 64 - 1 -> heap_op_ok op ->
  heap_run heap_init ops = (h, outs) -> heap_iter h = Ok q -> heap_step h op = (h', out) ->
  In (e, s) q ->
  at_slot h s = Some e /\
  (~ takes_slot q op s -> at_slot h' s = Some e /\ exists q', heap_iter h' = Ok q' /\ In (e, s) q') /\
  (takes_slot q op s -> out = HRemoved e /\ at_slot h' s = None).
Proof.
  intros Hok Hl Hop He Hit Hst Hin.
  assert (H0 : heap_inv heap_init [] 0) by (split; [exact heap_init_ok|reflexivity]).
  change (2 ^ 64) with 18446744073709551616 in Hl.
  destruct (heap_run_spec ops _ _ _ _ _ H0 Hok ltac:(lia) ltac:(lia) He) as (q0 & Hr & Hh & Hs).
  pose proof (heap_iter_rep _ _ Hh) as Hit0. rewrite Hit in Hit0. injection Hit0 as <-.
  assert (Hp : (pushes outs <= length ops)%nat).
  { clear - He. revert h outs He. generalize heap_init. induction ops as [|o ops IH]; intros h0 h outs He; cbn [heap_run] in He.
    - injection He as _ <-. cbn. lia.
    - destruct (heap_step h0 o) as [h1 o1]. destruct (heap_run h1 ops) as [h2 o2] eqn:E. injection He as _ <-.
      apply IH in E. pose proof (pushes_cons o1 o2). cbn [length]. destruct o1; lia. }
  split; [eapply at_slot_in; eauto|].
  destruct (heap_step_spec h q op h' out _ (conj Hh Hs) Hop ltac:(lia) Hst) as (q' & Hq & Hh' & _).
  pose proof (heap_ok_nodup _ _ Hh) as Hnd.
  assert (Hs0 : 0 <= s) by (eapply heap_ok_range in Hh; [apply Hh|]; apply in_map_iff; exists (e, s); auto).
  split.
  - intros Ht. assert (Hin' : In (e, s) q').
    { inversion Hq; subst; cbn [takes_slot] in Ht; try exact Hin.
      - apply in_or_app. auto.
      - destruct Hin as [E|Hin]; [|exact Hin]. injection E as -> ->. exfalso. apply Ht. eauto.
      - apply in_app_iff in Hin as [Hin|[E|Hin]]; [| |]; try (apply in_or_app; auto; fail).
        injection E as -> ->. exfalso. apply Ht. reflexivity. }
    split; [eapply at_slot_in; eauto|]. exists q'. split; [apply heap_iter_rep; exact Hh'|exact Hin'].
  - intros Ht. assert (Hs' : In s (map snd q)) by (apply in_map_iff; exists (e, s); auto).
    inversion Hq; subst; cbn [takes_slot] in Ht.
    + destruct Ht.
    + destruct Ht.
    + destruct Ht as (e1 & r & E). injection E as -> -> ->. cbn in Hnd. inversion Hnd as [|? ? Hn1 Hn2]; subst.
      assert (e = e1).
      { destruct Hin as [E|Hin]; [congruence|]. exfalso. apply Hn1. apply in_map_iff. exists (e, s). auto. }
      subst. split; [reflexivity|]. eapply at_slot_none; eauto.
    + destruct Hin.
    + subst s0. rewrite map_app in Hnd. cbn [map snd] in Hnd. pose proof (NoDup_remove_2 _ _ _ Hnd) as Hn2.
      assert (e = e0).
      { apply in_app_iff in Hin as [Hin|[E|Hin]]; [|congruence|]; exfalso; apply Hn2; apply in_or_app; [left|right];
          apply in_map_iff; exists (e, s); auto. }
      subst. split; [reflexivity|]. eapply at_slot_none; eauto. rewrite map_app. exact Hn2.
    + subst s0. contradiction.
Qed.

Lemma empty_slot ops h outs q s :
  Forall heap_op_ok ops -> Z.of_nat (length ops) < 2 ^ 64 ->
  heap_run heap_init ops = (h, outs) -> heap_iter h = Ok q -> 0 <= s -> ~ In s (map snd q) ->
  at_slot h s = None /\ heap_step h (HDelete s) = (h, HFailed).
Proof.
  intros Hok Hl He Hit Hs Hn. assert (H0 : heap_inv heap_init [] 0) by (split; [exact heap_init_ok|reflexivity]).
  destruct (heap_run_spec ops _ _ _ _ _ H0 Hok ltac:(lia) ltac:(lia) He) as (q0 & Hr & Hh & _).
  pose proof (heap_iter_rep _ _ Hh) as Hit0. rewrite Hit in Hit0. injection Hit0 as <-.
  split; [eapply at_slot_none; eauto|]. cbn [heap_step].
  destruct (delete_absent _ _ _ Hh Hs Hn) as (x & ->). reflexivity.
Qed.
