(** The placing instructions taken apart, and order ids. *)
From Coq Require Import ZArith List Bool Lia ZifyBool Permutation.
From Verif Require Import Base Nodes OrderTree BookSide Heap Market OpenOrders Order Book Instructions
  BaseFacts SpecBook SpecFees SpecOrder MatchFacts OrderFacts PlaceFacts OrderSpecProofs
  Steps StepFacts TokenFacts SpecSystem SystemFacts SpecControl ControlFacts LifeFacts.
Import ListNotations.
Open Scope Z_scope.

Definition is_placing (i : instr) : bool :=
  match i with
  | IPlaceOrder _ _ | IPlacePegged _ _ | IEditOrder _ _ _ _ | IEditPegged _ _ _ _ | IPlaceTake _ _ | IPlaceMulti _ _ _ _ _ _ => true
  | _ => false
  end.

Inductive placing (e : env) (s : sys) : instr -> sys -> output -> Prop :=
| pl_skip i : is_placing i = true -> (forall x g, i <> IPlaceTake x g) -> (forall x c t b a l, i <> IPlaceMulti x c t b a l) ->
    placing e s i s (OIds [None])
| pl_order i x o limit s' id : (exists g, i = IPlaceOrder x g) \/ (exists g, i = IPlacePegged x g) ->
    place_constraints s x = Ok tt -> params_sane (o_params o) -> 0 <= limit -> place_order_ix e s x o limit = Ok (s', id) ->
    placing e s i s' (OIds [id])
| pl_edit i x cid ex o limit s' id : (exists g, i = IEditOrder x cid ex g) \/ (exists g, i = IEditPegged x cid ex g) ->
    place_constraints s x = Ok tt -> params_sane (o_params o) -> 0 <= limit -> edit_order_ix e s x cid ex o limit = Ok (s', id) ->
    placing e s i s' (OIds [id])
| pl_take x g o limit s' : take_constraints s x = Ok tt -> tx_signer x <> c_authority (m_cfg (w_mkt (s_w s))) ->
    params_sane (o_params o) -> 0 <= limit -> place_take_ix e s x o limit = Ok s' ->
    placing e s (IPlaceTake x g) s' ONone
| pl_multi x cancel t bids asks limit os s' ids : multi_constraints s x = Ok tt -> mx_signer x <> c_authority (m_cfg (w_mkt (s_w s))) ->
    Forall (fun o => params_sane (o_params o)) os -> 0 <= limit ->
    multi_ix e s x cancel os limit = Ok (s', ids) -> placing e s (IPlaceMulti x cancel t bids asks limit) s' (OIds ids).

Lemma unit_ok (r : res unit) u : r = Ok u -> r = Ok tt.
Proof. destruct u. auto. Qed.
Lemma neq_of_require a b u : require (negb (a =? b)) Constraint = Ok u -> a <> b.
Proof. intros H. apply require_ok in H. lia. Qed.

Lemma exec_placing e s i s' out : exec e s i = Ok (s', out) -> is_placing i = true -> placing e s i s' out.
Proof.
  intros H Hp. unfold exec in H. destruct (s_closed s && needs_market i); [discriminate H|].
  unfold exec_open in H. cbv zeta in H.
  destruct i as [x g|x g|x cid ex g|x cid ex g|x g|x cancel t bids asks limit| | | | | | | | | | | | | | | | | | | | | |]; try discriminate Hp.
  - apply bind_ok in H as (u1 & E1 & H). apply bind_ok in H as (u2 & E2 & H). apply bind_ok in H as (now & _ & H).
    apply bind_ok in H as (oo & Eo & H). destruct oo as [o|]; [|injection H as <- <-; apply pl_skip; congruence].
    unfold lift_id in H. apply bind_ok in H as ([s1 id] & E & H). injection H as <- <-.
    apply check_place_ok in E1 as [E1 E3]. eapply pl_order; [left; eauto|exact (unit_ok _ _ E2)|eapply order_of_args_sane; eassumption|exact E3|exact E].
  - apply bind_ok in H as (u1 & E1 & H). apply bind_ok in H as (u2 & E2 & H). apply bind_ok in H as (now & _ & H).
    apply bind_ok in H as (oo & Eo & H). destruct oo as [o|]; [|injection H as <- <-; apply pl_skip; congruence].
    unfold lift_id in H. apply bind_ok in H as ([s1 id] & E & H). injection H as <- <-.
    apply check_peg_ok in E1. eapply pl_order; [right; eauto|exact (unit_ok _ _ E2)|eapply order_of_peg_sane; eassumption|exact E1|exact E].
  - apply bind_ok in H as (u1 & E1 & H). apply bind_ok in H as (u2 & _ & H). apply bind_ok in H as (u3 & _ & H).
    apply bind_ok in H as (u4 & E2 & H). apply bind_ok in H as (now & _ & H).
    apply bind_ok in H as (oo & Eo & H). destruct oo as [o|]; [|injection H as <- <-; apply pl_skip; congruence].
    unfold lift_id in H. apply bind_ok in H as ([s1 id] & E & H). injection H as <- <-.
    apply check_place_ok in E1 as [E1 E3]. eapply pl_edit; [left; eauto|exact (unit_ok _ _ E2)|eapply order_of_args_sane; eassumption|exact E3|exact E].
  - apply bind_ok in H as (u1 & E1 & H). apply bind_ok in H as (u2 & _ & H). apply bind_ok in H as (u3 & _ & H).
    apply bind_ok in H as (u4 & E2 & H). apply bind_ok in H as (now & _ & H).
    apply bind_ok in H as (oo & Eo & H). destruct oo as [o|]; [|injection H as <- <-; apply pl_skip; congruence].
    unfold lift_id in H. apply bind_ok in H as ([s1 id] & E & H). injection H as <- <-.
    apply check_peg_ok in E1. eapply pl_edit; [right; eauto|exact (unit_ok _ _ E2)|eapply order_of_peg_sane; eassumption|exact E1|exact E].
  - apply bind_ok in H as (u1 & E1 & H). apply bind_ok in H as (u2 & E2 & H). apply bind_ok in H as (u3 & E3 & H). apply neq_of_require in E3.
    apply bind_ok in H as (o & Eo & H). unfold lift_s in H. apply bind_ok in H as (s1 & E & H). injection H as <- <-.
    apply check_take_ok in E1 as [E1 E4]. eapply pl_take; [exact (unit_ok _ _ E2)|exact E3|eapply order_of_take_sane; eassumption|exact E4|exact E].
  - apply bind_ok in H as (u1 & E1 & H). apply require_ok in E1. apply bind_ok in H as (u2 & E2 & H). apply u8_arg_ok in E2.
    apply bind_ok in H as (u3 & E3 & H). apply bind_ok in H as (u4 & E4 & H). apply neq_of_require in E4. apply bind_ok in H as (now & _ & H).
    apply bind_ok in H as (bo & B1 & H). apply bind_ok in H as (ao & B2 & H). apply bind_ok in H as ([s1 ids] & E & H). injection H as <- <-.
    rewrite forallb_app in E1. apply andb_prop in E1 as [F1 F2].
    eapply pl_multi; [exact (unit_ok _ _ E3)|exact E4| |exact E2|exact E]. apply Forall_app. split; [exact (orders_of_multi_sane _ _ _ _ _ _ F1 B1)|exact (orders_of_multi_sane _ _ _ _ _ _ F2 B2)].
Qed.

(** ** Ids carry increasing numbers *)
Definition id_num (s : side) (id : Z) : Z := match s with Bid => 2 ^ 64 - 1 - id mod 2 ^ 64 | Ask => id mod 2 ^ 64 end.
Inductive numbered : Z -> list Z -> Z -> Prop :=
| num_nil lo hi : lo <= hi -> numbered lo [] hi
| num_cons lo sd id r hi : lo < id_num sd id -> numbered (id_num sd id) r hi -> numbered lo (id :: r) hi.

Lemma numbered_le lo l hi : numbered lo l hi -> lo <= hi.
Proof. induction 1; lia. Qed.
Lemma numbered_app lo l1 mid l2 hi : numbered lo l1 mid -> numbered mid l2 hi -> numbered lo (l1 ++ l2) hi.
Proof.
  induction 1 as [lo mid Hle|lo sd id r mid Hlt _ IH]; intros H2; cbn [app].
  - destruct H2 as [mid hi Hh|mid sd id r hi Hh H2]; [constructor; lia|econstructor; [|exact H2]; lia].
  - econstructor; [exact Hlt|]. apply IH. exact H2.
Qed.
Lemma numbered_opt w sd (oid : option Z) n : match oid with Some id => exists l, lf_key l = id /\ seq_of sd l = n | None => True end -> w < n ->
  numbered w (match oid with Some id => [id] | None => [] end) n.
Proof.
  intros H Hn. destruct oid as [id|]; [|constructor; lia]. destruct H as (l & <- & E).
  apply (num_cons _ sd); [unfold id_num; unfold seq_of in E; destruct sd; lia|]. constructor. unfold id_num; unfold seq_of in E; destruct sd; lia.
Qed.
Lemma numbered_in lo l hi : numbered lo l hi -> forall id, In id l -> exists sd, lo < id_num sd id <= hi.
Proof.
  induction 1 as [lo hi Hle|lo sd id r hi Hlt H2 IH]; intros x Hx; [destruct Hx|]. destruct Hx as [<-|Hx].
  - exists sd. apply numbered_le in H2. lia.
  - destruct (IH _ Hx) as (sd' & G). exists sd'. lia.
Qed.
Lemma numbered_nodup lo l hi : numbered lo l hi -> hi < 2 ^ 63 -> NoDup l.
Proof.
  intros H Hh. induction H as [lo hi Hle|lo sd id r hi Hlt H2 IH]; constructor; [|apply IH; exact Hh].
  intros Hin. destruct (numbered_in _ _ _ H2 _ Hin) as (sd' & G). pose proof (numbered_le _ _ _ H2) as Hl.
  change (2 ^ 63) with 9223372036854775808 in Hh. unfold id_num in *. change (2 ^ 64) with 18446744073709551616 in *. destruct sd, sd'; lia.
Qed.

Lemma place_numbered e s x o limit s' id : world_sound (s_w s) -> params_sane (o_params o) ->
  place_order_ix e s x o limit = Ok (s', id) ->
  numbered (m_seq (w_mkt (s_w s))) (match id with Some i => [i] | None => [] end) (m_seq (w_mkt (s_w s'))).
Proof.
  intros Hs Hp H. apply place_ix_inv in H as (H1 & H2 & _ & _ & oracle & w1 & r & w2 & d & t & _ & _ & Hn & Hk & _ & -> & ->).
  assert (Hsc : sound_call (s_w s) o (Some (px_acct x)) (px_acct x)) by (apply sound_call_of; [exact Hs|constructor; [lia|lia|exact Hp]|left; reflexivity]).
  destruct (new_order_older _ _ _ _ _ _ _ _ _ _ Hs Hsc Hn) as (_ & Es & Hid).
  assert (E : m_seq (w_mkt w2) = m_seq (w_mkt w1)).
  { apply lock_funds_inv in Hk as (a & m' & p' & _ & (_ & _ & pen & _ & Hm) & ->). destruct (o_side o); destruct Hm as [-> _]; reflexivity. }
  cbn [s_w]. rewrite E. eapply numbered_opt; [exact Hid|lia].
Qed.

Lemma cancel_orders_seq w k limit so co w' q : cancel_all_orders w k limit so co = Ok (w', q) -> w_mkt w' = w_mkt w.
Proof. intros H. exact (proj1 (cancel_orders_mkt _ _ _ _ _ _ _ H)). Qed.

Lemma multi_numbered os : forall w x ub uq oracle now limit ba qa w' ba' qa' ids,
  world_sound w -> Forall (fun o => params_sane (o_params o)) os ->
  multi_loop w x ub uq oracle now limit os ba qa = Ok (w', ba', qa', ids) ->
  numbered (m_seq (w_mkt w)) (reported (OIds ids)) (m_seq (w_mkt w')).
Proof.
  induction os as [|o r IH]; intros w x ub uq oracle now limit ba qa w' ba' qa' ids Hs Ho H; cbn [multi_loop] in H.
  - injection H as <- <- <- <-. constructor. lia.
  - apply bind_ok in H as ([[[w1 b1] q1] i1] & E & H). inversion Ho as [|o0 r0 Ho1 Ho2]; subst.
    apply bind_ok in H as ([[[w2 b2] q2] i2] & E2 & H). injection H as <- <- <- <-.
    destruct (multi_one_place _ _ _ _ _ _ _ _ _ _ _ _ _ _ Hs Ho1 E) as (o' & r' & Go & _ & En & -> & _ & _).
    assert (Hsc : sound_call w o' (Some (mx_acct x)) (mx_acct x)) by (apply sound_call_of; [exact Hs|exact Go|left; reflexivity]).
    destruct (new_order_older _ _ _ _ _ _ _ _ _ _ Hs Hsc En) as (_ & Es & Hid).
    unfold reported. cbn [flat_map]. eapply numbered_app; [eapply numbered_opt; [exact Hid|lia]|].
    eapply IH; [eapply new_order_sound; [exact Hsc|exact En]|exact Ho2|exact E2].
Qed.

Lemma exec_numbered e s i s' out : reachable s -> exec e s i = Ok (s', out) ->
  numbered (m_seq (w_mkt (s_w s))) (reported out) (m_seq (w_mkt (s_w s'))).
Proof.
  intros Hr H. pose proof (reachable_sound _ Hr) as Hs. pose proof (proj1 (proj2 (exec_older _ _ _ _ _ Hr H))) as Hle.
  destruct (is_placing i) eqn:Hp.
  - apply exec_placing in H; [|exact Hp].
    destruct H as [i _ _ _|i x o limit s' id _ _ Ho _ H|i x cid ex o limit s' id _ _ Ho _ H|x g o limit s' _ _ _ _ H|x cancel t bids asks limit os s' ids _ _ Ho _ H].
    + constructor. lia.
    + cbn [reported flat_map]. rewrite app_nil_r. exact (place_numbered _ _ _ _ _ _ _ Hs Ho H).
    + cbn [reported flat_map]. rewrite app_nil_r.
      unfold edit_order_ix in H. apply bind_ok in H as (u1 & _ & H). apply bind_ok in H as ([w q] & E & H).
      pose proof (cancel_orders_seq _ _ _ _ _ _ _ E) as Em. apply cancel_orders_steps in E. apply (wsteps_sound _ _ _ _ _ _ _ E) in Hs.
      cbv zeta in H. apply bind_ok in H as (f & _ & H). match type of H with (if ?c then _ else _) = _ => destruct c end.
      * apply bind_ok in H as (mb & _ & H). rewrite <- Em. apply (place_numbered e (s_set_w s w) _ _ _ _ _ Hs) in H; [exact H|exact Ho].
      * injection H as <- <-. constructor. exact Hle.
    + constructor. exact Hle.
    + unfold multi_ix in H. cbv zeta in H. apply bind_ok in H as (u1 & _ & H).
      apply bind_ok in H as (now & En & H). apply bind_ok in H as (oracle & _ & H).
      apply bind_ok in H as (w0 & E0 & H).
      assert (S0 : world_sound w0 /\ w_mkt w0 = w_mkt (s_w s)).
      { destruct cancel; [|injection E0 as <-; auto]. apply bind_ok in E0 as ([w' q] & E1 & E0). injection E0 as <-.
        split; [|apply cancel_orders_mkt in E1 as [E1 _]; exact E1]. apply cancel_orders_steps in E1. exact (wsteps_sound _ _ _ _ _ _ _ E1 Hs). }
      destruct S0 as [S0 M0].
      apply bind_ok in H as (ub & _ & H). apply bind_ok in H as (uq & _ & H).
      apply bind_ok in H as ([[[w1 ba] qa] is] & E1 & H). apply bind_ok in H as (a & Ea & H).
      do 6 (apply bind_ok in H as (? & _ & H)). apply bind_ok in H as (p2 & _ & H). do 2 (apply bind_ok in H as (? & _ & H)). injection H as <- <-.
      rewrite <- M0. exact (multi_numbered _ _ _ _ _ _ _ _ _ _ _ _ _ _ S0 Ho E1).
  - assert (reported out = []) as ->; [|constructor; exact Hle].
    unfold exec in H. destruct (s_closed s && needs_market i); [discriminate H|]. unfold exec_open in H. cbv zeta in H.
    destruct i; try discriminate Hp; unfold lift_w, lift_s in H; repeat (apply bind_ok in H as (? & _ & H));
      repeat match type of H with (let '(_, _) := ?p in _) = _ => destruct p end; try (injection H as _ <-; reflexivity).
Qed.
