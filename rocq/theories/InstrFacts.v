(** What the placing instructions do, in terms of [new_order]; fees and expiry of an order. *)
From Coq Require Import ZArith List Bool Lia ZifyBool.
From Verif Require Import Base Nodes OrderTree BookSide Heap Market OpenOrders Order Book Instructions
  BaseFacts SpecBook BookSpecProofs SpecOrder SpecFees SpecInstr FeeFacts MatchFacts OrderSpecProofs OrderClaims
  Steps StepFacts.
Import ListNotations.
Open Scope Z_scope.

Lemma now_u64_is e n : now_u64 e = Ok n -> n = e_now e /\ 0 <= e_now e.
Proof. unfold now_u64. intros H. apply bind_ok in H as (u & E & H). apply massert_ok in E. injection H as <-. lia. Qed.

Record placed_ix (e : env) (s : sys) (x : place_ctx) (o : order) (limit : Z) (s' : sys) (id : option Z)
  (oracle : option Z) (w1 : world) (r : order_amounts) (w2 : world) (d : Z) (t : tokens) : Prop := {
  pi_base : 0 <= o_max_base o;
  pi_quote : 0 <= o_max_quote o;
  pi_vault : px_vault x = vault_by_side (w_mkt (s_w s)) (o_side o);
  pi_open : market_is_expired (w_mkt (s_w s)) (e_now e) = false;
  pi_now : 0 <= e_now e;
  pi_oracle : oracle_input (w_mkt (s_w s)) e = Ok oracle;
  pi_new : new_order (s_w s) o oracle (Some (px_acct x)) (px_acct x) (e_now e) limit (px_rem x) = Ok (w1, r);
  pi_lock : lock_funds w1 (px_acct x) (o_side o) r (h_count (w_heap (s_w s)) <? h_count (w_heap w1)) = Ok (w2, d);
  pi_pay : token_transfer (s_tok s) d (px_user_token x) (px_vault x) (px_signer x) = Ok t;
  pi_sys : s' = mkSys w2 t (s_closed s);
  pi_id : id = oa_order_id r }.

Lemma place_ix_inv e s x o limit s' id : place_order_ix e s x o limit = Ok (s', id) ->
  exists oracle w1 r w2 d t, placed_ix e s x o limit s' id oracle w1 r w2 d t.
Proof.
  intros H. unfold place_order_ix in H.
  apply bind_ok in H as (u1 & E1 & H). apply require_ok in E1. apply bind_ok in H as (u2 & E2 & H). apply require_ok in E2.
  cbv zeta in H. apply bind_ok in H as (u3 & E3 & H). apply require_ok in E3. apply bind_ok in H as (u4 & E4 & H). apply require_ok in E4.
  apply bind_ok in H as (now & En & H). apply now_u64_is in En as [-> Hn]. apply bind_ok in H as (oracle & Eo & H).
  apply bind_ok in H as ([w1 r] & Hnew & H). apply bind_ok in H as ([w2 d] & Hlk & H). apply bind_ok in H as (t & Ht & H).
  injection H as <- <-. exists oracle, w1, r, w2, d, t. constructor; try assumption; try reflexivity; lia.
Qed.

Lemma lock_funds_books w k s r g w' d : lock_funds w k s r g = Ok (w', d) -> forall sd, w_book w' sd = w_book w sd.
Proof.
  intros H. unfold lock_funds in H. apply bind_ok in H as (a & _ & H). cbv zeta in H.
  apply bind_ok in H as ([[m' p'] dep] & _ & H). apply bind_ok in H as (p2 & _ & H). injection H as <- _.
  intros []; reflexivity.
Qed.

(** How a requested expiry shows in the order's time limit. *)
Lemma tif_some now expiry tif : 0 <= now -> 0 <= expiry -> tif_from_expiry now expiry = Some tif ->
  (expiry = 0 /\ tif = 0) \/ (now < expiry /\ tif = Z.min (expiry - now) 65535).
Proof.
  intros Hn He H. unfold tif_from_expiry, u16_max in H. destruct (expiry =? 0) eqn:E; cbn [negb] in H.
  - injection H as <-. left. lia.
  - cbv zeta in H. match type of H with (if ?c then _ else _) = _ => destruct c eqn:Ec end; [discriminate H|].
    injection H as <-. right. lia.
Qed.
Lemma tif_none now expiry : 0 <= now -> 0 <= expiry -> tif_from_expiry now expiry = None <-> 0 < expiry <= now.
Proof.
  intros Hn He. unfold tif_from_expiry, u16_max. destruct (expiry =? 0) eqn:E; cbn [negb]; [split; [discriminate|lia]|].
  cbv zeta. match goal with |- (if ?c then _ else _) = _ <-> _ => destruct c eqn:Ec end; split; intros; try discriminate; try lia; reflexivity.
Qed.

Lemma tif_expires now expiry tif l : 0 <= now -> 0 <= expiry -> tif_from_expiry now expiry = Some tif ->
  lf_ts l = now -> lf_tif l = tif -> expires_at now expiry l.
Proof.
  intros Hn He H E1 E2. unfold expires_at, live. rewrite E1, E2. destruct (tif_some _ _ _ Hn He H) as [[E ->]|[E ->]].
  - split; intros; lia.
  - split; [lia|]. intros _. split; [exact E|]. intros u. lia.
Qed.

Lemma order_expires w o oracle taker owner now limit rem w' r expiry id :
  sound_call w o taker owner -> new_order w o oracle taker owner now limit rem = Ok (w', r) ->
  0 <= now -> 0 <= expiry -> tif_from_expiry now expiry = Some (o_tif o) -> oa_order_id r = Some id ->
  exists t L l, lists (w_book w' (o_side o)) t L /\ In l L /\ lf_key l = id /\ lf_owner l = owner /\ expires_at now expiry l.
Proof.
  intros Hsc Hno Hn He Ht Hid.
  destruct (post_target o) as [t|] eqn:Et.
  - destruct (put_expiry _ _ _ _ _ _ _ _ _ _ Hsc Hno t id Hid Et) as (L & l & H1 & H2 & H3 & H4 & H5 & H6).
    exists t, L, l. repeat (split; [assumption|]). eapply tif_expires; eassumption.
  - destruct (take_only_types _ _ _ _ _ _ _ _ _ _ Hsc Hno Et) as (items & acts & Hex & _).
    destruct (ex_put _ _ _ _ _ _ _ _ _ _ _ _ _ Hex) as [E _]. congruence.
Qed.

(** The order and the call behind a placing instruction. *)
Lemma args_order now g oo : order_of_args now g = Ok oo ->
  match oo with
  | None => tif_from_expiry now (pa_expiry g) = None
  | Some o => o_side o = pa_side g /\ tif_from_expiry now (pa_expiry g) = Some (o_tif o)
  end.
Proof.
  intros H. unfold order_of_args in H. apply bind_ok in H as (u & E & H).
  destruct (tif_from_expiry now (pa_expiry g)); [|injection H as <-; reflexivity].
  apply bind_ok in H as (ps & E2 & H). injection H as <-. split; reflexivity.
Qed.
Lemma peg_args_order m now g oo : order_of_peg_args m now g = Ok oo ->
  match oo with
  | None => tif_from_expiry now (ga_expiry g) = None
  | Some o => o_side o = ga_side g /\ tif_from_expiry now (ga_expiry g) = Some (o_tif o)
  end.
Proof.
  intros H. unfold order_of_peg_args in H. apply bind_ok in H as (u & E & H). apply bind_ok in H as (u2 & E2 & H).
  destruct (tif_from_expiry now (ga_expiry g)); [|injection H as <-; reflexivity].
  apply bind_ok in H as (ps & E3 & H). injection H as <-. split; reflexivity.
Qed.

Lemma place_expires e s x o limit s' id expiry : world_sound (s_w s) -> params_sane (o_params o) ->
  place_order_ix e s x o limit = Ok (s', Some id) -> 0 <= expiry -> tif_from_expiry (e_now e) expiry = Some (o_tif o) ->
  exists t L l, lists (w_book (s_w s') (o_side o)) t L /\ In l L /\ lf_key l = id /\ lf_owner l = px_acct x /\
    expires_at (e_now e) expiry l.
Proof.
  intros Hw Hp H He Ht. destruct (place_ix_inv _ _ _ _ _ _ _ H) as (oracle & w1 & r & w2 & d & t & P).
  destruct P as [P1 P2 P3 P4 P5 P6 P7 P8 P9 P10 P11].
  assert (Hsc : sound_call (s_w s) o (Some (px_acct x)) (px_acct x)).
  { apply sound_call_of; [exact Hw|constructor; assumption|left; reflexivity]. }
  destruct (order_expires _ _ _ _ _ _ _ _ _ _ expiry id Hsc P7 P5 He Ht (eq_sym P11)) as (t0 & L & l & H1 & H2).
  exists t0, L, l. subst s'. cbn [s_w]. rewrite (lock_funds_books _ _ _ _ _ _ _ P8). split; assumption.
Qed.

Lemma edit_expires e s x cid ex o limit s' id expiry : world_sound (s_w s) -> params_sane (o_params o) ->
  edit_order_ix e s x cid ex o limit = Ok (s', Some id) -> 0 <= expiry -> tif_from_expiry (e_now e) expiry = Some (o_tif o) ->
  exists t L l, lists (w_book (s_w s') (o_side o)) t L /\ In l L /\ lf_key l = id /\ lf_owner l = px_acct x /\
    expires_at (e_now e) expiry l.
Proof.
  intros Hw Hp H He Ht. unfold edit_order_ix in H. apply bind_ok in H as (u1 & _ & H). apply bind_ok in H as ([w q] & E & H).
  apply cancel_orders_steps in E. cbv zeta in H. apply bind_ok in H as (f & _ & H).
  match type of H with (if ?c then _ else _) = _ => destruct c end; [|discriminate H].
  apply bind_ok in H as (mb & _ & H).
  refine (place_expires _ _ _ (o_set_max_base o mb) _ _ _ _ _ Hp H He Ht).
  exact (wsteps_sound _ _ _ _ _ _ _ E Hw).
Qed.


Lemma check_place_expiry g u : check_place_args g = Ok u -> 0 <= pa_expiry g /\ in_i64 (pa_price g) = true.
Proof.
  intros H. unfold check_place_args in H. apply bind_ok in H as (u1 & E1 & H). apply bind_ok in H as (u2 & _ & H).
  apply bind_ok in H as (u3 & _ & H). apply bind_ok in H as (u4 & _ & H). apply bind_ok in H as (u5 & E5 & H).
  apply require_ok in E1, E5. split; [|exact E1]. unfold in_u64, in_range in E5. lia.
Qed.
Lemma check_peg_expiry g u : check_peg_args g = Ok u -> 0 <= ga_expiry g.
Proof.
  intros H. unfold check_peg_args in H. apply bind_ok in H as (u1 & _ & H). apply bind_ok in H as (u2 & _ & H).
  apply bind_ok in H as (u3 & _ & H). apply bind_ok in H as (u4 & _ & H). apply bind_ok in H as (u5 & _ & H).
  apply bind_ok in H as (u6 & E6 & H). apply require_ok in E6. unfold in_u64, in_range in E6. lia.
Qed.

Lemma lift_id_inv r s' out : lift_id r = Ok (s', out) -> exists id, r = Ok (s', id) /\ out = OIds [id].
Proof. intros H. unfold lift_id in H. apply bind_ok in H as ([s1 id] & E & H). injection H as <- <-. eauto. Qed.

Lemma exec_is_open e s i s' out : exec e s i = Ok (s', out) -> exec_open e s i = Ok (s', out).
Proof. unfold exec. destruct (s_closed s && needs_market i); [discriminate|auto]. Qed.

Lemma instr_expires e s i s' id sd expiry k : reachable s -> exec e s i = Ok (s', OIds [Some id]) ->
  placing i = Some (sd, expiry) -> placing_for i = Some k ->
  exists t L l, lists (w_book (s_w s') sd) t L /\ In l L /\ lf_key l = id /\ lf_owner l = k /\
    expires_at (e_now e) expiry l.
Proof.
  intros Hr H Hp Hk. apply exec_is_open in H. pose proof (reachable_sound _ Hr) as Hw.
  destruct i as [x g|x g|x cid ex g|x cid ex g| | | | | | | | | | | | | | | | | | | | | | | |]; try discriminate Hp; cbn [placing placing_for] in Hp, Hk;
    injection Hp as <- <-; injection Hk as <-; cbn [exec_open] in H.
  - apply bind_ok in H as (u1 & E1 & H). apply check_place_expiry in E1 as [E1 E1']. apply bind_ok in H as (u2 & _ & H).
    apply bind_ok in H as (now & En & H). apply now_u64_is in En as [-> Hn]. apply bind_ok in H as (oo & Eo & H).
    destruct oo as [o|]; [|discriminate H]. apply lift_id_inv in H as (id0 & H & E). injection E as <-.
    destruct (args_order _ _ _ Eo) as [<- Ht]. eapply place_expires; try eassumption. eapply order_of_args_sane; eassumption.
  - apply bind_ok in H as (u1 & E1 & H). apply check_peg_expiry in E1. apply bind_ok in H as (u2 & _ & H).
    apply bind_ok in H as (now & En & H). apply now_u64_is in En as [-> Hn]. apply bind_ok in H as (oo & Eo & H).
    destruct oo as [o|]; [|discriminate H]. apply lift_id_inv in H as (id0 & H & E). injection E as <-.
    destruct (peg_args_order _ _ _ _ Eo) as [<- Ht]. eapply place_expires; try eassumption. eapply order_of_peg_sane; eassumption.
  - apply bind_ok in H as (u1 & E1 & H). apply check_place_expiry in E1 as [E1 E1']. apply bind_ok in H as (u2 & _ & H).
    apply bind_ok in H as (u3 & _ & H). apply bind_ok in H as (u4 & _ & H).
    apply bind_ok in H as (now & En & H). apply now_u64_is in En as [-> Hn]. apply bind_ok in H as (oo & Eo & H).
    destruct oo as [o|]; [|discriminate H]. apply lift_id_inv in H as (id0 & H & E). injection E as <-.
    destruct (args_order _ _ _ Eo) as [<- Ht]. eapply edit_expires; try eassumption. eapply order_of_args_sane; eassumption.
  - apply bind_ok in H as (u1 & E1 & H). apply check_peg_expiry in E1. apply bind_ok in H as (u2 & _ & H).
    apply bind_ok in H as (u3 & _ & H). apply bind_ok in H as (u4 & _ & H).
    apply bind_ok in H as (now & En & H). apply now_u64_is in En as [-> Hn]. apply bind_ok in H as (oo & Eo & H).
    destruct oo as [o|]; [|discriminate H]. apply lift_id_inv in H as (id0 & H & E). injection E as <-.
    destruct (peg_args_order _ _ _ _ Eo) as [<- Ht]. eapply edit_expires; try eassumption. eapply order_of_peg_sane; eassumption.
Qed.

Lemma expired_places_nothing e s i s' out sd expiry : exec e s i = Ok (s', out) ->
  placing i = Some (sd, expiry) -> 0 < expiry <= e_now e -> s' = s /\ out = OIds [None].
Proof.
  intros H Hp Hx. apply exec_is_open in H.
  destruct i as [x g|x g|x cid ex g|x cid ex g| | | | | | | | | | | | | | | | | | | | | | | |]; try discriminate Hp; cbn [placing] in Hp;
    injection Hp as <- <-; cbn [exec_open] in H.
  - apply bind_ok in H as (u1 & E1 & H). apply bind_ok in H as (u2 & _ & H).
    apply bind_ok in H as (now & En & H). apply now_u64_is in En as [-> Hn]. apply bind_ok in H as (oo & Eo & H).
    apply args_order in Eo. rewrite (proj2 (tif_none (e_now e) (pa_expiry g) Hn ltac:(lia)) Hx) in Eo.
    destruct oo; [destruct Eo; discriminate|]. injection H as <- <-. split; reflexivity.
  - apply bind_ok in H as (u1 & E1 & H). apply bind_ok in H as (u2 & _ & H).
    apply bind_ok in H as (now & En & H). apply now_u64_is in En as [-> Hn]. apply bind_ok in H as (oo & Eo & H).
    apply peg_args_order in Eo. rewrite (proj2 (tif_none (e_now e) (ga_expiry g) Hn ltac:(lia)) Hx) in Eo.
    destruct oo; [destruct Eo; discriminate|]. injection H as <- <-. split; reflexivity.
  - apply bind_ok in H as (u1 & E1 & H). apply bind_ok in H as (u2 & _ & H). apply bind_ok in H as (u3 & _ & H). apply bind_ok in H as (u4 & _ & H).
    apply bind_ok in H as (now & En & H). apply now_u64_is in En as [-> Hn]. apply bind_ok in H as (oo & Eo & H).
    apply args_order in Eo. rewrite (proj2 (tif_none (e_now e) (pa_expiry g) Hn ltac:(lia)) Hx) in Eo.
    destruct oo; [destruct Eo; discriminate|]. injection H as <- <-. split; reflexivity.
  - apply bind_ok in H as (u1 & E1 & H). apply bind_ok in H as (u2 & _ & H). apply bind_ok in H as (u3 & _ & H). apply bind_ok in H as (u4 & _ & H).
    apply bind_ok in H as (now & En & H). apply now_u64_is in En as [-> Hn]. apply bind_ok in H as (oo & Eo & H).
    apply peg_args_order in Eo. rewrite (proj2 (tif_none (e_now e) (ga_expiry g) Hn ltac:(lia)) Hx) in Eo.
    destruct oo; [destruct Eo; discriminate|]. injection H as <- <-. split; reflexivity.
Qed.
