(** What placing an order does when there is no oracle price to use. *)
From Coq Require Import ZArith List Bool Lia ZifyBool.
From Verif Require Import Base Nodes OrderTree BookSide Heap Market OpenOrders Order Book Instructions
  BaseFacts SpecBook SpecOrder MatchFacts MatchBook OrderFacts PlaceFacts OrderSpecProofs OrderClaims Steps StepFacts InstrFacts Oracle SpecOracle.
Import ListNotations.
Open Scope Z_scope.

Lemma residues_untouched acts t L :
  (forall a, In a acts -> im_tree (act_item a) <> t) -> residues acts t L = L.
Proof.
  intros H. assert (R : forall l, residue acts t l = Some l).
  { intros l. induction acts as [|a r IH]; [reflexivity|]. cbn [residue].
    assert (E : about a t l = false).
    { unfold about. pose proof (H a (or_introl eq_refl)) as N.
      destruct (im_tree (act_item a)), t; cbn; try reflexivity; contradiction N; reflexivity. }
    rewrite E. apply IH. intros b Hb. apply H. right. exact Hb. }
  induction L as [|l L IH]; [reflexivity|]. cbn [residues]. rewrite R. f_equal. exact IH.
Qed.

(** Without an oracle price, no oracle-pegged order of the opposing side is touched. *)
Lemma pegs_rest w o taker owner now limit rem w' r L :
  sound_call w o taker owner -> new_order w o None taker owner now limit rem = Ok (w', r) ->
  lists (w_book w (invert_side (o_side o))) OraclePegged L ->
  lists (w_book w' (invert_side (o_side o))) OraclePegged L.
Proof.
  intros Hsc Hno HL.
  destruct (new_order_full _ _ _ _ _ _ _ _ _ _ Hsc Hno) as
    (T & T0 & price & pd & maxq & acts & ms & lf & w2 & bt & qt & tf & ra & rq & mf & b2 & T2 & T3 & gone & put & Hf & Hf0 & Hpl & Hex & _).
  pose proof (ex_other _ _ _ _ _ _ _ _ _ _ _ _ _ Hex OraclePegged L HL) as H.
  rewrite residues_untouched in H; [exact H|].
  intros a Ha E. pose proof (in_map act_item _ _ Ha) as Hin.
  apply (sublist_in _ _ _ (ex_acts _ _ _ _ _ _ _ _ _ _ _ _ _ Hex)) in Hin.
  destruct (listed_facts _ _ _ _ _ _ Hf Hin) as (F1 & _). unfold right_price in F1. rewrite E in F1.
  destruct F1 as (op & F & _). discriminate F.
Qed.

Lemma take_ix_inv e s x o limit s' : place_take_ix e s x o limit = Ok s' ->
  0 <= o_max_base o /\ 0 <= o_max_quote o /\
  exists oracle w1 r, 0 <= e_now e /\ oracle_input (w_mkt (s_w s)) e = Ok oracle /\
    new_order (s_w s) o oracle None (tx_signer x) (e_now e) limit (tx_rem x) = Ok (w1, r) /\
    forall sd, w_book (s_w s') sd = w_book w1 sd.
Proof.
  intros H. unfold place_take_ix in H. cbv zeta in H.
  apply bind_ok in H as (u1 & R1 & H). apply bind_ok in H as (u2 & R2 & H). apply require_ok in R1, R2.
  apply bind_ok in H as (u3 & _ & H). apply bind_ok in H as (now & En & H). apply now_u64_is in En as [-> Hn].
  apply bind_ok in H as (oracle & Eo & H). apply bind_ok in H as (u4 & _ & H).
  apply bind_ok in H as ([w1 r] & E & H). apply bind_ok in H as (reb & _ & H).
  split; [lia|]. split; [lia|]. exists oracle, w1, r. split; [exact Hn|]. split; [exact Eo|]. split; [exact E|].
  destruct (o_side o); repeat (apply bind_ok in H as (? & _ & H)); injection H as <-; intros []; reflexivity.
Qed.

Lemma peg_order_needs_price w o taker owner now limit rem offset pt peg :
  o_params o = OOraclePegged offset pt peg ->
  new_order w o None taker owner now limit rem = Err OraclePegInvalidOracleState.
Proof.
  intros E. unfold new_order. cbv zeta. unfold order_price. rewrite E. reflexivity.
Qed.

Lemma instr_pegs_rest e s i s' out sd L :
  reachable s -> oracle_input (w_mkt (s_w s)) e = Ok None -> exec e s i = Ok (s', out) ->
  trades_with i = Some sd -> lists (w_book (s_w s) sd) OraclePegged L -> lists (w_book (s_w s') sd) OraclePegged L.
Proof.
  intros Hr Ho H Hp HL. apply exec_is_open in H. pose proof (reachable_sound _ Hr) as Hw.
  assert (Place : forall x o limit s1 id, params_sane (o_params o) -> place_order_ix e s x o limit = Ok (s1, id) ->
    lists (w_book (s_w s) (invert_side (o_side o))) OraclePegged L ->
    lists (w_book (s_w s1) (invert_side (o_side o))) OraclePegged L).
  { intros x o limit s1 id Ps E HL1. destruct (place_ix_inv _ _ _ _ _ _ _ E) as (oracle & w1 & r & w2 & d & t & P).
    destruct P as [P1 P2 P3 P4 P5 P6 P7 P8 P9 P10 P11]. rewrite Ho in P6. injection P6 as <-.
    assert (Hsc : sound_call (s_w s) o (Some (px_acct x)) (px_acct x)).
    { apply sound_call_of; [exact Hw|constructor; assumption|left; reflexivity]. }
    subst s1. cbn [s_w]. rewrite (lock_funds_books _ _ _ _ _ _ _ P8).
    exact (pegs_rest _ _ _ _ _ _ _ _ _ _ Hsc P7 HL1). }
  destruct i as [x g|x g|x cid ex g|x cid ex g|x g| | | | | | | | | | | | | | | | | | | | | | |]; try discriminate Hp;
    cbn [trades_with] in Hp; injection Hp as <-; cbn [exec_open] in H.
  - apply bind_ok in H as (u1 & E1 & H). apply check_place_expiry in E1 as [E1 E1']. apply bind_ok in H as (u2 & _ & H).
    apply bind_ok in H as (now & En & H). apply now_u64_is in En as [-> Hn]. apply bind_ok in H as (oo & Eo & H).
    destruct oo as [o|]; [|injection H as <- <-; exact HL]. apply lift_id_inv in H as (id0 & H & E).
    destruct (args_order _ _ _ Eo) as [Es Ht]. rewrite <- Es in *.
    eapply Place; [eapply order_of_args_sane; eassumption|exact H|exact HL].
  - apply bind_ok in H as (u1 & E1 & H). apply check_peg_expiry in E1. apply bind_ok in H as (u2 & _ & H).
    apply bind_ok in H as (now & En & H). apply now_u64_is in En as [-> Hn]. apply bind_ok in H as (oo & Eo & H).
    destruct oo as [o|]; [|injection H as <- <-; exact HL]. apply lift_id_inv in H as (id0 & H & E).
    destruct (peg_args_order _ _ _ _ Eo) as [Es Ht]. rewrite <- Es in *.
    eapply Place; [eapply order_of_peg_sane; eassumption|exact H|exact HL].
  - apply bind_ok in H as (u1 & E1 & H). apply check_take_ok in E1 as [E1 E4]. apply bind_ok in H as (u2 & _ & H).
    apply bind_ok in H as (u3 & _ & H). apply bind_ok in H as (o & Eo & H).
    unfold lift_s in H. apply bind_ok in H as (s1 & E & H). injection H as <- <-.
    assert (Es : o_side o = ta_side g).
    { unfold order_of_take_args in Eo. apply bind_ok in Eo as (? & _ & Eo). apply bind_ok in Eo as (? & _ & Eo).
      injection Eo as <-. reflexivity. }
    rewrite <- Es in *. destruct (take_ix_inv _ _ _ _ _ _ E) as (B1 & B2 & oracle & w1 & r & Hn & Eo' & Hno & Hb).
    rewrite Ho in Eo'. injection Eo' as <-. rewrite Hb.
    refine (pegs_rest _ _ _ _ _ _ _ _ _ _ _ Hno HL).
    apply sound_call_of; [exact Hw|constructor; [assumption ..|eapply order_of_take_sane; eassumption]|right; reflexivity].
Qed.
