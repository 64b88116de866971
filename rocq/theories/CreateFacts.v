(** New markets. *)
From Coq Require Import ZArith List Bool Lia ZifyBool.
From Verif Require Import Base Nodes OrderTree BookSide Heap Market OpenOrders Order Book Instructions
  BaseFacts SpecBook SpecSystem Program SpecProgram SpecCreate.
Import ListNotations.
Open Scope Z_scope.

Lemma creates_iff now t c te : - 2 ^ 63 <= now ->
  (exists s, create_market_ix now t c te = Ok s) <->
  (fair_terms now c te /\ t (c_base_vault c) = None /\ t (c_quote_vault c) = None /\ c_base_vault c <> c_quote_vault c).
Proof.
  intros Hn. unfold create_market_ix, create_market_checks, i64_arg, FEES_SCALE. cbv zeta. split.
  - intros (s & H). apply bind_ok in H as ([] & H0 & H). repeat (apply bind_ok in H0 as ([] & ?%require_ok & H0)). apply require_ok in H0.
    repeat (apply bind_ok in H as ([] & ?%require_ok & H)).
    destruct (t (c_base_vault c)); [discriminate|]. destruct (t (c_quote_vault c)); [discriminate|].
    unfold in_i64, in_range, i64_min, i64_max in *. split; [|split; [reflexivity|split; [reflexivity|lia]]]. split; lia.
  - intros ([A B C D E F G] & -> & -> & V).
    replace (Z.abs (c_maker_fee c) <=? 1000000) with true by lia. replace (Z.abs (c_taker_fee c) <=? 1000000) with true by lia.
    replace ((0 <=? c_taker_fee c) && _) with true by lia. replace ((te =? 0) || (now <? te)) with true by lia.
    replace (0 <? c_qls c) with true by lia. replace (0 <? c_bls c) with true by lia. replace (c_base_mint c =? c_quote_mint c) with false by lia.
    unfold in_i64, in_range, i64_min, i64_max in *. cbn [require bind negb].
    replace ((_ <=? c_qls c) && _) with true by lia. replace ((_ <=? c_bls c) && _) with true by lia. replace ((_ <=? te) && _) with true by lia. cbn [require bind].
    replace (negb (negb (c_oracle_b c =? 0) && (c_oracle_a c =? 0))) with true by lia.
    replace (negb (negb (c_oracle_b c =? 0) && (c_oracle_a c =? c_oracle_b c))) with true by lia.
    replace (c_base_vault c =? c_quote_vault c) with false by lia. cbn [require bind negb]. eauto.
Qed.

Lemma created now t c te s : create_market_ix now t c te = Ok s ->
  fresh_market c te s /\ forall z, z <> c_base_vault c -> z <> c_quote_vault c -> s_tok s z = t z.
Proof.
  unfold create_market_ix, i64_arg. cbv zeta. intros H. repeat (apply bind_ok in H as ([] & ? & H)).
  assert (V : c_base_vault c <> c_quote_vault c).
  { match goal with E : require (negb (c_base_vault c =? c_quote_vault c)) _ = _ |- _ => apply require_ok in E; lia end. }
  injection H as <-. split; [split|]; try reflexivity.
  - intros []; vm_compute; reflexivity.
  - cbn [s_tok]. unfold upd. replace (c_base_vault c =? c_quote_vault c) with false by lia. rewrite Z.eqb_refl. reflexivity.
  - cbn [s_tok]. unfold upd. rewrite Z.eqb_refl. reflexivity.
  - intros z Z1 Z2. cbn [s_tok]. unfold upd. replace (z =? c_quote_vault c) with false by lia. replace (z =? c_base_vault c) with false by lia. reflexivity.
Qed.

(** Among other markets. *)
Lemma pcreates_iff addr e p m c te : - 2 ^ 63 <= e_now e ->
  (exists p' out, pexec addr e p (PCreateMarket m c te) = Ok (p', out)) <->
  (market_in p m = None /\ c_market c = m /\ c_authority c <> 0 /\ is_authority p (c_authority c) = false /\
   fair_terms (e_now e) c te /\ p_tok p (c_base_vault c) = None /\ p_tok p (c_quote_vault c) = None /\ c_base_vault c <> c_quote_vault c).
Proof.
  intros Hn. pose proof (creates_iff (e_now e) (p_tok p) c te Hn) as I. cbn [pexec]. unfold market_in.
  destruct (al_get m (p_mkts p)) as [x|].
  { split; [intros (p' & out & H); discriminate H|intros (H & _); discriminate H]. }
  cbn [require bind option_map]. destruct (is_authority p (c_authority c)).
  { split; [intros (p' & out & H); discriminate H|intros (_ & _ & _ & H & _); discriminate H]. }
  destruct (Z.eqb_spec (c_authority c) 0) as [Z0|Z0].
  { split; [intros (p' & out & H); discriminate H|intros (_ & _ & H & _); contradiction]. }
  destruct (Z.eqb_spec (c_market c) m) as [M|M].
  2:{ split; [intros (p' & out & H); discriminate H|intros (_ & H & _); contradiction]. }
  cbn [negb andb require bind]. split.
  - intros (p' & out & H). apply bind_ok in H as (s & E & _). pose proof (proj1 I (ex_intro _ s E)) as G. tauto.
  - intros (_ & _ & _ & _ & H). destruct (proj2 I H) as (s & ->). cbn [bind]. eauto.
Qed.

Lemma pcreated addr e p m c te p' out : pexec addr e p (PCreateMarket m c te) = Ok (p', out) ->
  (exists s, market_in p' m = Some s /\ fresh_market c te s) /\ p_idx p' = p_idx p /\
  (forall m', m' <> m -> option_map s_w (market_in p' m') = option_map s_w (market_in p m')) /\
  forall z, z <> c_base_vault c -> z <> c_quote_vault c -> p_tok p' z = p_tok p z.
Proof.
  cbn [pexec]. intros H. apply bind_ok in H as (? & _ & H). apply bind_ok in H as (? & _ & H). apply bind_ok in H as (s & E & H). injection H as <- _.
  pose proof (created _ _ _ _ _ E) as [F T]. cbn [p_idx p_tok]. split; [|split; [reflexivity|split; [|exact T]]].
  - exists s. split; [|exact F]. unfold market_in. cbn [p_mkts al_get p_tok]. rewrite Z.eqb_refl. cbn [option_map fst snd].
    f_equal. pose proof (fm_open _ _ _ F) as O. destruct s as [w1 t1 c1]. cbn [s_closed s_w s_tok] in *. congruence.
  - intros m' N. unfold market_in. cbn [p_mkts al_get p_tok]. replace (m' =? m) with false by lia. destruct (al_get m' (p_mkts p)); reflexivity.
Qed.
