(** Who an account belongs to: its owner, delegate, number and version stay as they are. *)
From Coq Require Import ZArith List Bool Lia ZifyBool Permutation.
From Verif Require Import Base Nodes OrderTree BookSide Heap Market OpenOrders Order Book Instructions
  BaseFacts SpecBook SpecFees SpecOrder MatchFacts OrderFacts PlaceFacts OrderSpecProofs
  Steps StepFacts TokenFacts SpecLedger SpecEvents Ledger LedgerOps LedgerMoves LedgerPlace LedgerOrder LedgerInv SpecSystem SystemFacts Solvency
  SpecControl ControlFacts LifeFacts IdFacts AuthFacts.
Import ListNotations.
Open Scope Z_scope.

Definition ident (a v : ooa) : Prop := a_owner v = a_owner a /\ a_delegate v = a_delegate a /\ a_num v = a_num a /\ a_version v = a_version a.
Lemma traded_ident a v : only_traded a v -> ident a v.
Proof. intros T. destruct (ot_num _ _ T) as [N V]. split; [exact (ot_owner _ _ T)|]. split; [exact (ot_delegate _ _ T)|]. split; assumption. Qed.
Definition idk (o : option ooa) : option (Z * Z * (Z * Z)) := option_map (fun a => (a_owner a, a_delegate a, (a_num a, a_version a))) o.
Definition sameids (w w' : world) : Prop := forall k, idk (acct_get k (w_accts w')) = idk (acct_get k (w_accts w)).
Lemma ids_same w w' : w_accts w' = w_accts w -> sameids w w'.
Proof. intros E k. rewrite E. reflexivity. Qed.
Lemma ids_trans w w1 w2 : sameids w w1 -> sameids w1 w2 -> sameids w w2.
Proof. intros H1 H2 k. rewrite H2. apply H1. Qed.
Lemma ids_set w w' k a v : acct_get k (w_accts w) = Some a -> w_accts w' = acct_set k v (w_accts w) ->
  ident a v -> sameids w w'.
Proof.
  intros Ha E (H1 & H2 & H3 & H4) j. rewrite E, acct_get_set. destruct (Z.eqb_spec j k) as [->|]; [|reflexivity]. rewrite Ha. cbn [option_map idk]. congruence.
Qed.
Lemma ids_traded w w' k a v : acct_get k (w_accts w) = Some a -> w_accts w' = acct_set k v (w_accts w) -> only_traded a v -> sameids w w'.
Proof. intros A E T. eapply ids_set; [exact A|exact E|exact (traded_ident _ _ T)]. Qed.

Lemma drop_ids taker rem now s l w w' : drop_effect taker rem now s l w w' -> sameids w w'.
Proof.
  intros [w0 a a' _ Ha E|w0 h E]; [|apply ids_same; reflexivity].
  eapply ids_traded; [exact Ha|reflexivity|exact (cancel_traded _ _ _ _ _ E)].
Qed.
Lemma effect_ids o taker owner rem now w a w' : effect o taker owner rem now w a w' -> sameids w w'.
Proof.
  intros [w0 i q x x' m' _ Ha E|w0 i q h E|w0 i w1 E|w0 i x x' Et Ha E].
  - eapply ids_traded; [exact Ha|reflexivity|exact (maker_traded _ _ _ _ _ E)].
  - apply ids_same. reflexivity.
  - eapply drop_ids. exact E.
  - eapply ids_traded; [exact Ha|reflexivity|exact (cancel_traded _ _ _ _ _ E)].
Qed.
Lemma effects_ids o taker owner rem now w l w' : effects o taker owner rem now w l w' -> sameids w w'.
Proof. induction 1; [apply ids_same; reflexivity|]. eapply ids_trans; [eapply effect_ids; eassumption|assumption]. Qed.

Lemma taker_ids a m s b q tf ra a' m' : execute_taker a m s b q tf ra = Ok (a', m') -> ident a a'.
Proof.
  unfold execute_taker. intros H. cbv zeta in H. apply bind_ok in H as (p1 & P & H). do 3 (apply bind_ok in H as (? & _ & H)).
  injection H as <- _. repeat split.
Qed.
Lemma settle_taker_ids o taker maxq s w' bt qt tf ra rq : settle_taker o taker maxq s = Ok (w', bt, qt, tf, ra, rq) -> sameids (ms_w s) w'.
Proof.
  intros H. unfold settle_taker in H. cbv zeta in H.
  do 6 (apply bind_ok in H as (? & _ & H)). apply bind_ok in H as ([[w1 f1] r1] & E & H).
  do 5 (apply bind_ok in H as (? & _ & H)). injection H as <- _ _ _ _ _.
  match type of E with (if ?c then _ else _) = _ => destruct c end; [|injection E as <- _ _; apply ids_same; reflexivity].
  do 2 (apply bind_ok in E as (? & _ & E)). apply bind_ok in E as ([[w2 f2] r2] & E1 & E).
  assert (U2 : w_accts w2 = w_accts (ms_w s)).
  { match type of E1 with (if ?c then _ else _) = _ => destruct c end; [|injection E1 as <- _ _; reflexivity].
    do 3 (apply bind_ok in E1 as (? & _ & E1)). injection E1 as <- _ _. reflexivity. }
  apply bind_ok in E as (w3 & E2 & E). apply bind_ok in E as (? & _ & E). injection E as <- _ _.
  eapply ids_trans; [apply ids_same; exact U2|].
  destruct taker as [t|].
  - apply bind_ok in E2 as (a & A & E2). apply acct_load_ok in A. apply bind_ok in E2 as ([a' m'] & E3 & E2). injection E2 as <-.
    apply taker_ids in E3. eapply ids_set; [exact A|reflexivity|exact E3].
  - apply bind_ok in E2 as (tv & _ & E2). injection E2 as <-. apply ids_same. reflexivity.
Qed.
Lemma process_out_ids w tk owner rem ev w' : process_out_event w tk owner rem ev = Ok w' -> sameids w w'.
Proof.
  intros H.
  assert (L : forall t k a, load_remaining w t k = Ok a -> acct_get k (w_accts w) = Some a).
  { intros t k0 a G. unfold load_remaining in G. destruct (is_taker t k0); [discriminate G|]. apply acct_load_ok in G. exact G. }
  unfold process_out_event in H. destruct tk as [t|].
  - destruct (owner =? oe_owner ev); [|destruct (mem_key _ _)].
    + apply bind_ok in H as (a & A & H). apply acct_load_ok in A. apply bind_ok in H as (a' & E & H). injection H as <-. eapply ids_traded; [exact A|reflexivity|exact (cancel_traded _ _ _ _ _ E)].
    + apply bind_ok in H as (a & A & H). apply L in A. apply bind_ok in H as (a' & E & H). injection H as <-. eapply ids_traded; [exact A|reflexivity|exact (cancel_traded _ _ _ _ _ E)].
    + apply bind_ok in H as (h & E & H). injection H as <-. apply ids_same. reflexivity.
  - destruct (mem_key _ _).
    + apply bind_ok in H as (a & A & H). apply L in A. apply bind_ok in H as (a' & E & H). injection H as <-. eapply ids_traded; [exact A|reflexivity|exact (cancel_traded _ _ _ _ _ E)].
    + apply bind_ok in H as (h & E & H). injection H as <-. apply ids_same. reflexivity.
Qed.
Lemma set_book_ids w s b : sameids w (w_set_book w s b).
Proof. apply ids_same. destruct s; reflexivity. Qed.
Lemma post_order_ids w o taker owner rem oracle now id pl price qty target w' pb pq mf :
  post_order w o taker owner rem oracle now id pl price qty target = Ok (w', pb, pq, mf) -> sameids w w'.
Proof.
  intros H. unfold post_order in H. cbv zeta in H. do 6 (apply bind_ok in H as (? & _ & H)).
  apply bind_ok in H as ([w1 f1] & E1 & H). apply bind_ok in H as ([b1 ex] & _ & H). apply bind_ok in H as (w3 & E3 & H).
  apply bind_ok in H as (w4 & E4 & H). apply bind_ok in H as (a & A & H). apply acct_load_ok in A. apply bind_ok in H as (? & _ & H).
  apply bind_ok in H as ([[b3 ?] ?] & _ & H). apply bind_ok in H as (a' & E5 & H). injection H as <- _ _ _.
  assert (U1 : sameids w w1).
  { destruct (o_side o); [|injection E1 as <- _; apply ids_same; reflexivity].
    do 2 (apply bind_ok in E1 as (? & _ & E1)). apply bind_ok in E1 as (b & B & E1). apply acct_load_ok in B. apply bind_ok in E1 as (l & _ & E1). injection E1 as <- _.
    eapply ids_set; [exact B|reflexivity|repeat split]. }
  assert (U3 : sameids w1 w3).
  { destruct ex; [|injection E3 as <-; apply set_book_ids]. apply process_out_ids in E3. eapply ids_trans; [apply set_book_ids|exact E3]. }
  assert (U4 : sameids w3 w4).
  { destruct (is_full _); [|injection E4 as <-; apply ids_same; reflexivity]. apply bind_ok in E4 as ([b2 ow] & _ & E4). apply bind_ok in E4 as ([wo wp] & _ & E4).
    apply bind_ok in E4 as (? & _ & E4). apply process_out_ids in E4. eapply ids_trans; [apply set_book_ids|exact E4]. }
  eapply ids_trans; [exact U1|]. eapply ids_trans; [exact U3|]. eapply ids_trans; [exact U4|].
  eapply ids_trans; [apply (set_book_ids w4 (o_side o) b3)|].
  assert (P : ident a a').
  { unfold add_order in E5. cbv zeta in E5. apply bind_ok in E5 as (p' & P & E5). apply bind_ok in E5 as (? & _ & E5). injection E5 as <-. repeat split. }
  eapply (ids_set _ _ _ a a'); [|reflexivity|exact P]. destruct (o_side o); exact A.
Qed.
Lemma new_order_ids w o oracle taker owner now limit rem w' r : sound_call w o taker owner ->
  new_order w o oracle taker owner now limit rem = Ok (w', r) -> sameids w w'.
Proof.
  intros Hsc H. pose proof Hsc as [Hc Hsd Hso Htk]. pose proof Hso as [Hb0 Hq0 _].
  destruct (sc_other_fits _ _ _ _ Hsc) as (T & Hf & Hage).
  destruct (new_order_inv _ _ _ _ _ _ _ _ _ _ _ Hf Htk Hc Hb0 Hq0 H)
    as (price & pd & maxq & acts & ms & lf & w2 & bt & qt & tf & ra & rq & mf & b2 & T2 & Hpl & Hfin).
  destruct (placed_numbers _ _ _ _ _ _ _ _ _ _ _ _ _ _ _ _ _ _ _ _ _ _ _ _ Hsc Hf Hpl)
    as (_ & _ & _ & _ & _ & _ & _ & _ & _ & _ & _ & _ & _ & _ & _ & _ & Hef & _).
  pose proof (pc_settle _ _ _ _ _ _ _ _ _ _ _ _ _ _ _ _ _ _ _ _ _ _ _ _ Hpl) as Hst.
  apply effects_ids in Hef. apply settle_taker_ids in Hst.
  eapply ids_trans; [|eapply ids_trans; [exact Hef|eapply ids_trans; [exact Hst|]]]; [apply ids_same; reflexivity|].
  destruct Hfin as [Hno|t w4 pb pq mfees Hpos Htg Hpeg Hpost].
  - apply set_book_ids.
  - eapply ids_trans; [apply set_book_ids|]. eapply post_order_ids. exact Hpost.
Qed.

Lemma book_cancel_ids w k id sd tr ex w' l : book_cancel_order w k id sd tr ex = Ok (w', l) -> sameids w w'.
Proof.
  intros E. apply book_cancel_inv in E as (b & a1 & a' & _ & _ & A1 & E & ->).
  eapply ids_trans; [apply (set_book_ids w sd b)|].
  eapply ids_traded; [|reflexivity|exact (cancel_traded _ _ _ _ _ E)]. destruct sd; exact A1.
Qed.
Lemma cancel_all_ids n : forall i w k limit total so co w' q,
  cancel_all_loop n i w k limit total so co = Ok (w', q) -> sameids w w'.
Proof.
  induction n as [|n IH]; intros i w k limit total so co w' q H; cbn [cancel_all_loop] in H.
  - injection H as <- _. apply ids_same. reflexivity.
  - apply bind_ok in H as (a & Ea & H). apply bind_ok in H as (oo & Eo & H). cbv zeta in H.
    destruct (oo_free oo) eqn:Efr; [eapply IH; exact H|].
    destruct (match so with Some s => negb (side_eqb s (oo_side oo)) | None => false end); [eapply IH; exact H|].
    destruct (match co with Some c => negb (c =? oo_client_id oo) | None => false end); [eapply IH; exact H|].
    destruct (limit =? 0); [injection H as <- _; apply ids_same; reflexivity|].
    destruct (book_cancel_order w k (oo_id oo) (oo_side oo) (oo_tree oo) None) as [[w1 l]|e] eqn:Ec.
    + apply bind_ok in H as (tot & _ & H). eapply ids_trans; [exact (book_cancel_ids _ _ _ _ _ _ _ _ Ec)|]. eapply IH; exact H.
    + destruct e; try discriminate H. eapply IH; exact H.
Qed.
Lemma cancel_orders_ids w k limit so co w' q : cancel_all_orders w k limit so co = Ok (w', q) -> sameids w w'.
Proof. unfold cancel_all_orders. apply cancel_all_ids. Qed.
Lemma consume_one_ids w rem slot w' : consume_one w rem slot = Ok w' -> sameids w w'.
Proof.
  intros E. apply consume_one_inv in E as (ev & _ & E). destruct ev as [f|x].
  - destruct (mem_key _ _); [|subst; apply ids_same; reflexivity]. destruct E as (a & a' & m' & h' & y & A & E & _ & ->).
    eapply ids_traded; [exact A|reflexivity|exact (maker_traded _ _ _ _ _ E)].
  - destruct (mem_key _ _); [|subst; apply ids_same; reflexivity]. destruct E as (a & a' & h' & y & A & E & _ & ->).
    eapply ids_traded; [exact A|reflexivity|exact (cancel_traded _ _ _ _ _ E)].
Qed.
Lemma consume_ids ss : forall w rem w', consume_loop w rem ss = Ok w' -> sameids w w'.
Proof.
  induction ss as [|s r IH]; intros w rem w' H; cbn [consume_loop] in H.
  - injection H as <-. apply ids_same. reflexivity.
  - apply bind_ok in H as (w1 & E & H). eapply ids_trans; [exact (consume_one_ids _ _ _ _ E)|]. eapply IH; exact H.
Qed.
Lemma lock_funds_ids w k s r grew w' d : lock_funds w k s r grew = Ok (w', d) -> sameids w w'.
Proof.
  intros H. unfold lock_funds in H. apply bind_ok in H as (a & Ea & H). apply acct_load_ok in Ea.
  cbv zeta in H.
  apply bind_ok in H as ([[m' p'] dd] & E & H). apply bind_ok in H as (p'' & E2 & H). injection H as <- <-.
  eapply ids_set; [exact Ea|reflexivity|repeat split].
Qed.
Lemma deposit_ids e s u k ub uq b q s' : deposit_ix e s u k ub uq b q = Ok s' -> sameids (s_w s) (s_w s').
Proof.
  intros E. unfold deposit_ix in E. cbv zeta in E. do 2 (apply bind_ok in E as (? & _ & E)).
  apply bind_ok in E as (a & Ea & E). apply acct_load_ok in Ea. do 7 (apply bind_ok in E as (? & _ & E)). injection E as <-.
  eapply ids_set; [exact Ea|reflexivity|repeat split].
Qed.
Lemma settle_ids s k ub uq ref s' : settle_core s k ub uq ref = Ok s' -> sameids (s_w s) (s_w s').
Proof.
  intros E. apply settle_inv in E as (a & t0 & t1 & t2 & Ea & E). cbv zeta in E. destruct E as (_ & _ & _ & _ & ->).
  eapply ids_set; [exact Ea|reflexivity|repeat split].
Qed.

Lemma place_ids e s x o limit s' id : world_sound (s_w s) -> params_sane (o_params o) -> place_order_ix e s x o limit = Ok (s', id) -> sameids (s_w s) (s_w s').
Proof.
  intros Hs Hp H. unfold place_order_ix in H.
  apply bind_ok in H as (u1 & E1 & H). apply require_ok in E1. apply bind_ok in H as (u2 & E2 & H). apply require_ok in E2.
  cbv zeta in H. apply bind_ok in H as (u3 & _ & H). apply bind_ok in H as (u4 & _ & H).
  apply bind_ok in H as (now & En & H). apply bind_ok in H as (oracle & _ & H).
  apply bind_ok in H as ([w1 r] & Eo & H). apply bind_ok in H as ([w2 d] & Ek & H).
  apply bind_ok in H as (t & _ & H). injection H as <- _. cbn [s_w].
  assert (Hsc : sound_call (s_w s) o (Some (px_acct x)) (px_acct x)).
  { apply sound_call_of; [exact Hs|constructor; [lia|lia|exact Hp]|left; reflexivity]. }
  eapply ids_trans; [exact (new_order_ids _ _ _ _ _ _ _ _ _ _ Hsc Eo)|exact (lock_funds_ids _ _ _ _ _ _ _ Ek)].
Qed.
Lemma edit_ids e s x cid expected o limit s' id : world_sound (s_w s) -> params_sane (o_params o) ->
  edit_order_ix e s x cid expected o limit = Ok (s', id) -> sameids (s_w s) (s_w s').
Proof.
  intros Hs Hp H. unfold edit_order_ix in H. apply bind_ok in H as (u1 & _ & H). apply bind_ok in H as ([w q] & E & H).
  pose proof (cancel_orders_ids _ _ _ _ _ _ _ E) as I. apply cancel_orders_steps in E.
  cbv zeta in H. apply bind_ok in H as (f & _ & H).
  match type of H with (if ?c then _ else _) = _ => destruct c end.
  - apply bind_ok in H as (mb & _ & H). apply place_ids in H; [|eapply wsteps_sound; [exact E|exact Hs]|exact Hp].
    eapply ids_trans; [exact I|exact H].
  - injection H as <- _. exact I.
Qed.
Lemma take_ids e s x o limit s' : world_sound (s_w s) -> params_sane (o_params o) -> place_take_ix e s x o limit = Ok s' -> sameids (s_w s) (s_w s').
Proof.
  intros Hs Hp H. unfold place_take_ix in H.
  apply bind_ok in H as (u1 & E1 & H). apply require_ok in E1. apply bind_ok in H as (u2 & E2 & H). apply require_ok in E2.
  cbv zeta in H. apply bind_ok in H as (u3 & _ & H).
  apply bind_ok in H as (now & En & H). apply bind_ok in H as (oracle & _ & H).
  apply bind_ok in H as (u5 & E5 & H). apply require_ok in E5.
  apply bind_ok in H as ([w1 r] & Eo & H). apply bind_ok in H as (reb & Er & H).
  assert (Hn : acct_get (tx_signer x) (w_accts (s_w s)) = None) by (destruct (acct_get (tx_signer x) (w_accts (s_w s))); [discriminate E5|reflexivity]).
  assert (Hsc : sound_call (s_w s) o None (tx_signer x)).
  { apply sound_call_of; [exact Hs|constructor; [lia|lia|exact Hp]|right; reflexivity]. }
  eapply ids_trans; [exact (new_order_ids _ _ _ _ _ _ _ _ _ _ Hsc Eo)|].
  destruct (o_side o); do 5 (apply bind_ok in H as (? & _ & H)); injection H as <-; apply ids_same; reflexivity.
Qed.
Lemma multi_loop_ids os : forall w x ub uq oracle now limit ba qa w' ba' qa' ids,
  world_sound w -> Forall (fun o => params_sane (o_params o)) os -> 0 <= limit -> 0 <= now ->
  multi_loop w x ub uq oracle now limit os ba qa = Ok (w', ba', qa', ids) -> sameids w w'.
Proof.
  induction os as [|o r IH]; intros w x ub uq oracle now limit ba qa w' ba' qa' ids Hs Ho Hl Hn H; cbn [multi_loop] in H.
  - injection H as <- _ _ _. apply ids_same. reflexivity.
  - apply bind_ok in H as ([[[w1 b1] q1] i1] & E & H). inversion Ho as [|o0 r0 Ho1 Ho2]; subst.
    destruct (multi_one_place _ _ _ _ _ _ _ _ _ _ _ _ _ _ Hs Ho1 E) as (o' & r' & Go & _ & En & _).
    apply multi_one_steps in E; [|exact Hs|exact Ho1|exact Hl|exact Hn].
    apply bind_ok in H as ([[[w2 b2] q2] i2] & E2 & H). injection H as <- _ _ _.
    assert (Hsc : sound_call w o' (Some (mx_acct x)) (mx_acct x)) by (apply sound_call_of; [exact Hs|exact Go|left; reflexivity]).
    eapply ids_trans; [exact (new_order_ids _ _ _ _ _ _ _ _ _ _ Hsc En)|].
    eapply IH; [eapply wstep_sound; [exact E|exact Hs]|exact Ho2|exact Hl|exact Hn|exact E2].
Qed.
Lemma multi_ids e s x cancel os limit s' ids : world_sound (s_w s) ->
  Forall (fun o => params_sane (o_params o)) os -> 0 <= limit ->
  multi_ix e s x cancel os limit = Ok (s', ids) -> sameids (s_w s) (s_w s').
Proof.
  intros Hs Ho Hl H. unfold multi_ix in H. cbv zeta in H. apply bind_ok in H as (u1 & _ & H).
  apply bind_ok in H as (now & En & H). apply now_u64_ok in En. apply bind_ok in H as (oracle & _ & H).
  apply bind_ok in H as (w0 & E0 & H).
  assert (S0 : sameids (s_w s) w0 /\ world_sound w0).
  { destruct cancel; [|injection E0 as <-; split; [apply ids_same; reflexivity|exact Hs]]. apply bind_ok in E0 as ([w' q] & E1 & E0). injection E0 as <-.
    split; [exact (cancel_orders_ids _ _ _ _ _ _ _ E1)|]. apply cancel_orders_steps in E1. eapply wsteps_sound; [exact E1|exact Hs]. }
  destruct S0 as [S0 Hs0].
  apply bind_ok in H as (ub & _ & H). apply bind_ok in H as (uq & _ & H).
  apply bind_ok in H as ([[[w1 ba] qa] is] & E1 & H).
  apply multi_loop_ids in E1; [|exact Hs0|exact Ho|exact Hl|exact En].
  apply bind_ok in H as (a & Ea & H). apply acct_load_ok in Ea.
  do 9 (apply bind_ok in H as (? & _ & H)). injection H as <- _.
  eapply ids_trans; [exact S0|]. eapply ids_trans; [exact E1|]. eapply ids_set; [exact Ea|reflexivity|repeat split].
Qed.

(** Instructions other than opening, closing and re-delegating an account. *)
Definition names_nobody (i : instr) : bool :=
  match i with ICreateAccount _ _ _ _ | ICloseAccount _ _ | ISetDelegate _ _ _ => false | _ => true end.
Lemma exec_sameids e s i s' out : reachable s -> exec e s i = Ok (s', out) -> names_nobody i = true -> sameids (s_w s) (s_w s').
Proof.
  intros R H Hn. pose proof (reachable_sound _ R) as Hs. destruct (is_placing i) eqn:Hp.
  { destruct (exec_placing _ _ _ _ _ H Hp) as [| | | |].
    - apply ids_same. reflexivity.
    - eapply place_ids; eassumption.
    - eapply edit_ids; eassumption.
    - eapply take_ids; eassumption.
    - eapply multi_ids; eassumption. }
  unfold exec in H. destruct (s_closed s && needs_market i); [discriminate H|]. unfold exec_open in H. cbv zeta in H.
    destruct i as [| | | | | |u k' id|u k' c|u k' sd l|u l r|u l r|u k' ub uq b q|u k' ub uq b q|u k' ub uq ref|u k' ub uq ref|u r
      |k' ow dl n|u k'|u k' d|u|u k' l|u|au f t n|t n|k0 mi ow0|au k0 ow0|au k0 n|au k0]; try discriminate Hp; try discriminate Hn; unfold lift_w, lift_s in H.
    + apply bind_ok in H as (w & E & H). injection H as <- _. cbn [s_set_w s_w s_tok]. 
      unfold cancel_order_ix in E. do 3 (apply bind_ok in E as (? & _ & E)). destruct (find_order_with_order_id _ _); [|discriminate].
      apply bind_ok in E as ([w1 l] & E & E'). injection E' as <-. exact (book_cancel_ids _ _ _ _ _ _ _ _ E).
    + do 2 (apply bind_ok in H as (? & _ & H)). apply bind_ok in H as ([w q] & E & H). injection H as <- _. exact (cancel_orders_ids _ _ _ _ _ _ _ E).
    + do 2 (apply bind_ok in H as (? & _ & H)). apply bind_ok in H as ([w q] & E & H). injection H as <- _. exact (cancel_orders_ids _ _ _ _ _ _ _ E).
    + do 2 (apply bind_ok in H as (? & _ & H)). apply bind_ok in H as (w & E & H). injection H as <- _.
      unfold consume_events_ix in E. apply bind_ok in E as (ss & _ & E). exact (consume_ids _ _ _ _ E).
    + do 2 (apply bind_ok in H as (? & _ & H)). apply bind_ok in H as (w & E & H). injection H as <- _.
      unfold consume_events_ix in E. apply bind_ok in E as (ss & _ & E). exact (consume_ids _ _ _ _ E).
    + do 3 (apply bind_ok in H as (? & _ & H)). apply bind_ok in H as (s1 & E & H). injection H as <- _. exact (deposit_ids _ _ _ _ _ _ _ _ _ E).
    + do 3 (apply bind_ok in H as (? & _ & H)). apply bind_ok in H as (s1 & E & H). injection H as <- _. unfold refill_ix in E. do 3 (apply bind_ok in E as (? & _ & E)).
      exact (deposit_ids _ _ _ _ _ _ _ _ _ E).
    + apply bind_ok in H as (s1 & E & H). injection H as <- _. unfold settle_funds_ix in E. do 7 (apply bind_ok in E as (? & _ & E)). exact (settle_ids _ _ _ _ _ _ E).
    + apply bind_ok in H as (s1 & E & H). injection H as <- _. unfold settle_funds_expired_ix in E. do 8 (apply bind_ok in E as (? & _ & E)). exact (settle_ids _ _ _ _ _ _ E).
    + apply bind_ok in H as (s1 & E & H). injection H as <- _. unfold sweep_fees_ix in E. cbv zeta in E. do 3 (apply bind_ok in E as (? & _ & E)).
      apply bind_ok in E as (t1 & T & E). injection E as <-. apply ids_same. reflexivity.
    + apply bind_ok in H as (w & E & H). injection H as <- _. unfold set_market_expired_ix in E. do 2 (apply bind_ok in E as (? & _ & E)). injection E as <-. apply ids_same. reflexivity.
    + apply bind_ok in H as (? & _ & H). apply bind_ok in H as (w & E & H). injection H as <- _. unfold prune_orders_ix in E. do 3 (apply bind_ok in E as (? & _ & E)).
      apply bind_ok in E as ([w1 q] & E & E'). injection E' as <-. exact (cancel_orders_ids _ _ _ _ _ _ _ E).
    + apply bind_ok in H as (w & _ & H). injection H as <- _. apply ids_same. reflexivity.
    + apply bind_ok in H as (? & _ & H). apply bind_ok in H as (t1 & T & H). injection H as <- _. apply ids_same. reflexivity.
    + do 3 (apply bind_ok in H as (? & _ & H)). injection H as <- _. apply ids_same. reflexivity.
    + do 1 (apply bind_ok in H as (? & _ & H)). injection H as <- _. apply ids_same. reflexivity.
    + do 3 (apply bind_ok in H as (? & _ & H)). injection H as <- _. apply ids_same. reflexivity.
    + do 5 (apply bind_ok in H as (? & _ & H)). injection H as <- _. apply ids_same. reflexivity.
    + do 4 (apply bind_ok in H as (? & _ & H)). injection H as <- _. apply ids_same. reflexivity.
Qed.

Theorem exec_identity e s i s' out k a : reachable s -> exec e s i = Ok (s', out) -> acct_get k (w_accts (s_w s)) = Some a ->
  (exists u, i = ICloseAccount u k /\ acct_get k (w_accts (s_w s')) = None) \/
  exists a', acct_get k (w_accts (s_w s')) = Some a' /\
    a_owner a' = a_owner a /\ a_num a' = a_num a /\ a_version a' = a_version a /\
    a_delegate a' = (match i with ISetDelegate _ j d => if j =? k then d else a_delegate a | _ => a_delegate a end).
Proof.
  intros R H Ha. destruct (names_nobody i) eqn:En.
  { pose proof (exec_sameids _ _ _ _ _ R H En k) as S. rewrite Ha in S. right. destruct (acct_get k (w_accts (s_w s'))) as [a'|]; [|discriminate S].
    cbn [idk option_map] in S. injection S as S1 S2 S3 S4. exists a'. destruct i; try discriminate En; repeat split; assumption. }
  unfold exec in H. destruct (s_closed s && needs_market i); [discriminate H|]. unfold exec_open in H. cbv zeta in H.
  destruct i as [| | | | | | | | | | | | | | | |k' ow dl n|u k'|u k' d| | | | | | | | |]; try discriminate En; unfold lift_w in H; apply bind_ok in H as (w & E & H); injection H as <- _; cbn [s_set_w s_w].
  - right. unfold create_account_ix in E. apply bind_ok in E as (u & Eu & E). apply require_ok in Eu. apply bind_ok in E as (? & _ & E). injection E as <-.
    cbn [w_set_accts w_accts acct_get]. destruct (Z.eqb_spec k k') as [->|]; [rewrite Ha in Eu; discriminate Eu|].
    exists a. repeat split. exact Ha.
  - unfold close_account_ix in E. apply bind_ok in E as (b & Eb & E). do 2 (apply bind_ok in E as (? & _ & E)). injection E as <-. cbn [w_set_accts w_accts].
    destruct (Z.eq_dec k' k) as [->|N].
    + left. exists u. split; [reflexivity|]. apply get_del_same. destruct (reachable_inv _ R) as (cl & ct & P & HI). exact (ld_keys _ _ _ (iv_led _ _ _ _ _ _ HI)).
    + right. exists a. split; [|repeat split]. rewrite get_del_other by congruence. exact Ha.
  - right. unfold set_delegate_ix in E. apply bind_ok in E as (b & Eb & E). apply acct_load_ok in Eb. apply bind_ok in E as (? & _ & E). injection E as <-.
    cbn [w_set_acct w_set_accts w_accts]. rewrite acct_get_set, Z.eqb_sym. destruct (Z.eqb_spec k' k) as [->|].
    + assert (b = a) by congruence. subst b. eexists. split; [rewrite Ha; reflexivity|]. repeat split.
    + exists a. repeat split. exact Ha.
Qed.
