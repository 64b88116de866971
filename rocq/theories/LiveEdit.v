(** When editing an order goes through. *)
From Coq Require Import ZArith List Bool Lia ZifyBool Permutation.
From Verif Require Import Base Nodes OrderTree BookSide Heap Market OpenOrders Order Book Instructions
  BaseFacts SpecBook SpecFees SpecOrder SpecLedger SpecEvents Ledger LedgerOps LedgerMoves LedgerPlace LedgerOrder LedgerInv SpecSystem SystemFacts Solvency TokenFacts
  ConsumeFacts CancelFacts MoreFacts SpecControl SpecMore SpecLive LiveIx.
Import ListNotations.
Open Scope Z_scope.

Lemma gone_rested w gone w' : taken_off_all w gone w' -> forall s t l, In (s, t, l) gone -> In (t, l) (orders w s).
Proof.
  induction 1 as [w|w s t l w1 r w2 H1 H2 IH]; intros s' t' l' Hin; [destruct Hin|].
  destruct Hin as [E|Hin].
  - injection E as <- <- <-. apply (Permutation_in _ (Permutation_sym (to_orders _ _ _ _ _ H1))). now left.
  - specialize (IH _ _ _ Hin). apply (taken_all_sub w [(s, t, l)] w1); [econstructor; [exact H1|constructor]|exact IH].
Qed.
Lemma sum_nonneg {A} (f : A -> Z) l : (forall x, In x l -> 0 <= f x) -> 0 <= sumZ (map f l).
Proof.
  induction l as [|x r IH]; intros H; [reflexivity|]. cbn [map]. rewrite sumZ_cons.
  pose proof (H x (or_introl eq_refl)). specialize (IH (fun y Hy => H y (or_intror Hy))). lia.
Qed.

Lemma cancel_total n : forall i w k limit total so co w' q, cancel_all_loop n i w k limit total so co = Ok (w', q) ->
  total <= 9223372036854775807 -> q <= 9223372036854775807.
Proof.
  induction n as [|n IH]; intros i w k limit total so co w' q H Ht; cbn [cancel_all_loop] in H; [injection H as _ <-; exact Ht|].
  apply bind_ok in H as (a0 & Ea & H). apply bind_ok in H as (oo & Eo & H). cbv zeta in H.
  destruct (oo_free oo); [exact (IH _ _ _ _ _ _ _ _ _ H Ht)|].
  match type of H with (if ?c then _ else _) = _ => destruct c end; [exact (IH _ _ _ _ _ _ _ _ _ H Ht)|].
  match type of H with (if ?c then _ else _) = _ => destruct c end; [exact (IH _ _ _ _ _ _ _ _ _ H Ht)|].
  destruct (limit =? 0); [injection H as _ <-; exact Ht|].
  destruct (book_cancel_order w k (oo_id oo) (oo_side oo) (oo_tree oo) None) as [[w1 l]|x].
  - apply bind_ok in H as (t & E & H). apply chk_i64_ok in E as [-> R]. refine (IH _ _ _ _ _ _ _ _ _ H _). lia.
  - destruct x; try discriminate H. exact (IH _ _ _ _ _ _ _ _ _ H Ht).
Qed.

Lemma cancel_orders_total w k limit so co w' q : cancel_all_orders w k limit so co = Ok (w', q) -> q <= 9223372036854775807.
Proof. unfold cancel_all_orders. intros H. apply (cancel_total _ _ _ _ _ _ _ _ _ _ H). discriminate. Qed.

(** Cancelling reports a number of lots that is not negative. *)
Lemma cancelled_lots e s u k c a s1 q : reachable s -> s_closed s = false -> acct_get k (w_accts (s_w s)) = Some a ->
  p_bids_base (a_pos a) + p_asks_base (a_pos a) < 2 ^ 63 -> 0 <= c < 2 ^ 64 ->
  exec e s (ICancelClient u k c) = Ok (s1, OLots q) ->
  0 <= q /\ is_owner_or_delegate a u = true /\ s_tok s1 = s_tok s /\ w_mkt (s_w s1) = w_mkt (s_w s) /\ s_closed s1 = false /\
  exists w, s1 = s_set_w s w /\ cancel_all_orders (s_w s) k u8_max None (Some c) = Ok (w, q).
Proof.
  intros Hr Hc Ha Hl Hu H. pose proof H as H0. rewrite (open_exec _ _ _ Hc) in H0. unfold exec_open in H0. cbv zeta in H0.
  apply bind_ok in H0 as (u1 & _ & H0). apply bind_ok in H0 as (u2 & E2 & H0). apply bind_ok in H0 as ([w q'] & E & H0).
  injection H0 as <- <-.
  assert (Hs : is_owner_or_delegate a u = true).
  { unfold check_owner_or_delegate, acct_load in E2. rewrite Ha in E2. cbn [bind] in E2. apply require_ok in E2. exact E2. }
  split; [|split; [exact Hs|split; [reflexivity|split; [exact (proj1 (cancel_orders_mkt _ _ _ _ _ _ _ E))|split; [exact Hc|exists w; split; [reflexivity|exact E]]]]]].
  destruct (cancel_client_works e s u k c a Hr Hc Ha Hs Hu Hl) as (s2 & gone & E3 & Ht & _).
  rewrite E3 in H. injection H as _ <-. apply sum_nonneg. intros [[sd t] l] Hin. cbn [snd].
  apply (gone_rested _ _ _ Ht) in Hin. apply reachable_inv in Hr as (cl & ct & P & HI).
  destruct (order_pleaf _ _ _ _ _ (iv_rep _ _ _ _ _ _ HI) Hin) as (lp & Hp).
  pose proof (pk_qty _ _ (ld_piece _ _ _ (iv_led _ _ _ _ _ _ HI) _ Hp)) as G. cbn [pc_qty] in G. lia.
Qed.

Lemma constraints_back s x w q a : place_constraints (s_set_w s w) x = Ok tt ->
  acct_get (px_acct x) (w_accts (s_w s)) = Some a -> forall c, cancel_all_orders (s_w s) (px_acct x) u8_max None (Some c) = Ok (w, q) ->
  place_constraints s x = Ok tt.
Proof.
  intros H Ha c E. pose proof (proj1 (cancel_orders_mkt _ _ _ _ _ _ _ E)) as Em.
  destruct (cancel_orders_controls _ _ _ _ _ _ _ _ E Ha) as (a' & Ha' & E1 & E2).
  unfold place_constraints in *. cbn [s_set_w s_w s_tok] in H. rewrite Em in H. unfold acct_load in *. rewrite Ha' in H. rewrite Ha. cbn [bind] in *.
  unfold is_owner_or_delegate in *. rewrite E1, E2 in H. exact H.
Qed.

(** Editing is cancelling and placing the rest. *)
Lemma edit_ix_is e s x c n o limit w q : 0 <= n < 2 ^ 63 -> 0 <= q -> q < 2 ^ 63 -> 0 <= o_max_base o < 2 ^ 63 ->
  cancel_all_orders (s_w s) (px_acct x) u8_max None (Some c) = Ok (w, q) ->
  edit_order_ix e s x c n o limit =
    if (0 <? n - q) && (n - q <? o_max_base o) then place_order_ix e (s_set_w s w) x (o_set_max_base o (o_max_base o - (n - q))) limit
    else Ok (s_set_w s w, None).
Proof.
  intros Hn Hq Hq2 Ho E. change (2 ^ 63) with 9223372036854775808 in *. unfold edit_order_ix. replace (0 <=? n) with true by lia. cbn [require bind].
  rewrite E. cbn [bind]. cbv zeta. rewrite chk_i64_in by lia. cbn [bind].
  destruct ((0 <? n - q) && (n - q <? o_max_base o)) eqn:C; [|reflexivity]. rewrite chk_i64_in by lia. reflexivity.
Qed.

Lemma trading_kept e s s1 oracle : trading e s oracle -> w_mkt (s_w s1) = w_mkt (s_w s) -> s_closed s1 = false -> trading e s1 oracle.
Proof. intros [H1 H2 H3 H4] E C. constructor; [exact C|rewrite E; exact H2|exact H3|rewrite E; exact H4]. Qed.

Lemma place_exec e s x g o : s_closed s = false -> 0 <= e_now e -> check_place_args g = Ok tt -> place_constraints s x = Ok tt ->
  order_of_args (e_now e) g = Ok (Some o) -> exec e s (IPlaceOrder x g) = lift_id (place_order_ix e s x o (pa_limit g)).
Proof.
  intros Hc Hn Hg Hk Eo. rewrite (open_exec _ _ _ Hc). unfold exec_open. cbv zeta. rewrite Hg. cbn [bind]. rewrite Hk. cbn [bind].
  rewrite (now_runs _ Hn). cbn [bind]. rewrite Eo. reflexivity.
Qed.
Lemma edit_exec e s x c n g oo : s_closed s = false -> 0 <= e_now e -> check_place_args g = Ok tt -> place_constraints s x = Ok tt ->
  in_u64 c = true -> in_i64 n = true -> order_of_args (e_now e) g = Ok oo ->
  exec e s (IEditOrder x c n g) = match oo with None => Ok (s, OIds [None]) | Some o => lift_id (edit_order_ix e s x c n o (pa_limit g)) end.
Proof.
  intros Hc Hn Hg Hk Ic In' Eo. rewrite (open_exec _ _ _ Hc). unfold exec_open. cbv zeta. rewrite Hg. cbn [bind]. unfold u64_arg, i64_arg.
  rewrite Ic, In'. cbn [require bind]. rewrite Hk. cbn [bind]. rewrite (now_runs _ Hn). cbn [bind]. rewrite Eo. reflexivity.
Qed.
Lemma fair_args g b limit : fair_place g -> pa_limit g = limit -> 0 <= limit <= 255 -> pa_max_quote g < 2 ^ 63 -> 0 <= b < 2 ^ 63 -> check_place_args (resize g b) = Ok tt.
Proof.
  intros [F1 F2 F3 F4 F5] El Hl Hq Hb. unfold price_lots, u64 in *. change (2 ^ 63) with 9223372036854775808 in *. change (2 ^ 64) with 18446744073709551616 in *.
  unfold check_place_args, resize. cbn [pa_price pa_max_base pa_max_quote pa_client_id pa_expiry pa_limit]. ranges.
  repeat match goal with |- context [require ?c _] => replace c with true by lia; cbn [require bind] end. reflexivity.
Qed.
Lemma fair_resized g b : fair_place g -> 0 <= b -> fair_place (resize g b).
Proof. intros [F1 F2 F3 F4 F5] Hb. constructor; assumption. Qed.
Lemma fair_order now g : fair_place g -> exists oo, order_of_args now g = Ok oo /\ forall o, oo = Some o -> o_max_base o = pa_max_base g /\
  forall b, order_of_args now (resize g b) = Ok (Some (o_set_max_base o b)).
Proof.
  intros [F1 F2 F3 F4 F5]. unfold price_lots in *. unfold order_of_args, resize. cbn [pa_price pa_expiry pa_type pa_side pa_max_base pa_max_quote pa_client_id pa_self_trade].
  replace (1 <=? pa_price g) with true by lia. cbn [require bind]. destruct (tif_from_expiry _ _) as [tif|].
  - assert (E : exists ps, params_of (pa_type g) (pa_price g) = Ok ps) by (unfold params_of; destruct (pa_type g); cbn; eauto).
    destruct E as (ps & ->). cbn [bind]. eexists. split; [reflexivity|]. intros o E. injection E as <-. split; reflexivity.
  - eexists. split; [reflexivity|]. discriminate.
Qed.

Theorem edit_goes e s x c n g a s1 q a1 oracle : reachable s -> trading e s oracle -> fair_place g -> u64 c -> 0 <= n < 2 ^ 63 ->
  pa_max_base g < 2 ^ 63 -> pa_max_quote g < 2 ^ 63 ->
  acct_get (px_acct x) (w_accts (s_w s)) = Some a -> p_bids_base (a_pos a) + p_asks_base (a_pos a) < 2 ^ 63 ->
  exec e s (ICancelClient (px_signer x) (px_acct x) c) = Ok (s1, OLots q) ->
  spacious (s_w s1) (pa_max_base g - (n - q)) (pa_max_quote g) (pa_limit g) -> (may_rest (pa_type g) = true -> side_room (s_w s1) (pa_side g)) ->
  may_place s1 x (pa_side g) (pa_max_base g - (n - q)) (pa_max_quote g) a1 ->
  (exists s' out, exec e s (IEditOrder x c n g) = Ok (s', out)) \/
  (exists o er, order_of_args (e_now e) (resize g (pa_max_base g - (n - q))) = Ok (Some o) /\ exec e s (IEditOrder x c n g) = Err er /\
     refusal (s_w s1) o oracle (Some (px_acct x)) (px_acct x) (e_now e) (pa_limit g) (px_rem x) er).
Proof.
  intros Hr Ht Hf Hc Hn Hb Hmq Ha Hl He Hsp Hsd Hmp. pose proof Ht as [To Tl Tn Tor].
  destruct (cancelled_lots _ _ _ _ _ _ _ _ Hr To Ha Hl Hc He) as (Q0 & Hs & Etk & Em & Hc1 & w & Ew & Ec).
  assert (Q1 : q <= 9223372036854775807) by exact (cancel_orders_total _ _ _ _ _ _ _ Ec).
  assert (Hr1 : reachable s1) by (eapply reach_step; [exact Hr|exact He]).
  pose proof (trading_kept _ _ _ _ Ht Em Hc1) as Ht1.
  pose proof (place_allowed _ _ _ _ _ _ Hr1 Hmp) as Hk1.
  assert (Hk : place_constraints s x = Ok tt) by (rewrite Ew in Hk1; exact (constraints_back _ _ _ _ _ Hk1 Ha _ Ec)).
  pose proof (sp_limit _ _ _ _ Hsp) as Zl. pose proof (fp_base _ Hf) as F2.
  destruct (fair_order (e_now e) g Hf) as (oo & Eo & Hoo).
  assert (Hg : check_place_args g = Ok tt) by (replace g with (resize g (pa_max_base g)) by (destruct g; reflexivity); apply (fair_args g _ _ Hf eq_refl Zl Hmq); split; assumption).
  assert (Ic : in_u64 c = true) by (unfold u64 in Hc; unfold in_u64, in_range, u64_max; clear - Hc; lia).
  assert (In' : in_i64 n = true) by (unfold in_i64, in_range, i64_min, i64_max; clear - Hn; lia).
  rewrite (edit_exec e s x c n g oo To Tn Hg Hk Ic In' Eo). destruct oo as [o|]; [|left; eauto].
  destruct (Hoo o eq_refl) as [Eb Er].
  assert (Q2 : q < 2 ^ 63) by (clear - Q1; lia).
  rewrite (edit_ix_is e s x c n o (pa_limit g) w q Hn Q0 Q2 ltac:(rewrite Eb; split; assumption) Ec). rewrite Eb.
  destruct ((0 <? n - q) && (n - q <? pa_max_base g)) eqn:C; [|left; eexists _, _; reflexivity].
  remember (pa_max_base g - (n - q)) as b eqn:Eb0.
  assert (Rb : 0 <= b < 2 ^ 63) by (clear - C Hb Eb0; lia).
  pose proof (place_exec e s1 x (resize g b) _ Hc1 Tn (fair_args g b _ Hf eq_refl Zl Hmq Rb) Hk1 (Er b)) as HP.
  change (pa_limit (resize g b)) with (pa_limit g) in HP. rewrite <- Ew, <- HP.
  exact (place_order_goes e s1 x (resize g b) oracle a1 Hr1 Ht1 (fair_resized g b Hf (proj1 Rb)) Hsp Hsd Hmp).
Qed.

Lemma peg_exec e s x g o : s_closed s = false -> 0 <= e_now e -> check_peg_args g = Ok tt -> place_constraints s x = Ok tt ->
  order_of_peg_args (w_mkt (s_w s)) (e_now e) g = Ok (Some o) -> exec e s (IPlacePegged x g) = lift_id (place_order_ix e s x o (ga_limit g)).
Proof.
  intros Hc Hn Hg Hk Eo. rewrite (open_exec _ _ _ Hc). unfold exec_open. cbv zeta. rewrite Hg. cbn [bind]. rewrite Hk. cbn [bind].
  rewrite (now_runs _ Hn). cbn [bind]. rewrite Eo. reflexivity.
Qed.
Lemma edit_peg_exec e s x c n g oo : s_closed s = false -> 0 <= e_now e -> check_peg_args g = Ok tt -> place_constraints s x = Ok tt ->
  in_u64 c = true -> in_i64 n = true -> order_of_peg_args (w_mkt (s_w s)) (e_now e) g = Ok oo ->
  exec e s (IEditPegged x c n g) = match oo with None => Ok (s, OIds [None]) | Some o => lift_id (edit_order_ix e s x c n o (ga_limit g)) end.
Proof.
  intros Hc Hn Hg Hk Ic In' Eo. rewrite (open_exec _ _ _ Hc). unfold exec_open. cbv zeta. rewrite Hg. cbn [bind]. unfold u64_arg, i64_arg.
  rewrite Ic, In'. cbn [require bind]. rewrite Hk. cbn [bind]. rewrite (now_runs _ Hn). cbn [bind]. rewrite Eo. reflexivity.
Qed.
Lemma peg_args_fair m g b limit : fair_peg m g -> ga_limit g = limit -> 0 <= limit <= 255 -> ga_max_quote g < 2 ^ 63 -> 0 <= b < 2 ^ 63 -> check_peg_args (resize_peg g b) = Ok tt.
Proof.
  intros [F0 F1 F1' F1t F2 F3 F4 F5] El Hl Hq Hb. unfold price_lots, u64, is_i64 in *. change (2 ^ 63) with 9223372036854775808 in *. change (2 ^ 64) with 18446744073709551616 in *.
  unfold check_peg_args, resize_peg. cbn [ga_offset ga_peg_limit ga_max_base ga_max_quote ga_client_id ga_expiry ga_limit]. ranges.
  repeat match goal with |- context [require ?c _] => replace c with true by lia; cbn [require bind] end. reflexivity.
Qed.
Lemma peg_resized m g b : fair_peg m g -> 0 <= b -> fair_peg m (resize_peg g b).
Proof. intros [F0 F1 F1' F1t F2 F3 F4 F5] Hb. constructor; assumption. Qed.
Lemma peg_order m now g : fair_peg m g -> exists oo, order_of_peg_args m now g = Ok oo /\ forall o, oo = Some o -> o_max_base o = ga_max_base g /\
  forall b, order_of_peg_args m now (resize_peg g b) = Ok (Some (o_set_max_base o b)).
Proof.
  intros [F0 F1 F1' F1t F2 F3 F4 F5]. unfold price_lots in *. unfold order_of_peg_args, resize_peg. cbn [ga_offset ga_peg_limit ga_expiry ga_type ga_side ga_max_base ga_max_quote ga_client_id ga_self_trade].
  replace (c_oracle_a _ =? 0) with false by (symmetry; apply Z.eqb_neq; exact F0). replace (0 <? ga_peg_limit g) with true by lia. cbn [negb require bind]. destruct (tif_from_expiry _ _) as [tif|].
  - assert (E : exists pt, to_post_order_type (ga_type g) = Ok pt) by (cbn [In] in F1t; destruct F1t as [<- | [<- | [<- | []]]]; cbn; eauto).
    destruct E as (ps & ->). cbn [bind]. eexists. split; [reflexivity|]. intros o E. injection E as <-. split; reflexivity.
  - eexists. split; [reflexivity|]. discriminate.
Qed.

Theorem edit_peg_goes e s x c n g a s1 q a1 oracle : reachable s -> trading e s oracle -> fair_peg (w_mkt (s_w s)) g -> u64 c -> 0 <= n < 2 ^ 63 ->
  ga_max_base g < 2 ^ 63 -> ga_max_quote g < 2 ^ 63 ->
  acct_get (px_acct x) (w_accts (s_w s)) = Some a -> p_bids_base (a_pos a) + p_asks_base (a_pos a) < 2 ^ 63 ->
  exec e s (ICancelClient (px_signer x) (px_acct x) c) = Ok (s1, OLots q) ->
  spacious (s_w s1) (ga_max_base g - (n - q)) (ga_max_quote g) (ga_limit g) -> side_room (s_w s1) (ga_side g) ->
  may_place s1 x (ga_side g) (ga_max_base g - (n - q)) (ga_max_quote g) a1 ->
  (exists s' out, exec e s (IEditPegged x c n g) = Ok (s', out)) \/
  (exists o er, order_of_peg_args (w_mkt (s_w s)) (e_now e) (resize_peg g (ga_max_base g - (n - q))) = Ok (Some o) /\ exec e s (IEditPegged x c n g) = Err er /\
     refusal (s_w s1) o oracle (Some (px_acct x)) (px_acct x) (e_now e) (ga_limit g) (px_rem x) er).
Proof.
  intros Hr Ht Hf Hc Hn Hb Hmq Ha Hl He Hsp Hsd Hmp. pose proof Ht as [To Tl Tn Tor].
  destruct (cancelled_lots _ _ _ _ _ _ _ _ Hr To Ha Hl Hc He) as (Q0 & Hs & Etk & Em & Hc1 & w & Ew & Ec).
  assert (Q1 : q <= 9223372036854775807) by exact (cancel_orders_total _ _ _ _ _ _ _ Ec).
  assert (Hr1 : reachable s1) by (eapply reach_step; [exact Hr|exact He]).
  pose proof (trading_kept _ _ _ _ Ht Em Hc1) as Ht1.
  pose proof (place_allowed _ _ _ _ _ _ Hr1 Hmp) as Hk1.
  assert (Hk : place_constraints s x = Ok tt) by (rewrite Ew in Hk1; exact (constraints_back _ _ _ _ _ Hk1 Ha _ Ec)).
  pose proof (sp_limit _ _ _ _ Hsp) as Zl. pose proof (fg_base _ _ Hf) as F2.
  destruct (peg_order _ (e_now e) g Hf) as (oo & Eo & Hoo).
  assert (Hg : check_peg_args g = Ok tt) by (replace g with (resize_peg g (ga_max_base g)) by (destruct g; reflexivity); apply (peg_args_fair _ g _ _ Hf eq_refl Zl Hmq); split; assumption).
  assert (Ic : in_u64 c = true) by (unfold u64 in Hc; unfold in_u64, in_range, u64_max; clear - Hc; lia).
  assert (In' : in_i64 n = true) by (unfold in_i64, in_range, i64_min, i64_max; clear - Hn; lia).
  rewrite (edit_peg_exec e s x c n g oo To Tn Hg Hk Ic In' Eo). destruct oo as [o|]; [|left; eauto].
  destruct (Hoo o eq_refl) as [Eb Er].
  assert (Q2 : q < 2 ^ 63) by (clear - Q1; lia).
  rewrite (edit_ix_is e s x c n o (ga_limit g) w q Hn Q0 Q2 ltac:(rewrite Eb; split; assumption) Ec). rewrite Eb.
  destruct ((0 <? n - q) && (n - q <? ga_max_base g)) eqn:C; [|left; eexists _, _; reflexivity].
  remember (ga_max_base g - (n - q)) as b eqn:Eb0.
  assert (Rb : 0 <= b < 2 ^ 63) by (clear - C Hb Eb0; lia).
  pose proof (peg_exec e s1 x (resize_peg g b) _ Hc1 Tn (peg_args_fair _ g b _ Hf eq_refl Zl Hmq Rb) Hk1 (eq_trans (f_equal (fun m => order_of_peg_args m (e_now e) (resize_peg g b)) Em) (Er b))) as HP.
  change (ga_limit (resize_peg g b)) with (ga_limit g) in HP. rewrite <- Ew, <- HP.
  rewrite <- Em in Hf |- *. exact (place_pegged_goes e s1 x (resize_peg g b) oracle a1 Hr1 Ht1 (peg_resized _ g b Hf (proj1 Rb)) Hsp Hsd Hmp).
Qed.
