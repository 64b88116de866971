(** The bounded recursions of the model never run out: the walks through the order trees end
    on every book that can occur. *)
From Coq Require Import ZArith List Bool Lia ZifyBool Permutation.
From Verif Require Import Base Nodes OrderTree BookSide Heap Market OpenOrders Order Book Instructions
  BaseFacts NodesFacts BitFacts TreeRep TreeFacts TreeOps TreeIter BookSideFacts BookSideOrder SpecBook BookSpecProofs
  SpecFees SpecOrder MatchFacts MatchBook OrderFacts PlaceFacts OrderSpecProofs Steps StepFacts QuietFacts.
Import ListNotations.
Open Scope Z_scope.

Lemma special_fuel : special OutOfFuel. Proof. right; reflexivity. Qed.
#[global] Hint Resolve special_fuel : quiet.

(** The books of a world can occur. *)
Definition books_reach (w : world) : Prop := forall s, book_reach s (w_book w s).
Lemma sound_books w : world_sound w -> books_reach w.
Proof. intros [_ H] s. exact (proj1 (H s)). Qed.
Lemma books_same w w' : books_reach w -> (forall s, w_book w' s = w_book w s) -> books_reach w'.
Proof. intros H E s. rewrite E. apply H. Qed.
Lemma books_set w s b : books_reach w -> book_reach s b -> books_reach (w_set_book w s b).
Proof.
  intros H Hb u. destruct s, u; cbn; try exact Hb; [exact (H Ask)|exact (H Bid)].
Qed.

(** ** Book sides *)
Lemma f_insert_walk t : forall n a r nl st, repr (a_nodes a) t -> (tdepth t < n)%nat ->
  never OutOfFuel (insert_walk n a r nl (thandle t) st).
Proof.
  induction t as [h l|h p k t0 IH0 t1 IH1]; intros n a r nl st Hr Hd; destruct n as [|n]; cbn [tdepth] in Hd; try lia;
    cbn [insert_walk].
  - cbn [thandle repr] in *. apply never_bind; [nv|]. intros pc Hpc.
    assert (pc = NLeaf l).
    { unfold get_node_unwrap in Hpc. apply bind_ok in Hpc as (o & E & Hpc). apply unwrap_ok in Hpc. subst o.
      unfold get_node in E. match type of E with (if ?c then _ else _) = _ => destruct c end; [|discriminate E]. rewrite Hr in E. injection E as <-. reflexivity. }
    subst pc. nv.
  - cbn [thandle repr] in *. destruct Hr as (Hn & H0 & H1). apply never_bind; [nv|]. intros pc Hpc.
    assert (pc = NInner (tinner p k t0 t1)).
    { unfold get_node_unwrap in Hpc. apply bind_ok in Hpc as (o & E & Hpc). apply unwrap_ok in Hpc. subst o.
      unfold get_node in E. match type of E with (if ?c then _ else _) = _ => destruct c end; [|discriminate E]. rewrite Hn in E. injection E as <-. reflexivity. }
    subst pc. apply never_bind; [nv|]. intros pk _. cbv zeta.
    match goal with |- never _ (match (if ?c then _ else _) with _ => _ end) => destruct c end; [|nv].
    unfold walk_down. cbv zeta.
    match goal with |- never _ (insert_walk n a r nl (in_child _ ?b) _) => destruct b end; cbn [in_child tinner in_c0 in_c1].
    + apply IH1; [exact H1|lia].
    + apply IH0; [exact H0|lia].
Qed.

Lemma f_insert_leaf a r o R F nl : tree_ok a r o R F -> never OutOfFuel (insert_leaf a r nl).
Proof.
  intros Hok. unfold insert_leaf. destruct o as [t|].
  - rewrite (root_handle_some r t (tk_root _ _ _ _ _ Hok)).
    destruct (tree_ok_facts a r t R F Hok) as (_ & Hr & _ & _ & _ & Hd & _).
    apply f_insert_walk; [exact Hr|]. rewrite tree_fuel_eq. lia.
  - assert (E : root_handle r = None).
    { pose proof (tk_root _ _ _ _ _ Hok) as H. cbn in H. unfold root_handle. rewrite H. reflexivity. }
    rewrite E. nv.
Qed.

Section Sides.
Variables (s : side) (bs : bookside).
Hypothesis Hr : book_reach s bs.

Lemma f_insert t l : never OutOfFuel (bs_insert_leaf bs t l).
Proof.
  destruct (book_reach_ok _ _ Hr) as (T & (F & Hb) & _). unfold bs_insert_leaf.
  apply never_bind; [eapply f_insert_leaf; apply (Hb t)|]. intros [[[a r] h] old] _. nv.
Qed.
Lemma f_remove t k : never OutOfFuel (bs_remove_by_key bs t k).
Proof.
  destruct (book_reach_ok _ _ Hr) as (T & Hb & _). destruct (bs_remove_spec _ _ t k Hb) as (b & old & o' & E & _). rewrite E. nv.
Qed.
Lemma f_expired t now : never OutOfFuel (bs_remove_one_expired bs t now).
Proof.
  destruct (book_reach_ok _ _ Hr) as (T & Hb & _). destruct (bs_remove_one_expired_spec _ _ t now Hb) as (b & old & o' & E & _).
  rewrite E. nv.
Qed.
Lemma f_worst now oracle : never OutOfFuel (bs_remove_worst bs now oracle).
Proof.
  destruct (book_reach_ok _ _ Hr) as (T & Hb & Hl & _). destruct (bs_remove_worst_spec _ _ now oracle Hb Hl) as (b & old & o' & E & _).
  rewrite E. nv.
Qed.
Lemma f_iter now oracle : never OutOfFuel (iter_all bs now oracle).
Proof.
  destruct (book_reach_ok _ _ Hr) as (T & Hb & Hl & _). rewrite (iter_all_spec _ _ now oracle Hb Hl). nv.
Qed.
Lemma f_best now oracle : never OutOfFuel (best_price bs now oracle).
Proof. unfold best_price, iter_valid. pose proof (f_iter now oracle). nv; assumption. Qed.
Lemma f_empty : never OutOfFuel (bs_is_empty bs).
Proof.
  destruct (book_reach_ok _ _ Hr) as (T & Hb & _).
  pose proof (bs_lists _ _ Fixed Hb) as (f & F & _). pose proof (bs_lists _ _ OraclePegged Hb) as (p & P & _).
  unfold bs_is_empty. cbn [bs_root] in F, P. rewrite F, P. nv.
Qed.
End Sides.

Lemma f_price s o b now oc : book_reach s b -> never OutOfFuel (order_price o b now oc).
Proof.
  intros Hr. pose proof (f_best _ _ Hr now oc) as Hb.
  assert (Hp : forall sd p t, never OutOfFuel (price_for_order_type sd b now oc p t)).
  { intros. unfold price_for_order_type. destruct t; nv; assumption. }
  unfold order_price. nv; apply Hp.
Qed.

(** ** Posting and matching *)
Lemma process_out_books w taker owner rem e w' : process_out_event w taker owner rem e = Ok w' ->
  forall s, w_book w' s = w_book w s.
Proof.
  intros H. assert (G : w_bids w' = w_bids w /\ w_asks w' = w_asks w).
  { unfold process_out_event in H. destruct taker as [t|].
    - destruct (owner =? oe_owner e); [|destruct (mem_key (oe_owner e) rem)].
      + apply bind_ok in H as (a & _ & H). apply bind_ok in H as (a' & _ & H). injection H as <-. split; reflexivity.
      + apply bind_ok in H as (a & _ & H). apply bind_ok in H as (a' & _ & H). injection H as <-. split; reflexivity.
      + apply bind_ok in H as (h & _ & H). injection H as <-. split; reflexivity.
    - destruct (mem_key (oe_owner e) rem).
      + apply bind_ok in H as (a & _ & H). apply bind_ok in H as (a' & _ & H). injection H as <-. split; reflexivity.
      + apply bind_ok in H as (h & _ & H). injection H as <-. split; reflexivity. }
  destruct G as [G1 G2]. intros []; cbn; assumption.
Qed.

Lemma f_post w o taker owner rem oracle now id pl price qty target :
  book_reach (o_side o) (w_book w (o_side o)) ->
  never OutOfFuel (post_order w o taker owner rem oracle now id pl price qty target).
Proof.
  intros Hb. unfold post_order. cbv zeta. set (s := o_side o) in *.
  apply never_bind; [nv|intros cap _]. apply never_bind; [nv|intros x _]. apply never_bind; [nv|intros u1 _].
  apply never_bind; [nv|intros pb _]. apply never_bind; [nv|intros pq _]. apply never_bind; [nv|intros t _].
  apply never_bind.
  { destruct s; [|nv]. nv. }
  intros [w1 mf] E1.
  assert (Hb1 : book_reach s (w_book w1 s)).
  { destruct s.
    - apply bind_ok in E1 as (f & _ & E1). apply bind_ok in E1 as (f' & _ & E1). apply bind_ok in E1 as (a & _ & E1).
      apply bind_ok in E1 as (l & _ & E1). injection E1 as <- _. exact Hb.
    - injection E1 as <- _. exact Hb. }
  apply never_bind; [eapply f_expired; exact Hb1|]. intros [b1 ex] E2.
  pose proof (br_expire _ _ _ _ _ _ Hb1 E2) as Hb2.
  apply never_bind; [destruct ex; nv|]. intros w3 E3.
  assert (B3 : w_book w3 s = b1).
  { destruct ex as [l|]; [|injection E3 as <-; apply w_book_set]. rewrite (process_out_books _ _ _ _ _ _ E3). apply w_book_set. }
  rewrite B3. apply never_bind.
  { destruct (is_full (bs_nodes b1)); [|nv]. apply never_bind; [eapply f_worst; exact Hb2|]. intros [b2 ow] _.
    apply never_bind; [nv|]. intros [wo wp] _. nv. }
  intros w4 E4.
  assert (B4 : book_reach s (w_book w4 s)).
  { destruct (is_full (bs_nodes b1)); [|injection E4 as <-; rewrite B3; exact Hb2].
    apply bind_ok in E4 as ([b2 ow] & E5 & E4). apply bind_ok in E4 as ([wo wp] & _ & E4). apply bind_ok in E4 as (u & _ & E4).
    rewrite (process_out_books _ _ _ _ _ _ E4), w_book_set. eapply br_worst; [exact Hb2|exact E5]. }
  apply never_bind; [nv|intros a _]. apply never_bind; [nv|intros slot _].
  apply never_bind; [eapply f_insert; exact B4|]. intros [[b3 h3] o3] _. nv.
Qed.

Lemma f_new_order w o oracle taker owner now limit rem :
  books_reach w -> taker = Some owner \/ taker = None ->
  never OutOfFuel (new_order w o oracle taker owner now limit rem).
Proof.
  intros Hw Htk. unfold new_order. cbv zeta. set (s := o_side o) in *. set (os := invert_side s) in *.
  apply never_bind; [eapply f_price; apply (Hw os)|]. intros [price pd] _.
  apply never_bind; [nv|]. intros [m1 id] Eg.
  apply never_bind; [nv|]. intros maxq _. apply never_bind; [nv|]. intros capb _. apply never_bind; [nv|]. intros u1 _.
  apply never_bind; [nv|]. intros capq _. apply never_bind; [nv|]. intros u2 _.
  assert (Eo : w_book (w_set_mkt w m1) os = w_book w os) by (destruct os; reflexivity).
  rewrite Eo. apply never_bind; [eapply f_iter; apply (Hw os)|]. intros items Ei.
  apply never_bind; [nv|]. intros ms Em. apply never_bind; [nv|]. intros [[[[[w2 bt] qt] tf] ra] rq] Es.
  destruct (book_reach_ok _ _ (Hw os)) as (T & Hok & Hlv & Hsd).
  rewrite (iter_all_spec _ _ now oracle Hok Hlv) in Ei. injection Ei as <-.
  apply match_loop_trace in Em as (acts & lf & Htr).
  pose proof (lt_sub _ _ _ _ _ _ _ _ _ _ _ Htr) as Hsub.
  pose proof (merged_on_book _ _ _ _ _ Hok Hsub) as Hon.
  pose proof (acts_akey_nodup _ _ _ _ _ Hok Hsub) as Hnd.
  destruct (book_apply _ _ acts Hok Hon Hnd) as (c1 & c2 & T2 & A1 & A2 & _).
  pose proof (lt_amounts _ _ _ _ _ _ Htk _ _ _ _ _ Htr) as (_ & _ & _ & _ & Ech & Ede & _).
  cbn [ms_changes ms_deletes app] in Ech, Ede.
  pose proof (settle_taker_rest _ _ _ _ _ _ _ _ _ _ Es) as [Sr2 _].
  pose proof (effects_rest _ _ _ _ _ _ _ _ (lt_effects _ _ _ _ _ _ Htk _ _ _ _ _ Htr)) as Sr1. cbn [ms_w] in Sr1.
  assert (Hbk : forall u, w_book w2 u = w_book w u).
  { intros u. rewrite (same_rest_book _ _ _ Sr2), (same_rest_book _ _ _ Sr1). destruct u; reflexivity. }
  rewrite Hbk, Ech, A1. cbn [bind]. rewrite Ede, A2. cbn [bind].
  apply never_bind; [nv|]. intros mf _. apply never_bind; [nv|]. intros rq' _. apply never_bind; [nv|]. intros q _.
  apply never_bind; [nv|]. intros u3 _.
  match goal with |- never _ (match ?x with _ => _ end) => destruct x as [t|] end; [|nv].
  apply never_bind; [apply f_post|].
  - fold s. unfold os. rewrite w_book_set_inv', Hbk. apply Hw.
  - intros [[[w4 pb] pq] mfs] _. nv.
Qed.

(** ** Cancelling *)
Lemma f_cancel w k id s t ex : books_reach w -> never OutOfFuel (book_cancel_order w k id s t ex).
Proof.
  intros Hw. unfold book_cancel_order. apply never_bind; [eapply f_remove; apply (Hw s)|]. intros [b [l|]] _; [|nv]. nv.
Qed.
Lemma cancel_books w k id s t ex w' l : books_reach w -> book_cancel_order w k id s t ex = Ok (w', l) -> books_reach w'.
Proof.
  intros Hw H. apply book_cancel_inv in H as (b & a & a' & E & _ & _ & _ & ->).
  apply (books_same (w_set_book w s b)); [|intros []; reflexivity].
  apply books_set; [exact Hw|]. eapply br_remove; [apply (Hw s)|exact E].
Qed.
Lemma f_cancel_all n : forall i w k l t so co, books_reach w -> never OutOfFuel (cancel_all_loop n i w k l t so co).
Proof.
  induction n as [|n IH]; intros i w k l t so co Hw; cbn [cancel_all_loop]; [nv|].
  apply never_bind; [nv|intros a _]. apply never_bind; [nv|intros oo _]. cbv zeta.
  destruct (oo_free oo); [apply IH; exact Hw|]. match goal with |- never _ (if ?c then _ else _) => destruct c end; [apply IH; exact Hw|].
  match goal with |- never _ (if ?c then _ else _) => destruct c end; [apply IH; exact Hw|]. destruct (l =? 0); [nv|].
  pose proof (f_cancel w k (oo_id oo) (oo_side oo) (oo_tree oo) None Hw) as N.
  destruct (book_cancel_order w k (oo_id oo) (oo_side oo) (oo_tree oo) None) as [[w' lf]|x] eqn:E.
  - apply never_bind; [nv|intros v _]. apply IH. eapply cancel_books; [exact Hw|exact E].
  - unfold never in N. destruct x; try (apply IH; exact Hw); try (apply never_err; congruence).
Qed.
Lemma f_cancel_orders w k l so co : books_reach w -> never OutOfFuel (cancel_all_orders w k l so co).
Proof. unfold cancel_all_orders. apply f_cancel_all. Qed.

(** ** Instructions *)
Lemma q_transfer t n a b c : never OutOfFuel (token_transfer t n a b c).
Proof. unfold token_transfer. nv. Qed.
Lemma q_lock_funds w k s r g : never OutOfFuel (lock_funds w k s r g).
Proof. unfold lock_funds. nv. Qed.
#[global] Hint Resolve q_transfer q_lock_funds : quiet.

Lemma f_place e s x o limit : books_reach (s_w s) -> e_oracle e <> Err OutOfFuel ->
  never OutOfFuel (place_order_ix e s x o limit).
Proof.
  intros Hw Ho. unfold place_order_ix. cbv zeta. do 5 (apply never_bind; [nv|intros ? _]).
  apply never_bind; [apply q_oracle; [apply special_fuel|exact Ho]|]. intros oc _.
  apply never_bind; [apply f_new_order; [exact Hw|left; reflexivity]|]. intros [w1 r] _. nv.
Qed.
Lemma cancel_orders_books w k l so co w' q : world_sound w -> cancel_all_orders w k l so co = Ok (w', q) -> world_sound w'.
Proof. intros Hs H. eapply wsteps_sound; [eapply cancel_orders_steps; exact H|exact Hs]. Qed.
Lemma f_edit e s x cid ex o limit : world_sound (s_w s) -> e_oracle e <> Err OutOfFuel ->
  never OutOfFuel (edit_order_ix e s x cid ex o limit).
Proof.
  intros Hw Ho. unfold edit_order_ix. apply never_bind; [nv|intros u _].
  apply never_bind; [apply f_cancel_orders; apply sound_books; exact Hw|]. intros [w q] E. cbv zeta.
  apply never_bind; [nv|intros f _]. match goal with |- never _ (if ?c then _ else _) => destruct c end; [|nv].
  apply never_bind; [nv|intros mb _]. apply f_place; [|exact Ho]. cbn [s_w s_set_w]. apply sound_books. eapply cancel_orders_books; [exact Hw|exact E].
Qed.
Lemma f_take e s x o limit : books_reach (s_w s) -> e_oracle e <> Err OutOfFuel ->
  never OutOfFuel (place_take_ix e s x o limit).
Proof.
  intros Hw Ho. unfold place_take_ix. cbv zeta. do 4 (apply never_bind; [nv|intros ? _]).
  apply never_bind; [apply q_oracle; [apply special_fuel|exact Ho]|]. intros oc _. apply never_bind; [nv|intros ? _].
  apply never_bind; [apply f_new_order; [exact Hw|right; reflexivity]|]. intros [w1 r] _. nv.
Qed.
Lemma f_multi_one w x ub uq oc now l o ba qa : books_reach w -> never OutOfFuel (multi_one w x ub uq oc now l o ba qa).
Proof.
  intros Hw. unfold multi_one, max_base_lots_from_lamports, max_quote_lots_from_lamports.
  do 3 (apply never_bind; [nv|intros ? _]). apply never_bind; [destruct (o_side o); nv|]. intros o' _.
  apply never_bind; [apply f_new_order; [exact Hw|left; reflexivity]|]. intros [w1 r] _. destruct (o_side o); nv.
Qed.
Lemma f_multi_loop os : forall w x ub uq oc now l ba qa, world_sound w -> Forall (fun o => params_sane (o_params o)) os ->
  0 <= l -> 0 <= now -> never OutOfFuel (multi_loop w x ub uq oc now l os ba qa).
Proof.
  induction os as [|o r IH]; intros w x ub uq oc now l ba qa Hw Ho Hl Hn; cbn [multi_loop]; [nv|].
  apply Forall_cons_iff in Ho as [Ho1 Ho2].
  apply never_bind; [apply f_multi_one; apply sound_books; exact Hw|]. intros [[[w1 b1] q1] i1] E.
  apply never_bind; [|intros [[[? ?] ?] ?] _; nv]. apply IH; [|exact Ho2|exact Hl|exact Hn].
  eapply wstep_sound; [|exact Hw]. eapply multi_one_steps; [exact Hw|exact Ho1|exact Hl|exact Hn|exact E].
Qed.
Lemma f_multi e s x cancel os limit : world_sound (s_w s) -> Forall (fun o => params_sane (o_params o)) os -> 0 <= limit ->
  e_oracle e <> Err OutOfFuel -> never OutOfFuel (multi_ix e s x cancel os limit).
Proof.
  intros Hw Ho Hl He. unfold multi_ix. cbv zeta. apply never_bind; [nv|intros ? _]. apply never_bind; [nv|intros now En]. apply now_u64_ok in En.
  apply never_bind; [apply q_oracle; [apply special_fuel|exact He]|]. intros oc _.
  apply never_bind.
  { destruct cancel; [|nv]. apply never_bind; [apply f_cancel_orders; apply sound_books; exact Hw|]. intros [? ?] _. nv. }
  intros w0 E0.
  assert (Hw0 : world_sound w0).
  { destruct cancel; [|injection E0 as <-; exact Hw]. apply bind_ok in E0 as ([w' q] & E & E0). injection E0 as <-.
    eapply cancel_orders_books; [exact Hw|exact E]. }
  do 2 (apply never_bind; [nv|intros ? _]). apply never_bind; [apply f_multi_loop; assumption|]. intros [[[w1 ba] qa] ids] _. nv.
Qed.

Lemma q_iter_loop n : forall h i, never OutOfFuel (heap_iter_loop n h i).
Proof. induction n as [|n IH]; intros; cbn [heap_iter_loop]; nv; apply IH. Qed.
Lemma q_consume_loop ss : forall w rem, never OutOfFuel (consume_loop w rem ss).
Proof. induction ss as [|x r IH]; intros; cbn [consume_loop]; [nv|]. apply never_bind; [unfold consume_one; nv|]. intros. apply IH. Qed.
Lemma q_consume w l ss rem : never OutOfFuel (consume_events_ix w l ss rem).
Proof.
  unfold consume_events_ix, slots_to_consume, heap_iter. apply never_bind; [|intros; apply q_consume_loop].
  apply never_bind; [apply q_iter_loop|]. intros. nv.
Qed.
Lemma q_deposit e s a k ub uq b q : never OutOfFuel (deposit_ix e s a k ub uq b q).
Proof. unfold deposit_ix. nv. Qed.
Lemma q_settle_core s k ub uq r : never OutOfFuel (settle_core s k ub uq r).
Proof. unfold settle_core. nv. Qed.
Lemma q_mints s ub uq r : never OutOfFuel (settle_mints s ub uq r).
Proof. unfold settle_mints. nv. Qed.
Lemma q_admin m a : never OutOfFuel (check_close_admin m a).
Proof. unfold check_close_admin. nv. Qed.
Lemma q_place_c s x : never OutOfFuel (place_constraints s x).
Proof. unfold place_constraints. nv. Qed.
Lemma q_u8 z : never OutOfFuel (u8_arg z). Proof. unfold u8_arg. nv. Qed.
Lemma q_u64 z : never OutOfFuel (u64_arg z). Proof. unfold u64_arg. nv. Qed.
Lemma q_i64 z : never OutOfFuel (i64_arg z). Proof. unfold i64_arg. nv. Qed.
#[global] Hint Resolve q_consume q_deposit q_settle_core q_mints q_admin q_place_c q_u8 q_u64 q_i64 : quiet.
Lemma q_args g : never OutOfFuel (check_place_args g). Proof. unfold check_place_args. nv. Qed.
Lemma q_pargs g : never OutOfFuel (check_peg_args g). Proof. unfold check_peg_args. nv. Qed.
Lemma q_order_of now g : never OutOfFuel (order_of_args now g). Proof. unfold order_of_args. nv. Qed.
Lemma q_order_of_peg m now g : never OutOfFuel (order_of_peg_args m now g).
Proof. unfold order_of_peg_args, to_post_order_type. nv. Qed.
#[global] Hint Resolve q_args q_pargs q_order_of q_order_of_peg : quiet.

Theorem exec_no_fuel e s i : world_sound (s_w s) -> e_oracle e <> Err OutOfFuel -> never OutOfFuel (exec e s i).
Proof.
  intros Hw He. pose proof (sound_books _ Hw) as Hb. unfold exec. destruct (s_closed s && needs_market i); [nv|].
  unfold exec_open. cbv zeta. destruct i.
  - do 4 (apply never_bind; [nv|intros ? _]).
    match goal with |- never _ (match ?x with _ => _ end) => destruct x; [|nv] end;
      unfold lift_id; apply never_bind; [apply f_place; assumption|intros [? ?] _; nv].
  - do 4 (apply never_bind; [nv|intros ? _]).
    match goal with |- never _ (match ?x with _ => _ end) => destruct x; [|nv] end;
      unfold lift_id; apply never_bind; [apply f_place; assumption|intros [? ?] _; nv].
  - do 6 (apply never_bind; [nv|intros ? _]).
    match goal with |- never _ (match ?x with _ => _ end) => destruct x; [|nv] end;
      unfold lift_id; apply never_bind; [apply f_edit; assumption|intros [? ?] _; nv].
  - do 6 (apply never_bind; [nv|intros ? _]).
    match goal with |- never _ (match ?x with _ => _ end) => destruct x; [|nv] end;
      unfold lift_id; apply never_bind; [apply f_edit; assumption|intros [? ?] _; nv].
  - apply never_bind; [unfold check_take_args; nv|intros ? _]. apply never_bind; [unfold take_constraints; nv|intros ? _].
    apply never_bind; [nv|intros ? _]. apply never_bind; [unfold order_of_take_args; nv|intros ? _].
    unfold lift_s. apply never_bind; [apply f_take; assumption|intros ? _; nv].
  - apply never_bind; [unfold check_multi_args; nv|intros ? E1]. apply require_ok in E1.
    apply never_bind; [nv|intros ? E2]. apply u8_arg_ok in E2.
    apply never_bind; [unfold multi_constraints; nv|intros ? _]. apply never_bind; [nv|intros ? _].
    apply never_bind; [nv|intros now _]. apply never_bind; [nv|intros bo Eb]. apply never_bind; [nv|intros ao Ea].
    rewrite forallb_app in E1. apply andb_prop in E1 as [E3 E4].
    apply never_bind; [|intros [? ?] _; nv]. apply f_multi; [exact Hw| |exact E2|exact He].
    apply Forall_app. split; [exact (orders_of_multi_sane _ _ _ _ _ _ E3 Eb)|exact (orders_of_multi_sane _ _ _ _ _ _ E4 Ea)].
  - unfold lift_w. apply never_bind; [|intros; nv]. unfold cancel_order_ix. do 3 (apply never_bind; [nv|intros ? _]).
    match goal with |- never _ (match ?x with _ => _ end) => destruct x; [|nv] end.
    apply never_bind; [apply f_cancel; exact Hb|intros [? ?] _; nv].
  - apply never_bind; [nv|intros ? _]. apply never_bind; [unfold check_owner_or_delegate; nv|intros ? _].
    apply never_bind; [apply f_cancel_orders; exact Hb|intros [? ?] _; nv].
  - apply never_bind; [nv|intros ? _]. apply never_bind; [unfold check_owner_or_delegate; nv|intros ? _].
    apply never_bind; [apply f_cancel_orders; exact Hb|intros [? ?] _; nv].
  - unfold lift_w. nv.
  - unfold lift_w. nv.
  - unfold lift_s. nv.
  - unfold lift_s, refill_ix. nv.
  - unfold lift_s, settle_funds_ix. nv.
  - unfold lift_s, settle_funds_expired_ix. nv.
  - unfold lift_s, sweep_fees_ix. nv.
  - unfold lift_w, create_account_ix. nv.
  - unfold lift_w, close_account_ix. nv.
  - unfold lift_w, set_delegate_ix. nv.
  - unfold lift_w, set_market_expired_ix. nv.
  - apply never_bind; [nv|intros ? _]. unfold lift_w, prune_orders_ix. apply never_bind; [|intros; nv].
    do 3 (apply never_bind; [nv|intros ? _]). apply never_bind; [apply f_cancel_orders; exact Hb|intros [? ?] _; nv].
  - apply never_bind; [|intros; nv]. unfold close_market_ix. do 3 (apply never_bind; [nv|intros ? _]).
    apply never_bind; [exact (f_empty _ _ (Hb Bid))|intros ? _]. apply never_bind; [exact (f_empty _ _ (Hb Ask))|intros ? _]. nv.
  - nv.
  - nv.
  - nv.
  - nv.
  - nv.
  - nv.
Qed.
