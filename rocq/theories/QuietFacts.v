(** Which functions cannot fail with a given error: [TokenError], which only token transfers
    give, and [OutOfFuel], which only the bounded recursions give. *)
From Coq Require Import ZArith List Bool Lia.
From Verif Require Import Base Nodes OrderTree BookSide Heap Market OpenOrders Order Book Instructions.
Import ListNotations.
Open Scope Z_scope.

Definition never {A} (e : err) (r : res A) : Prop := r <> Err e.

(** The two errors in question. *)
Definition special (e : err) : Prop := e = TokenError \/ e = OutOfFuel.

Lemma never_ok {A} e (a : A) : never e (Ok a).
Proof. unfold never. discriminate. Qed.
Lemma never_err {A} e e' : e' <> e -> never e (@Err A e').
Proof. unfold never. congruence. Qed.
Lemma never_bind {A B} e (r : res A) (f : A -> res B) : never e r -> (forall a, r = Ok a -> never e (f a)) -> never e (bind r f).
Proof. unfold never. intros H1 H2. destruct r as [a|e']; cbn; [apply H2; reflexivity|]. congruence. Qed.
Lemma never_require e c e' : e' <> e -> never e (require c e').
Proof. unfold require. destruct c; [intros; apply never_ok|apply never_err]. Qed.
Lemma special_not e e' : special e -> e' <> TokenError -> e' <> OutOfFuel -> e' <> e.
Proof. intros [-> | ->]; auto. Qed.

Ltac nv_err := first [assumption | discriminate | (apply special_not; [assumption|discriminate|discriminate])].
Create HintDb quiet.
Ltac nv_step :=
  cbv zeta;
  match goal with
  | |- never _ (Ok _) => apply never_ok
  | |- never _ (Err _) => apply never_err; nv_err
  | |- never _ (bind _ _) => apply never_bind; [|let a := fresh "v" in intros a _]
  | |- never _ (require _ _) => apply never_require; nv_err
  | |- never _ (massert _) => unfold massert; apply never_require; nv_err
  | |- never _ (if ?c then _ else _) => destruct c
  | |- never _ (match ?x with _ => _ end) => destruct x
  | |- never _ (let _ := ?x in _) => destruct x
  | |- _ => solve [auto with quiet]
  end.
Ltac nv := repeat nv_step.


Lemma never_unwrap {A} e (o : option A) : special e -> never e (unwrap o).
Proof. intros H. unfold unwrap. nv. Qed.
Lemma never_chk e p z : special e -> never e (chk p z).
Proof. intros H. unfold chk. nv. Qed.
#[global] Hint Resolve never_unwrap never_chk : quiet.
Lemma never_chk_i64 e z : special e -> never e (chk_i64 z). Proof. apply never_chk. Qed.
Lemma never_chk_u64 e z : special e -> never e (chk_u64 z). Proof. apply never_chk. Qed.
Lemma never_chk_u128 e z : special e -> never e (chk_u128 z). Proof. apply never_chk. Qed.
Lemma never_chk_i128 e z : special e -> never e (chk_i128 z). Proof. apply never_chk. Qed.
#[global] Hint Resolve never_chk_i64 never_chk_u64 never_chk_u128 never_chk_i128 : quiet.
Lemma never_div e a b : special e -> never e (div_i64 a b).
Proof. intros H. unfold div_i64. nv. Qed.
#[global] Hint Resolve never_div : quiet.

Section Plain.
Variable e : err.
Hypothesis He : special e.

Lemma q_fixed_price_data p : never e (fixed_price_data p). Proof. unfold fixed_price_data. nv. Qed.
Lemma q_fixed_price_lots p : never e (fixed_price_lots p). Proof. unfold fixed_price_lots. nv. Qed.
Lemma q_node_exp n : never e (node_earliest_expiry n). Proof. unfold node_earliest_expiry. nv. Qed.
Lemma q_get_node a h : never e (get_node a h). Proof. unfold get_node. nv. Qed.
Hint Resolve q_get_node : quiet.
Lemma q_get_node_unwrap a h : never e (get_node_unwrap a h). Proof. unfold get_node_unwrap. nv. Qed.
Lemma q_tree_remove a h : never e (tree_remove a h). Proof. unfold tree_remove. nv. Qed.
Hint Resolve q_tree_remove q_get_node_unwrap : quiet.
Lemma q_tree_remove_unwrap a h : never e (tree_remove_unwrap a h). Proof. unfold tree_remove_unwrap. nv. Qed.
Lemma q_tree_insert a v : never e (tree_insert a v). Proof. unfold tree_insert. nv. Qed.
Lemma q_update_parent st : forall a x y, never e (update_parent_earliest_expiry a st x y).
Proof. induction st as [|[h b] r IH]; intros; cbn [update_parent_earliest_expiry]; nv; apply IH. Qed.
Lemma q_node_key n : never e (node_key n). Proof. unfold node_key. nv. Qed.
Lemma q_key_fixed k p : never e (key_for_fixed_price k p).
Proof. unfold key_for_fixed_price. nv. apply q_fixed_price_data. Qed.
Lemma q_fixed_to_result f now : never e (fixed_to_result f now).
Proof. unfold fixed_to_result. nv. apply q_fixed_price_lots. Qed.
Hint Resolve q_key_fixed q_fixed_to_result : quiet.
Lemma q_rank s f p r now o : never e (rank_orders s f p r now o).
Proof. unfold rank_orders. nv. Qed.
Lemma q_set_qty b h q : never e (bs_set_qty b h q). Proof. unfold bs_set_qty. nv. Qed.
Lemma q_heap_idx i : never e (heap_idx i). Proof. unfold heap_idx. nv. Qed.
Hint Resolve q_heap_idx : quiet.
Lemma q_push_back h ev : never e (push_back h ev). Proof. unfold push_back. nv. Qed.
Lemma q_delete_slot h s : never e (delete_slot h s). Proof. unfold delete_slot. nv. Qed.
Lemma q_gen_order_id m s p : never e (gen_order_id m s p). Proof. unfold gen_order_id. nv. Qed.
Lemma q_max_base m : never e (max_base_lots m). Proof. unfold max_base_lots. nv. Qed.
Lemma q_max_quote m : never e (max_quote_lots m). Proof. unfold max_quote_lots. nv. Qed.
Lemma q_max_lots l n : never e (max_lots_from_lamports l n). Proof. unfold max_lots_from_lamports. nv. Qed.
Lemma q_subtract m q : never e (subtract_taker_fees m q). Proof. unfold subtract_taker_fees. nv. Qed.
Lemma q_ceil n : never e (ceil_fee_division n). Proof. unfold ceil_fee_division. nv. Qed.
Lemma q_unsigned m a : never e (unsigned_maker_fees_floor m a). Proof. unfold unsigned_maker_fees_floor. nv. Qed.
Hint Resolve q_ceil q_unsigned : quiet.
Lemma q_floor m a : never e (maker_fees_floor m a). Proof. unfold maker_fees_floor. nv. Qed.
Lemma q_rebate m a : never e (maker_rebate_floor m a). Proof. unfold maker_rebate_floor. nv. Qed.
Lemma q_maker_ceil t m a : (forall z, never e (t z)) -> never e (maker_fees_ceil t m a).
Proof. intros H. unfold maker_fees_ceil. nv. Qed.
Lemma q_taker_ceil t m a : (forall z, never e (t z)) -> never e (taker_fees_ceil t m a).
Proof. intros H. unfold taker_fees_ceil. nv. Qed.
Hint Resolve q_floor q_rebate q_maker_ceil q_taker_ceil : quiet.
Lemma q_next_slot a : never e (next_order_slot a). Proof. unfold next_order_slot. nv. Qed.
Lemma q_order_at a s : never e (order_at a s). Proof. unfold order_at. nv. Qed.
Hint Resolve q_order_at : quiet.
Lemma q_remove_order a s q p : never e (remove_order a s q p). Proof. unfold remove_order. nv. Qed.
Hint Resolve q_remove_order : quiet.
Lemma q_cancel a s q m : never e (ooa_cancel_order a s q m).
Proof. unfold ooa_cancel_order. nv. Qed.
Lemma q_add a s t l c p : never e (add_order a s t l c p). Proof. unfold add_order. nv. Qed.
Lemma q_maker a m f : never e (execute_maker a m f).
Proof. unfold execute_maker. nv. Qed.
Lemma q_taker a m s b q t r : never e (execute_taker a m s b q t r). Proof. unfold execute_taker. nv. Qed.
Lemma q_load k l : never e (acct_load k l). Proof. unfold acct_load. nv. Qed.
Hint Resolve q_load : quiet.
Lemma q_load_rem w t k : never e (load_remaining w t k). Proof. unfold load_remaining. nv. Qed.
Hint Resolve q_load_rem q_cancel q_maker q_taker q_push_back : quiet.
Lemma q_out w t o r x : never e (process_out_event w t o r x). Proof. unfold process_out_event. nv. Qed.
Lemma q_fill w t r n f : never e (process_fill_event w t r n f). Proof. unfold process_fill_event. nv. Qed.
Hint Resolve q_out q_fill : quiet.
Lemma q_invalid t o r s now i ms : never e (match_invalid t o r s now i ms). Proof. unfold match_invalid. nv. Qed.
Lemma q_match_fill o t ow r now i mb mq dec rb s : never e (match_fill o t ow r now i mb mq dec rb s).
Proof. unfold match_fill. nv. Qed.
Hint Resolve q_invalid q_match_fill : quiet.
Lemma q_match o p t ow r now items : forall s, never e (match_loop o p t ow r now items s).
Proof. induction items as [|i rest IH]; intros s; cbn [match_loop]; [nv|]. nv; apply IH. Qed.
Lemma q_changes l : forall b, never e (apply_changes b l).
Proof. induction l as [|[h q] r IH]; intros b; cbn [apply_changes]; nv; first [apply q_set_qty|apply IH]. Qed.
Lemma q_settle_taker o t mq s : never e (settle_taker o t mq s).
Proof. unfold settle_taker. nv. Qed.
Lemma q_slide s b l : never e (post_only_slide_limit s b l). Proof. unfold post_only_slide_limit. nv. Qed.
Lemma q_tok_load t k : never e (tok_load t k). Proof. unfold tok_load. nv. Qed.
Hint Resolve q_tok_load : quiet.
Lemma q_check_mint t u v : never e (check_mint t u v). Proof. unfold check_mint. nv. Qed.
Lemma q_now x : never e (now_u64 x). Proof. unfold now_u64. nv. Qed.
Lemma q_oracle m x : never e (e_oracle x) -> never e (oracle_input m x).
Proof. intros H. unfold oracle_input. nv. Qed.
Lemma q_params t p : never e (params_of t p). Proof. unfold params_of, to_post_order_type. nv. Qed.
Hint Resolve q_params : quiet.
Lemma q_orders_of now t sd l : forall i, never e (orders_of_multi now t sd i l).
Proof. induction l as [|g r IH]; intros i; cbn [orders_of_multi]; nv; apply IH. Qed.
End Plain.

#[global] Hint Resolve q_fixed_price_data q_fixed_price_lots q_node_exp q_get_node q_get_node_unwrap q_tree_remove q_tree_remove_unwrap
  q_tree_insert q_update_parent q_node_key q_key_fixed q_fixed_to_result q_rank q_set_qty q_heap_idx q_push_back q_delete_slot
  q_gen_order_id q_max_base q_max_quote q_max_lots q_subtract q_ceil q_unsigned q_floor q_rebate q_maker_ceil q_taker_ceil q_next_slot
  q_order_at q_remove_order q_cancel q_add q_maker q_taker q_load q_load_rem q_out q_fill q_invalid q_match_fill q_match q_changes
  q_settle_taker q_slide q_tok_load q_check_mint q_now q_oracle q_params q_orders_of : quiet.

(** [TokenError] comes from token transfers only. *)
Lemma special_tok : special TokenError. Proof. left; reflexivity. Qed.
#[global] Hint Resolve special_tok : quiet.
Ltac nq := repeat first [nv_step | progress (eauto with quiet)].

Lemma t_min_max n : forall a b h, never TokenError (leaf_min_max_loop n a b h).
Proof. induction n as [|n IH]; intros; cbn [leaf_min_max_loop]; nv; apply IH. Qed.
Lemma t_find_worst a r : never TokenError (find_worst a r).
Proof. unfold find_worst, leaf_min_max. nv; apply t_min_max. Qed.
Lemma t_remove_walk n : forall a k p c b st, never TokenError (remove_walk n a k p c b st).
Proof. induction n as [|n IH]; intros; cbn [remove_walk]; nv; apply IH. Qed.
#[global] Hint Resolve t_find_worst t_remove_walk : quiet.
Lemma t_remove_by_key a r k : never TokenError (remove_by_key a r k).
Proof. unfold remove_by_key. nv. Qed.
Lemma t_insert_walk n : forall a r nl ph st, never TokenError (insert_walk n a r nl ph st).
Proof. induction n as [|n IH]; intros; cbn [insert_walk]; nv; apply IH. Qed.
#[global] Hint Resolve t_remove_by_key t_insert_walk : quiet.
Lemma t_insert_leaf a r nl : never TokenError (insert_leaf a r nl).
Proof. unfold insert_leaf. nv. Qed.
Lemma t_earliest n : forall a h, never TokenError (find_earliest_loop n a h).
Proof. induction n as [|n IH]; intros; cbn [find_earliest_loop]; nv; apply IH. Qed.
#[global] Hint Resolve t_insert_leaf t_earliest : quiet.
Lemma t_find_earliest a r : never TokenError (find_earliest_expiry a r).
Proof. unfold find_earliest_expiry. nv. Qed.
#[global] Hint Resolve t_find_earliest : quiet.
Lemma t_remove_one a r now : never TokenError (tree_remove_one_expired a r now).
Proof. unfold tree_remove_one_expired. nv. Qed.
Lemma t_leftmost n : forall a h st, never TokenError (find_leftmost n a h st).
Proof. induction n as [|n IH]; intros; cbn [find_leftmost]; nv; apply IH. Qed.
#[global] Hint Resolve t_remove_one t_leftmost : quiet.
Lemma t_iter_new a r : never TokenError (tree_iter_new a r).
Proof. unfold tree_iter_new. nv. Qed.
Lemma t_iter_next a it : never TokenError (tree_iter_next a it).
Proof. unfold tree_iter_next. nv. Qed.
#[global] Hint Resolve t_iter_new t_iter_next : quiet.
Lemma t_skip n : forall a o p it, never TokenError (skip_pegged n a o p it).
Proof. induction n as [|n IH]; intros; cbn [skip_pegged]; nv; apply IH. Qed.
#[global] Hint Resolve t_skip : quiet.
Lemma t_bs_next bs now o it : never TokenError (bs_iter_next bs now o it).
Proof. unfold bs_iter_next. nv. Qed.
#[global] Hint Resolve t_bs_next : quiet.
Lemma t_bs_collect n : forall bs now o it, never TokenError (bs_iter_collect n bs now o it).
Proof. induction n as [|n IH]; intros; cbn [bs_iter_collect]; nv; apply IH. Qed.
Lemma t_iter_all bs now o : never TokenError (iter_all bs now o).
Proof. unfold iter_all, bs_iter_new. nv. apply t_bs_collect. Qed.
#[global] Hint Resolve t_iter_all : quiet.
Lemma t_best bs now o : never TokenError (best_price bs now o).
Proof. unfold best_price, iter_valid. nv. Qed.
Lemma t_bs_remove bs t k : never TokenError (bs_remove_by_key bs t k).
Proof. unfold bs_remove_by_key. nv. Qed.
Lemma t_bs_insert bs t l : never TokenError (bs_insert_leaf bs t l).
Proof. unfold bs_insert_leaf. nv. Qed.
#[global] Hint Resolve t_best t_bs_remove t_bs_insert : quiet.
Lemma t_bs_one bs t now : never TokenError (bs_remove_one_expired bs t now).
Proof. unfold bs_remove_one_expired. nv. Qed.
Lemma t_bs_worst bs now o : never TokenError (bs_remove_worst bs now o).
Proof. unfold bs_remove_worst. nv. Qed.
Lemma t_deletes l : forall b, never TokenError (apply_deletes b l).
Proof. induction l as [|[t k] r IH]; intros b; cbn [apply_deletes]; nv; apply IH. Qed.
#[global] Hint Resolve t_bs_one t_bs_worst t_deletes : quiet.
Lemma t_price_for s b now o p t : never TokenError (price_for_order_type s b now o p t).
Proof. unfold price_for_order_type. nv. Qed.
#[global] Hint Resolve t_price_for : quiet.
Lemma t_order_price o b now oc : never TokenError (order_price o b now oc).
Proof. unfold order_price. nv. Qed.
Lemma t_post w o t ow r oc now id pl p q tg : never TokenError (post_order w o t ow r oc now id pl p q tg).
Proof. unfold post_order. nv. Qed.
#[global] Hint Resolve t_order_price t_post : quiet.
Lemma t_new_order w o oc t ow now l r : never TokenError (new_order w o oc t ow now l r).
Proof. unfold new_order. nv. Qed.
Lemma t_book_cancel w k id s t ex : never TokenError (book_cancel_order w k id s t ex).
Proof. unfold book_cancel_order. nv. Qed.
#[global] Hint Resolve t_new_order t_book_cancel : quiet.
Lemma t_cancel_all n : forall i w k l t so co, never TokenError (cancel_all_loop n i w k l t so co).
Proof.
  induction n as [|n IH]; intros; cbn [cancel_all_loop]; [nv|].
  apply never_bind; [nv|intros a _]. apply never_bind; [nv|intros oo _]. cbv zeta.
  destruct (oo_free oo); [apply IH|]. match goal with |- never _ (if ?c then _ else _) => destruct c end; [apply IH|].
  match goal with |- never _ (if ?c then _ else _) => destruct c end; [apply IH|]. destruct (l =? 0); [nv|].
  pose proof (t_book_cancel w k (oo_id oo) (oo_side oo) (oo_tree oo) None) as N.
  destruct (book_cancel_order w k (oo_id oo) (oo_side oo) (oo_tree oo) None) as [[w' lf]|x].
  - apply never_bind; [nv|intros v _]. apply IH.
  - unfold never in N. destruct x; try apply IH; try (apply never_err; congruence).
Qed.
Lemma t_multi_one w x ub uq oc now l o ba qa : never TokenError (multi_one w x ub uq oc now l o ba qa).
Proof. unfold multi_one, max_base_lots_from_lamports, max_quote_lots_from_lamports. nv. Qed.
Lemma t_multi_loop os : forall w x ub uq oc now l ba qa, never TokenError (multi_loop w x ub uq oc now l os ba qa).
Proof. induction os as [|o r IH]; intros; cbn [multi_loop]; nv; first [apply t_multi_one|apply IH]. Qed.
