(** Model of /repo/programs/openbook-v2/src/state/orderbook/bookside.rs and
    bookside_iterator.rs. *)
From Coq Require Import ZArith List Bool.
From Verif Require Import Base Nodes OrderTree.
Import ListNotations.
Open Scope Z_scope.

(** bookside.rs 31-36 *)
Record bookside : Type := mkBookside {
  bs_fixed : root;
  bs_pegged : root;
  bs_nodes : arena }.

Definition bs_root (bs : bookside) (t : otree_id) : root :=
  match t with Fixed => bs_fixed bs | OraclePegged => bs_pegged bs end.
Definition bs_set (bs : bookside) (t : otree_id) (a : arena) (r : root) : bookside :=
  match t with
  | Fixed => mkBookside r (bs_pegged bs) a
  | OraclePegged => mkBookside (bs_fixed bs) r a
  end.

(** A zeroed account after [Orderbook::init] (book.rs 37-40). *)
Definition bookside_init (s : side) : bookside :=
  mkBookside (mkRoot 0 0) (mkRoot 0 0) (mkArena s 0 0 0 (fun _ => NUninit)).

Definition bs_side (bs : bookside) : side := a_side (bs_nodes bs).

(** bookside.rs 92-99 *)
Definition bs_insert_leaf (bs : bookside) (t : otree_id) (l : leaf)
  : res (bookside * Z * option leaf) :=
  '(a, r, h, old) <- insert_leaf (bs_nodes bs) (bs_root bs t) l ;;
  Ok (bs_set bs t a r, h, old).

(** bookside.rs 145-152 *)
Definition bs_remove_by_key (bs : bookside) (t : otree_id) (key : Z)
  : res (bookside * option leaf) :=
  '(a, r, o) <- remove_by_key (bs_nodes bs) (bs_root bs t) key ;;
  Ok (bs_set bs t a r, o).

(** bookside.rs 127-143 *)
Definition bs_remove_one_expired (bs : bookside) (t : otree_id) (now : Z)
  : res (bookside * option leaf) :=
  '(a, r, o) <- tree_remove_one_expired (bs_nodes bs) (bs_root bs t) now ;;
  let bs1 := bs_set bs t a r in
  match o with
  | Some l => Ok (bs1, Some l)
  | None =>
      let t' := match t with Fixed => OraclePegged | OraclePegged => Fixed end in
      '(a', r', o') <- tree_remove_one_expired (bs_nodes bs1) (bs_root bs1 t') now ;;
      Ok (bs_set bs1 t' a' r', o')
  end.

(** bookside_iterator.rs 46-51 *)
Inductive ostate : Type := Valid | Invalid | Skipped.
Definition ostate_eqb (a b : ostate) : bool :=
  match a, b with
  | Valid, Valid | Invalid, Invalid | Skipped, Skipped => true
  | _, _ => false
  end.

(** bookside_iterator.rs 3-8 *)
Record item : Type := mkItem {
  im_tree : otree_id;
  im_handle : Z;
  im_leaf : leaf;
  im_price : Z;
  im_state : ostate }.

(** bookside_iterator.rs 11-13 *)
Definition is_valid (i : item) : bool := ostate_eqb (im_state i) Valid.

(** [i64::saturating_add] *)
Definition saturating_add_i64 (a b : Z) : Z := Z.max i64_min (Z.min i64_max (a + b)).

(** bookside_iterator.rs 59-75 *)
Definition oracle_pegged_price (oracle : Z) (l : leaf) (s : side) : ostate * Z :=
  let offset := oracle_pegged_price_offset (leaf_price_data l) in
  let price := saturating_add_i64 oracle offset in
  if (1 <=? price) && (price <? i64_max) then
    if negb (lf_peg_limit l =? -1) && is_price_better s price (lf_peg_limit l)
    then (Invalid, price) else (Valid, price)
  else (Skipped, Z.max price 1).

(** bookside_iterator.rs 80-87: [(key as u64)] are the low 64 bits. *)
Definition key_for_fixed_price (key price : Z) : res Z :=
  _ <- massert (1 <=? price) ;;
  pd <- fixed_price_data price ;;
  Ok (Z.lor (Z.shiftl pd 64) (as_u64 key)).

(** bookside_iterator.rs 90-106 *)
Definition fixed_to_result (f : Z * leaf) (now : Z) : res item :=
  let (h, l) := f in
  p <- fixed_price_lots (leaf_price_data l) ;;
  Ok (mkItem Fixed h l p (if leaf_is_expired l now then Invalid else Valid)).

(** bookside_iterator.rs 109-124 *)
Definition pegged_to_result (h : Z) (l : leaf) (price : Z) (st : ostate) (now : Z) : item :=
  mkItem OraclePegged h l price (if leaf_is_expired l now then Invalid else st).

(** bookside_iterator.rs 129-165 *)
Definition rank_orders (s : side) (fixed pegged : option (Z * leaf)) (return_worse : bool)
  (now : Z) (oracle : option Z) : res (option item) :=
  let pegged' :=
    match oracle, pegged with
    | Some op, Some (h, l) =>
        let (st, p) := oracle_pegged_price op l s in Some (h, l, p, st)
    | _, _ => None
    end in
  match fixed, pegged' with
  | Some f, Some (h, l, p, st) =>
      k <- key_for_fixed_price (lf_key l) p ;;
      let fk := lf_key (snd f) in
      let better := match s with Bid => k <? fk | Ask => fk <? k end in
      if xorb better return_worse
      then i <- fixed_to_result f now ;; Ok (Some i)
      else Ok (Some (pegged_to_result h l p st now))
  | None, Some (h, l, p, st) => Ok (Some (pegged_to_result h l p st now))
  | Some f, None => i <- fixed_to_result f now ;; Ok (Some i)
  | None, None => Ok None
  end.

(** bookside_iterator.rs 24-29; the book side, clock and oracle price are parameters. *)
Record bs_iter : Type := mkBsIter { bi_fixed : tree_iter; bi_pegged : tree_iter }.

(** bookside_iterator.rs 32-43 *)
Definition bs_iter_new (bs : bookside) : res bs_iter :=
  f <- tree_iter_new (bs_nodes bs) (bs_fixed bs) ;;
  p <- tree_iter_new (bs_nodes bs) (bs_pegged bs) ;;
  Ok (mkBsIter f p).

(** bookside_iterator.rs 177-184: the loop that skips pegged orders.  It is entered
    with the peeked order; each round replaces it by what [next()] returns. *)
Fixpoint skip_pegged (fuel : nat) (a : arena) (oracle : Z) (o_peek : option (Z * leaf))
  (it : tree_iter) : res (option (Z * leaf) * tree_iter) :=
  match fuel with
  | O => Err OutOfFuel
  | S n =>
      match o_peek with
      | None => Ok (None, it)
      | Some (h, l) =>
          match fst (oracle_pegged_price oracle l (a_side a)) with
          | Skipped => '(o, it') <- tree_iter_next a it ;; skip_pegged n a oracle o it'
          | _ => Ok (Some (h, l), it)
          end
      end
  end.

(** bookside_iterator.rs 170-205 *)
Definition bs_iter_next (bs : bookside) (now : Z) (oracle : option Z) (it : bs_iter)
  : res (option item * bs_iter) :=
  let a := bs_nodes bs in
  '(o_peek, pit) <-
     match oracle with
     | Some op => skip_pegged tree_fuel a op (tree_iter_peek (bi_pegged it)) (bi_pegged it)
     | None => Ok (None, bi_pegged it)
     end ;;
  let f_peek := tree_iter_peek (bi_fixed it) in
  o <- rank_orders (a_side a) f_peek o_peek false now oracle ;;
  match o with
  | None => Ok (None, mkBsIter (bi_fixed it) pit)
  | Some i =>
      match im_tree i with
      | Fixed => '(_, fit) <- tree_iter_next a (bi_fixed it) ;; Ok (Some i, mkBsIter fit pit)
      | OraclePegged => '(_, pit') <- tree_iter_next a pit ;; Ok (Some i, mkBsIter (bi_fixed it) pit')
      end
  end.

Fixpoint bs_iter_collect (fuel : nat) (bs : bookside) (now : Z) (oracle : option Z) (it : bs_iter)
  : res (list item) :=
  match fuel with
  | O => Err OutOfFuel
  | S n =>
      '(o, it') <- bs_iter_next bs now oracle it ;;
      match o with
      | None => Ok []
      | Some i => rest <- bs_iter_collect n bs now oracle it' ;; Ok (i :: rest)
      end
  end.

(** bookside.rs 58-64: [iter_all_including_invalid], collected.  The code consumes the
    iterator lazily while the book side is unchanged; collecting first is equivalent
    because iteration cannot fail on a well-formed book side. *)
Definition iter_all (bs : bookside) (now : Z) (oracle : option Z) : res (list item) :=
  it <- bs_iter_new bs ;; bs_iter_collect tree_fuel bs now oracle it.

(** bookside.rs 49-55 *)
Definition iter_valid (bs : bookside) (now : Z) (oracle : option Z) : res (list item) :=
  l <- iter_all bs now oracle ;; Ok (filter is_valid l).

(** bookside.rs 177-183 *)
Definition best_price (bs : bookside) (now : Z) (oracle : option Z) : res (option Z) :=
  l <- iter_valid bs now oracle ;;
  Ok (match l with [] => None | i :: _ => Some (im_price i) end).

(** bookside.rs 86-90 *)
Definition bs_is_empty (bs : bookside) : res bool :=
  f <- tree_iter_all (bs_nodes bs) (bs_fixed bs) ;;
  p <- tree_iter_all (bs_nodes bs) (bs_pegged bs) ;;
  Ok (match f, p with [], [] => true | _, _ => false end).

(** bookside.rs 102-123 *)
Definition bs_remove_worst (bs : bookside) (now : Z) (oracle : option Z)
  : res (bookside * option (leaf * Z)) :=
  wf <- find_worst (bs_nodes bs) (bs_fixed bs) ;;
  wp <- find_worst (bs_nodes bs) (bs_pegged bs) ;;
  o <- rank_orders (bs_side bs) wf wp true now oracle ;;
  match o with
  | None => Ok (bs, None)
  | Some w =>
      '(bs', ol) <- bs_remove_by_key bs (im_tree w) (lf_key (im_leaf w)) ;;
      match ol with
      | None => Ok (bs', None)
      | Some l => Ok (bs', Some (l, im_price w))
      end
  end.

(** bookside.rs 159-174: quantity an order at [limit] can match. *)
Fixpoint quantity_at_price_loop (s : side) (limit sum : Z) (l : list item) : res Z :=
  match l with
  | [] => Ok sum
  | i :: r =>
      if is_price_better s limit (im_price i) then Ok sum
      else sum' <- chk_i64 (sum + lf_qty (im_leaf i)) ;; quantity_at_price_loop s limit sum' r
  end.
Definition quantity_at_price (bs : bookside) (limit now oracle : Z) : res Z :=
  l <- iter_valid bs now (Some oracle) ;; quantity_at_price_loop (bs_side bs) limit 0 l.

(** bookside.rs 187-196 *)
Fixpoint impact_price_loop (q sum : Z) (l : list item) : res (option Z) :=
  match l with
  | [] => Ok None
  | i :: r =>
      sum' <- chk_i64 (sum + lf_qty (im_leaf i)) ;;
      if q <=? sum' then Ok (Some (im_price i)) else impact_price_loop q sum' r
  end.
Definition impact_price (bs : bookside) (q now oracle : Z) : res (option Z) :=
  l <- iter_valid bs now (Some oracle) ;; impact_price_loop q 0 l.

(** Setting the quantity of an order found by the iterator: book.rs 329-336. *)
Definition bs_set_qty (bs : bookside) (h q : Z) : res bookside :=
  n <- get_node_unwrap (bs_nodes bs) h ;;
  match n with
  | NLeaf l => Ok (mkBookside (bs_fixed bs) (bs_pegged bs)
                     (set_node (bs_nodes bs) h (NLeaf (lf_set_qty l q))))
  | _ => Err Panic
  end.
