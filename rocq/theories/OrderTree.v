(** Model of /repo/programs/openbook-v2/src/state/orderbook/ordertree.rs and
    ordertree_iterator.rs.

    The node array is a total function on handles; an access at or beyond
    [MAX_ORDERTREE_NODES] panics.  Loops that walk the tree recurse on fuel. *)
From Coq Require Import ZArith List Bool.
From Verif Require Import Base Nodes.
Import ListNotations.
Open Scope Z_scope.

(** ordertree.rs 10 *)
Definition MAX_NODES : Z := 1024.
Definition tree_fuel : nat := Z.to_nat 1025.

(** ordertree.rs 39-42 *)
Record root : Type := mkRoot { r_node : Z; r_count : Z }.

(** ordertree.rs 46-54 *)
Definition root_handle (r : root) : option Z :=
  if r_count r =? 0 then None else Some (r_node r).

(** ordertree.rs 60-68; [order_tree_type] (Bids/Asks) is the [side]. *)
Record arena : Type := mkArena {
  a_side : side;
  a_bump : Z;
  a_flen : Z;
  a_fhead : Z;
  a_nodes : Z -> node }.

Definition set_node (a : arena) (h : Z) (n : node) : arena :=
  mkArena (a_side a) (a_bump a) (a_flen a) (a_fhead a) (upd (a_nodes a) h n).

Definition in_bounds (h : Z) : bool := (0 <=? h) && (h <? MAX_NODES).

(** ordertree.rs 97-104: panics out of bounds, [None] unless inner or leaf. *)
Definition get_node (a : arena) (h : Z) : res (option node) :=
  if in_bounds h then
    Ok (match a_nodes a h with
        | NInner i => Some (NInner i)
        | NLeaf l => Some (NLeaf l)
        | _ => None
        end)
  else Err Panic.

Definition get_node_unwrap (a : arena) (h : Z) : res node :=
  o <- get_node a h ;; unwrap o.

(** ordertree.rs 173-192 *)
Fixpoint leaf_min_max_loop (fuel : nat) (a : arena) (find_max : bool) (h : Z)
  : res (option (Z * leaf)) :=
  match fuel with
  | O => Err OutOfFuel
  | S n =>
      o <- get_node a h ;;
      match o with
      | Some (NInner i) => leaf_min_max_loop n a find_max (in_child i find_max)
      | Some (NLeaf l) => Ok (Some (h, l))
      | _ => Ok None
      end
  end.

Definition leaf_min_max (a : arena) (find_max : bool) (r : root) : res (option (Z * leaf)) :=
  match root_handle r with
  | None => Ok None
  | Some h => leaf_min_max_loop tree_fuel a find_max h
  end.

(** ordertree.rs 110-115 *)
Definition find_worst (a : arena) (r : root) : res (option (Z * leaf)) :=
  match a_side a with
  | Bid => leaf_min_max a false r
  | Ask => leaf_min_max a true r
  end.

(** ordertree.rs 254-272 *)
Definition tree_remove (a : arena) (h : Z) : res (arena * option node) :=
  o <- get_node a h ;;
  match o with
  | None => Ok (a, None)
  | Some v =>
      let freed := if a_flen a =? 0 then NLastFree (a_fhead a) else NFree (a_fhead a) in
      Ok (mkArena (a_side a) (a_bump a) (a_flen a + 1) h (upd (a_nodes a) h freed), Some v)
  end.

Definition tree_remove_unwrap (a : arena) (h : Z) : res (arena * node) :=
  '(a', o) <- tree_remove a h ;; n <- unwrap o ;; Ok (a', n).

(** ordertree.rs 275-306 *)
Definition tree_insert (a : arena) (v : node) : res (arena * Z) :=
  if a_flen a =? 0 then
    _ <- require ((a_bump a <? MAX_NODES) && (a_bump a <? u32_max)) SomeError ;;
    Ok (mkArena (a_side a) (a_bump a + 1) (a_flen a) (a_fhead a)
          (upd (a_nodes a) (a_bump a) v), a_bump a)
  else
    let h := a_fhead a in
    _ <- massert (in_bounds h) ;;
    match a_nodes a h with
    | NFree next =>
        _ <- massert (1 <? a_flen a) ;;
        Ok (mkArena (a_side a) (a_bump a) (a_flen a - 1) next (upd (a_nodes a) h v), h)
    | NLastFree next =>
        _ <- massert (a_flen a =? 1) ;;
        Ok (mkArena (a_side a) (a_bump a) (a_flen a - 1) next (upd (a_nodes a) h v), h)
    | _ => Err Panic
    end.

(** ordertree.rs 399-401 *)
Definition is_full (a : arena) : bool := (a_flen a <=? 1) && (MAX_NODES - 1 <=? a_bump a).

(** ordertree.rs 407-424.  The stack is a list whose head is the top, so the
    reversed iteration of the code goes from the head on. *)
Fixpoint update_parent_earliest_expiry (a : arena) (stack : list (Z * bool))
  (outdated new : Z) : res arena :=
  match stack with
  | [] => Ok a
  | (h, b) :: rest =>
      n <- get_node_unwrap a h ;;
      match n with
      | NInner p =>
          if in_exp p b =? outdated then
            let p' := in_set_exp p b new in
            update_parent_earliest_expiry (set_node a h (NInner p')) rest
              (inner_earliest_expiry p) (inner_earliest_expiry p')
          else Ok a
      | _ => Err Panic
      end
  end.

(** ordertree.rs 217-234: walk down to the leaf that may have the key; returns
    parent, child, crit bit and the stack, or [None] if the leaf has another key. *)
Fixpoint remove_walk (fuel : nat) (a : arena) (key : Z) (parent child : Z) (b : bool)
  (stack : list (Z * bool)) : res (option (Z * Z * bool * list (Z * bool))) :=
  match fuel with
  | O => Err OutOfFuel
  | S n =>
      nd <- get_node_unwrap a child ;;
      match nd with
      | NInner i =>
          let (c', b') := walk_down i key in
          remove_walk n a key child c' b' ((child, b') :: stack)
      | NLeaf l => if lf_key l =? key then Ok (Some (parent, child, b, stack)) else Ok None
      | _ => Err Panic
      end
  end.

(** ordertree.rs 194-251 *)
Definition remove_by_key (a : arena) (r : root) (key : Z)
  : res (arena * root * option leaf) :=
  match root_handle r with
  | None => Ok (a, r, None)
  | Some rh =>
      nd <- get_node_unwrap a rh ;;
      match nd with
      | NLeaf l =>
          if lf_key l =? key then
            _ <- massert (r_count r =? 1) ;;
            '(a', _) <- tree_remove_unwrap a rh ;;
            Ok (a', mkRoot 0 0, Some l)
          else Ok (a, r, None)
      | NInner i =>
          let (c, b) := walk_down i key in
          o <- remove_walk tree_fuel a key rh c b [(rh, b)] ;;
          match o with
          | None => Ok (a, r, None)
          | Some (parent, child, b, stack) =>
              pn <- get_node_unwrap a parent ;;
              match pn with
              | NInner pi =>
                  let other := in_child pi (negb b) in
                  '(a1, other_contents) <- tree_remove_unwrap a other ;;
                  new_expiry <- node_earliest_expiry other_contents ;;
                  _ <- get_node_unwrap a1 parent ;;
                  let a2 := set_node a1 parent other_contents in
                  cnt <- chk (in_range 0 u32_max) (r_count r - 1) ;;
                  '(a3, removed) <- tree_remove_unwrap a2 child ;;
                  match removed with
                  | NLeaf l =>
                      a4 <- update_parent_earliest_expiry a3 (tl stack) (leaf_expiry l) new_expiry ;;
                      Ok (a4, mkRoot (r_node r) cnt, Some l)
                  | _ => Err Panic
                  end
              | _ => Err Panic
              end
          end
      | _ => Err Panic
      end
  end.

(** ordertree.rs 106-108 *)
Definition tree_remove_worst (a : arena) (r : root) : res (arena * root * option leaf) :=
  o <- find_worst a r ;;
  match o with
  | None => Ok (a, r, None)
  | Some (_, l) => remove_by_key a r (lf_key l)
  end.

Definition node_key (n : node) : res Z :=
  match n with NInner i => Ok (in_key i) | NLeaf l => Ok (lf_key l) | _ => Err Panic end.

(** ordertree.rs 308-397: the loop that finds the place for the new leaf. *)
Fixpoint insert_walk (fuel : nat) (a : arena) (r : root) (nl : leaf) (ph : Z)
  (stack : list (Z * bool)) : res (arena * root * Z * option leaf) :=
  match fuel with
  | O => Err OutOfFuel
  | S n =>
      pc <- get_node_unwrap a ph ;;
      pkey <- node_key pc ;;
      let shared := leading_zeros128 (Z.lxor pkey (lf_key nl)) in
      let descend :=
        match pc with
        | NInner i => if in_prefix i <=? shared then Some i else None
        | _ => None
        end in
      let clobber :=
        match pc with
        | NLeaf old => if pkey =? lf_key nl then Some old else None
        | _ => None
        end in
      match clobber with
      | Some old =>
          a' <- update_parent_earliest_expiry (set_node a ph (NLeaf nl)) stack
                  (leaf_expiry old) (leaf_expiry nl) ;;
          Ok (a', r, ph, Some old)
      | None =>
          match descend with
          | Some i =>
              let (c, b) := walk_down i (lf_key nl) in
              insert_walk n a r nl c ((ph, b) :: stack)
          | None =>
              let nb := crit_bit_of shared (lf_key nl) in
              '(a1, nh) <- tree_insert a (NLeaf nl) ;;
              '(a2, mh) <- tree_insert a1 pc ;;
              (* on failure of this second insert the code frees [nh] again and
                 returns the error; the transaction is discarded either way *)
              _ <- get_node_unwrap a2 ph ;;
              let ne := leaf_expiry nl in
              oe <- node_earliest_expiry pc ;;
              let np := mkInner shared (lf_key nl)
                          (if nb then mh else nh) (if nb then nh else mh)
                          (if nb then oe else ne) (if nb then ne else oe) in
              let a3 := set_node a2 ph (NInner np) in
              a4 <- (if ne <? oe then update_parent_earliest_expiry a3 stack oe ne else Ok a3) ;;
              cnt <- chk (in_range 0 u32_max) (r_count r + 1) ;;
              Ok (a4, mkRoot (r_node r) cnt, nh, None)
          end
      end
  end.

Definition insert_leaf (a : arena) (r : root) (nl : leaf)
  : res (arena * root * Z * option leaf) :=
  match root_handle r with
  | None =>
      '(a', h) <- tree_insert a (NLeaf nl) ;;
      Ok (a', mkRoot h 1, h, None)
  | Some h => insert_walk tree_fuel a r nl h []
  end.

(** ordertree.rs 427-447 *)
Fixpoint find_earliest_loop (fuel : nat) (a : arena) (h : Z) : res (Z * Z) :=
  match fuel with
  | O => Err OutOfFuel
  | S n =>
      nd <- get_node_unwrap a h ;;
      match nd with
      | NInner i => find_earliest_loop n a (in_child i (in_e1 i <? in_e0 i))
      | NLeaf l => Ok (h, leaf_expiry l)
      | _ => Err Panic
      end
  end.

Definition find_earliest_expiry (a : arena) (r : root) : res (option (Z * Z)) :=
  match root_handle r with
  | None => Ok None
  | Some h => x <- find_earliest_loop tree_fuel a h ;; Ok (Some x)
  end.

(** ordertree.rs 118-129 *)
Definition tree_remove_one_expired (a : arena) (r : root) (now : Z)
  : res (arena * root * option leaf) :=
  o <- find_earliest_expiry a r ;;
  match o with
  | None => Ok (a, r, None)
  | Some (h, expires_at) =>
      if expires_at <? now then
        o <- get_node a h ;;
        match o with
        | None => Ok (a, r, None)
        | Some n => k <- node_key n ;; remove_by_key a r k
        end
      else Ok (a, r, None)
  end.

(** ordertree_iterator.rs 4-14.  The tree itself is a parameter of the functions;
    [left] is [Bid -> 1, Ask -> 0]. *)
Record tree_iter : Type := mkIter { it_stack : list inner; it_next : option (Z * leaf) }.

Definition left_of (s : side) : bool := match s with Bid => true | Ask => false end.

(** ordertree_iterator.rs 50-63 *)
Fixpoint find_leftmost (fuel : nat) (a : arena) (h : Z) (stack : list inner)
  : res (list inner * (Z * leaf)) :=
  match fuel with
  | O => Err OutOfFuel
  | S n =>
      nd <- get_node_unwrap a h ;;
      match nd with
      | NInner i => find_leftmost n a (in_child i (left_of (a_side a))) (i :: stack)
      | NLeaf l => Ok (stack, (h, l))
      | _ => Err Panic
      end
  end.

(** ordertree_iterator.rs 17-36 *)
Definition tree_iter_new (a : arena) (r : root) : res tree_iter :=
  match root_handle r with
  | None => Ok (mkIter [] None)
  | Some h => '(st, l) <- find_leftmost tree_fuel a h [] ;; Ok (mkIter st (Some l))
  end.

(** ordertree_iterator.rs 46-48 *)
Definition tree_iter_peek (it : tree_iter) : option (Z * leaf) := it_next it.

(** ordertree_iterator.rs 69-85: returns the current leaf and the advanced iterator. *)
Definition tree_iter_next (a : arena) (it : tree_iter) : res (option (Z * leaf) * tree_iter) :=
  match it_next it with
  | None => Ok (None, it)
  | Some cur =>
      match it_stack it with
      | [] => Ok (Some cur, mkIter [] None)
      | i :: st =>
          '(st', l) <- find_leftmost tree_fuel a (in_child i (negb (left_of (a_side a)))) st ;;
          Ok (Some cur, mkIter st' (Some l))
      end
  end.

(** Collecting an iterator (Rust [Iterator::collect]/[count]). *)
Fixpoint tree_iter_collect (fuel : nat) (a : arena) (it : tree_iter) : res (list (Z * leaf)) :=
  match fuel with
  | O => Err OutOfFuel
  | S n =>
      '(o, it') <- tree_iter_next a it ;;
      match o with
      | None => Ok []
      | Some x => rest <- tree_iter_collect n a it' ;; Ok (x :: rest)
      end
  end.

Definition tree_iter_all (a : arena) (r : root) : res (list (Z * leaf)) :=
  it <- tree_iter_new a r ;; tree_iter_collect tree_fuel a it.
