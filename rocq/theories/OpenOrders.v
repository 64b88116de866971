(** Model of /repo/programs/openbook-v2/src/state/open_orders_account.rs. *)
From Coq Require Import ZArith List Bool.
From Verif Require Import Base Nodes Heap Market.
Import ListNotations.
Open Scope Z_scope.

(** open_orders_account.rs 10 *)
Definition MAX_OPEN_ORDERS : nat := 24%nat.

(** open_orders_account.rs 350-375 *)
Record position : Type := mkPos {
  p_bids_base : Z;
  p_asks_base : Z;
  p_base_free : Z;
  p_quote_free : Z;
  p_locked_fees : Z;
  p_rebates : Z;
  p_penalty : Z;
  p_maker_volume : Z;
  p_taker_volume : Z;
  p_bids_quote : Z }.

(** open_orders_account.rs 384-400 *)
Definition position0 : position := mkPos 0 0 0 0 0 0 0 0 0 0.

Definition p_set_bids_base p v := mkPos v (p_asks_base p) (p_base_free p) (p_quote_free p) (p_locked_fees p) (p_rebates p) (p_penalty p) (p_maker_volume p) (p_taker_volume p) (p_bids_quote p).
Definition p_set_asks_base p v := mkPos (p_bids_base p) v (p_base_free p) (p_quote_free p) (p_locked_fees p) (p_rebates p) (p_penalty p) (p_maker_volume p) (p_taker_volume p) (p_bids_quote p).
Definition p_set_base_free p v := mkPos (p_bids_base p) (p_asks_base p) v (p_quote_free p) (p_locked_fees p) (p_rebates p) (p_penalty p) (p_maker_volume p) (p_taker_volume p) (p_bids_quote p).
Definition p_set_quote_free p v := mkPos (p_bids_base p) (p_asks_base p) (p_base_free p) v (p_locked_fees p) (p_rebates p) (p_penalty p) (p_maker_volume p) (p_taker_volume p) (p_bids_quote p).
Definition p_set_locked_fees p v := mkPos (p_bids_base p) (p_asks_base p) (p_base_free p) (p_quote_free p) v (p_rebates p) (p_penalty p) (p_maker_volume p) (p_taker_volume p) (p_bids_quote p).
Definition p_set_rebates p v := mkPos (p_bids_base p) (p_asks_base p) (p_base_free p) (p_quote_free p) (p_locked_fees p) v (p_penalty p) (p_maker_volume p) (p_taker_volume p) (p_bids_quote p).
Definition p_set_penalty p v := mkPos (p_bids_base p) (p_asks_base p) (p_base_free p) (p_quote_free p) (p_locked_fees p) (p_rebates p) v (p_maker_volume p) (p_taker_volume p) (p_bids_quote p).
Definition p_set_maker_volume p v := mkPos (p_bids_base p) (p_asks_base p) (p_base_free p) (p_quote_free p) (p_locked_fees p) (p_rebates p) (p_penalty p) v (p_taker_volume p) (p_bids_quote p).
Definition p_set_taker_volume p v := mkPos (p_bids_base p) (p_asks_base p) (p_base_free p) (p_quote_free p) (p_locked_fees p) (p_rebates p) (p_penalty p) (p_maker_volume p) v (p_bids_quote p).
Definition p_set_bids_quote p v := mkPos (p_bids_base p) (p_asks_base p) (p_base_free p) (p_quote_free p) (p_locked_fees p) (p_rebates p) (p_penalty p) (p_maker_volume p) (p_taker_volume p) v.

(** open_orders_account.rs 426-435; [side_and_tree] is a pair (order_type.rs 181-211). *)
Record open_order : Type := mkOO {
  oo_id : Z;
  oo_client_id : Z;
  oo_locked_price : Z;
  oo_free : bool;
  oo_side : side;
  oo_tree : otree_id }.

(** open_orders_account.rs 440-451 *)
Definition open_order0 : open_order := mkOO 0 0 0 true Bid Fixed.

(** open_orders_account.rs 14-37.  Name, bump and padding are left out; the market
    field is left out because the model has one market and only its accounts. *)
Record ooa : Type := mkOoa {
  a_owner : Z;
  a_delegate : Z;
  a_num : Z;
  a_version : Z;
  a_pos : position;
  a_orders : list open_order }.

Definition a_set_pos a v := mkOoa (a_owner a) (a_delegate a) (a_num a) (a_version a) v (a_orders a).
Definition a_set_orders a v := mkOoa (a_owner a) (a_delegate a) (a_num a) (a_version a) (a_pos a) v.
Definition a_set_delegate a v := mkOoa (a_owner a) v (a_num a) (a_version a) (a_pos a) (a_orders a).

(** open_orders_account.rs 80-86 *)
Definition is_owner_or_delegate (a : ooa) (signer : Z) : bool :=
  if a_delegate a =? 0 then a_owner a =? signer
  else (a_owner a =? signer) || (a_delegate a =? signer).

(** open_orders_account.rs 88-97 *)
Definition is_settle_destination_allowed (a : ooa) (signer account_owner : Z) : bool :=
  if negb (a_delegate a =? 0) && (a_delegate a =? signer)
  then a_owner a =? account_owner
  else signer =? a_owner a.

(** open_orders_account.rs 111-115: first free slot *)
Fixpoint find_free (l : list open_order) (i : Z) : option Z :=
  match l with
  | [] => None
  | o :: r => if oo_free o then Some i else find_free r (i + 1)
  end.
Definition next_order_slot (a : ooa) : res Z :=
  match find_free (a_orders a) 0 with Some i => Ok i | None => Err OpenOrdersFull end.

(** open_orders_account.rs 117-124 *)
Definition find_order_with_client_order_id (a : ooa) (cid : Z) : option open_order :=
  find (fun o => negb (oo_free o) && (oo_client_id o =? cid)) (a_orders a).
Definition find_order_with_order_id (a : ooa) (id : Z) : option open_order :=
  find (fun o => negb (oo_free o) && (oo_id o =? id)) (a_orders a).

(** open_orders_account.rs 126-132: indexing panics out of bounds. *)
Definition order_at (a : ooa) (slot : Z) : res open_order :=
  _ <- massert (0 <=? slot) ;; unwrap (nth_error (a_orders a) (Z.to_nat slot)).
Definition set_order_at (a : ooa) (slot : Z) (o : open_order) : ooa :=
  a_set_orders a (set_nth (Z.to_nat slot) o (a_orders a)).

(** open_orders_account.rs 305-323 *)
Definition remove_order (a : ooa) (slot base_quantity locked_price : Z) : res ooa :=
  oo <- order_at a slot ;;
  _ <- massert (negb (oo_free oo)) ;;
  let p := a_pos a in
  p' <- match oo_side oo with
        | Bid =>
            b <- chk_i64 (p_bids_base p - base_quantity) ;;
            x <- chk_i64 (base_quantity * locked_price) ;;
            q <- chk_i64 (p_bids_quote p - x) ;;
            Ok (p_set_bids_quote (p_set_bids_base p b) q)
        | Ask =>
            b <- chk_i64 (p_asks_base p - base_quantity) ;; Ok (p_set_asks_base p b)
        end ;;
  Ok (set_order_at (a_set_pos a p') slot open_order0).

(** open_orders_account.rs 325-344 *)
Definition ooa_cancel_order (a : ooa) (slot base_quantity : Z) (m : market) : res ooa :=
  oo <- order_at a slot ;;
  let price := oo_locked_price oo in
  bq <- chk_i64 (base_quantity * bls m) ;;
  let base_native := as_u64 bq in
  x <- chk_i64 (base_quantity * price) ;;
  y <- chk_i64 (x * qls m) ;;
  let quote_native := as_u64 y in
  fees <- maker_fees_ceil chk_u64 m quote_native ;;
  let p := a_pos a in
  p' <- match oo_side oo with
        | Bid =>
            s <- chk_u64 (quote_native + fees) ;;
            q <- chk_u64 (p_quote_free p + s) ;;
            l <- chk_u64 (p_locked_fees p - fees) ;;
            Ok (p_set_locked_fees (p_set_quote_free p q) l)
        | Ask => b <- chk_u64 (p_base_free p + base_native) ;; Ok (p_set_base_free p b)
        end ;;
  remove_order (a_set_pos a p') slot base_quantity price.

(** open_orders_account.rs 279-303 *)
Definition add_order (a : ooa) (s : side) (t : otree_id) (l : leaf) (client_id locked_price : Z)
  : res ooa :=
  let p := a_pos a in
  p' <- match s with
        | Bid =>
            b <- chk_i64 (p_bids_base p + lf_qty l) ;;
            x <- chk_i64 (lf_qty l * locked_price) ;;
            q <- chk_i64 (p_bids_quote p + x) ;;
            Ok (p_set_bids_quote (p_set_bids_base p b) q)
        | Ask => b <- chk_i64 (p_asks_base p + lf_qty l) ;; Ok (p_set_asks_base p b)
        end ;;
  _ <- order_at a (lf_slot l) ;;
  Ok (set_order_at (a_set_pos a p') (lf_slot l)
        (mkOO (lf_key l) client_id locked_price false s t)).

(** open_orders_account.rs 134-241.  Logs are left out; the taker fee computed at
    202-206 is only logged, so only its possible panic is kept. *)
Definition execute_maker (a : ooa) (m : market) (f : fill_event) : res (ooa * market) :=
  let self_trade := fe_maker f =? fe_taker f in
  let s := invert_side (fe_taker_side f) in
  x <- chk_i64 (fe_qty f * fe_price f) ;;
  y <- chk_i64 (x * qls m) ;;
  let quote_native := as_u64 y in
  maker_fees <- (if self_trade then Ok 0 else maker_fees_floor m quote_native) ;;
  maker_rebate <- (if self_trade then Ok 0 else maker_rebate_floor m quote_native) ;;
  '(locked_maker_fees, above, locked_price) <-
    (if negb (fe_peg_limit f =? -1) && side_eqb s Bid then
       x' <- chk_i64 (fe_qty f * fe_peg_limit f) ;;
       y' <- chk_i64 (x' * qls m) ;;
       let quote_at_lock := as_u64 y' in
       to_free <- chk_u64 (quote_at_lock - quote_native) ;;
       fees_lock <- maker_fees_floor m quote_at_lock ;;
       fees_to_free <- chk_u64 (fees_lock - maker_fees) ;;
       ab <- chk_u64 (to_free + fees_to_free) ;;
       Ok (fees_lock, ab, fe_peg_limit f)
     else Ok (maker_fees, 0, fe_price f)) ;;
  let p := a_pos a in
  p1 <- match s with
        | Bid =>
            bn <- chk_i64 (fe_qty f * bls m) ;;
            b <- chk_u64 (p_base_free p + as_u64 bn) ;;
            r <- chk_u64 (maker_rebate + above) ;;
            q <- chk_u64 (p_quote_free p + r) ;;
            l <- chk_u64 (p_locked_fees p - locked_maker_fees) ;;
            Ok (p_set_locked_fees (p_set_quote_free (p_set_base_free p b) q) l)
        | Ask =>
            r1 <- chk_u64 (quote_native + maker_rebate) ;;
            r2 <- chk_u64 (r1 - maker_fees) ;;
            q <- chk_u64 (p_quote_free p + r2) ;;
            Ok (p_set_quote_free p q)
        end ;;
  mv <- chk_u128 (p_maker_volume p1 + quote_native) ;;
  rb <- chk_u64 (p_rebates p1 + maker_fees) ;;
  let p2 := p_set_rebates (p_set_maker_volume p1 mv) rb in
  mr <- chk_u64 (m_rebates_accrued m + maker_fees) ;;
  mmv <- chk_u128 (m_maker_volume m + quote_native) ;;
  mfa <- chk_u128 (m_fees_accrued m + maker_fees) ;;
  let m' := m_set_fees_accrued (m_set_maker_volume (m_set_rebates_accrued m mr) mmv) mfa in
  a' <- (if fe_maker_out f then
           remove_order (a_set_pos a p2) (fe_maker_slot f) (fe_qty f) locked_price
         else
           match s with
           | Bid =>
               b <- chk_i64 (p_bids_base p2 - fe_qty f) ;;
               z <- chk_i64 (fe_qty f * locked_price) ;;
               q <- chk_i64 (p_bids_quote p2 - z) ;;
               Ok (a_set_pos a (p_set_bids_quote (p_set_bids_base p2 b) q))
           | Ask =>
               b <- chk_i64 (p_asks_base p2 - fe_qty f) ;;
               Ok (a_set_pos a (p_set_asks_base p2 b))
           end) ;;
  _ <- (if (0 <? quote_native) && negb self_trade then taker_fees_ceil chk_u64 m' quote_native
        else Ok 0) ;;
  Ok (a', m').

(** open_orders_account.rs 244-277 *)
Definition execute_taker (a : ooa) (m : market) (s : side)
  (base_native quote_native taker_fees referrer_amount : Z) : res (ooa * market) :=
  let p := a_pos a in
  p1 <- match s with
        | Bid => b <- chk_u64 (p_base_free p + base_native) ;; Ok (p_set_base_free p b)
        | Ask =>
            d <- chk_u64 (quote_native - taker_fees) ;;
            q <- chk_u64 (p_quote_free p + d) ;; Ok (p_set_quote_free p q)
        end ;;
  tv <- chk_u128 (p_taker_volume p1 + quote_native) ;;
  rb <- chk_u64 (p_rebates p1 + referrer_amount) ;;
  mr <- chk_u64 (m_rebates_accrued m + referrer_amount) ;;
  Ok (a_set_pos a (p_set_rebates (p_set_taker_volume p1 tv) rb), m_set_rebates_accrued m mr).

(** open_orders_account.rs 411-421 *)
Definition position_is_empty (p : position) (version : Z) : bool :=
  (p_bids_base p =? 0) && (p_asks_base p =? 0) && (p_base_free p =? 0)
  && (p_quote_free p =? 0) && (p_locked_fees p =? 0) && (p_rebates p =? 0)
  && (p_penalty p =? 0) && ((version =? 0) || (p_bids_quote p =? 0)).

(** The accounts of the market: an association list from account keys. *)
Definition accounts : Type := list (Z * ooa).

Fixpoint acct_get (k : Z) (l : accounts) : option ooa :=
  match l with
  | [] => None
  | (k', a) :: r => if k =? k' then Some a else acct_get k r
  end.
Fixpoint acct_set (k : Z) (v : ooa) (l : accounts) : accounts :=
  match l with
  | [] => []
  | (k', a) :: r => if k =? k' then (k', v) :: r else (k', a) :: acct_set k v r
  end.
Fixpoint acct_del (k : Z) (l : accounts) : accounts :=
  match l with
  | [] => []
  | (k', a) :: r => if k =? k' then r else (k', a) :: acct_del k r
  end.
Definition acct_load (k : Z) (l : accounts) : res ooa :=
  match acct_get k l with Some a => Ok a | None => Err AccountMissing end.
