(** Model of the parts of the TypeScript client (/repo/ts/client/src) that read the accounts and
    choose what to send: accounts/bookSide.ts, structs/order.ts, accounts/eventHeap.ts,
    accounts/openOrders.ts, client.ts and market.ts.

    JavaScript's BN numbers are unbounded integers: [Z].  [throw] and reading a property of
    [undefined] are [Err].  The functions are given the decoded accounts; decoding is modelled in
    Bytes.v.  Prices and sizes in floating-point user units are left out. *)
From Coq Require Import ZArith List Bool.
From Verif Require Import Base Nodes OrderTree BookSide Heap Market OpenOrders Order Book Instructions.
Import ListNotations.
Open Scope Z_scope.

(** ** Book sides *)
(** structs/order.ts 4-14 *)
Record ts_order : Type := mkTsOrder {
  to_leaf : leaf;
  to_side : side;
  to_seq : Z;
  to_price : Z;
  to_expired : bool }.

(** structs/order.ts 15-28 for a limit order, and the expiry of bookSide.ts 126-135:
    [clusterTime.gt(expiryTimestamp)]. *)
Definition ts_order_of (s : side) (clock : Z) (l : leaf) : ts_order :=
  let low := lf_key l mod 2 ^ 64 in
  let expiry := if lf_tif l =? 0 then u64_max else lf_ts l + lf_tif l in
  mkTsOrder l s (match s with Bid => u64_max - low | Ask => low end) (lf_key l / 2 ^ 64) (expiry <? clock).

(** bookSide.ts 116-123: the loop over an explicit stack, top first; the child visited first is
    the one pushed last.  Nodes that are neither inner nodes nor leaves are passed over. *)
Fixpoint ts_walk (fuel : nat) (a : arena) (s : side) (stack : list Z) : res (list leaf) :=
  match stack with
  | [] => Ok []
  | h :: rest =>
      match fuel with
      | O => Err OutOfFuel
      | S n =>
          if in_bounds h then
            match a_nodes a h with
            | NInner i =>
                let '(first, second) := match s with Bid => (in_c1 i, in_c0 i) | Ask => (in_c0 i, in_c1 i) end in
                ts_walk n a s (first :: second :: rest)
            | NLeaf l => more <- ts_walk n a s rest ;; Ok (l :: more)
            | _ => ts_walk n a s rest
            end
          else Err Panic
      end
  end.
Definition ts_leaves (a : arena) (s : side) (r : root) : res (list leaf) :=
  if r_count r =? 0 then Ok [] else ts_walk tree_fuel a s [r_node r].

(** bookSide.ts 109-143.  [clock] is [clusterTime]. *)
Definition ts_fixed_items (bs : bookside) (s : side) (clock : Z) : res (list ts_order) :=
  l <- ts_leaves (bs_nodes bs) s (bs_fixed bs) ;; Ok (map (ts_order_of s clock) l).
(** bookSide.ts 145-171: the constructor of a pegged order throws (structs/order.ts 20-23). *)
Definition ts_pegged_items (bs : bookside) (s : side) (clock : Z) : res (list ts_order) :=
  l <- ts_leaves (bs_nodes bs) s (bs_pegged bs) ;;
  match l with [] => Ok [] | _ => Err SomeError end.

(** bookSide.ts 173-179 *)
Definition ts_compare (s : side) (a b : ts_order) : bool :=
  if to_price a =? to_price b then to_seq a <? to_seq b
  else match s with Bid => to_price b <? to_price a | Ask => to_price a <? to_price b end.
(** bookSide.ts 69-97.  Both generators are advanced once before anything is yielded. *)
Fixpoint ts_merge (s : side) (f : list ts_order) : list ts_order -> list ts_order :=
  fix go (p : list ts_order) : list ts_order :=
    match f, p with
    | [], _ => p
    | _, [] => f
    | x :: f', y :: p' => if ts_compare s x y then x :: ts_merge s f' p else y :: go p'
    end.
Definition ts_items (bs : bookside) (s : side) (clock : Z) : res (list ts_order) :=
  f <- ts_fixed_items bs s clock ;;
  p <- ts_pegged_items bs s clock ;;
  Ok (ts_merge s f p).
(** bookSide.ts 181-183 *)
Definition ts_best (bs : bookside) (s : side) (clock : Z) : res (option ts_order) :=
  l <- ts_items bs s clock ;; Ok (hd_error l).

(** bookSide.ts 185-202 without the conversions to user units.  The levels so far are kept last
    level first; [depth] is a number that is compared with their count. *)
Fixpoint ts_levels (depth : Z) (levels : list (Z * Z)) (l : list ts_order) : list (Z * Z) :=
  match l with
  | [] => rev levels
  | o :: r =>
      let new := if Z.of_nat (length levels) =? depth then rev levels
                 else ts_levels depth ((to_price o, lf_qty (to_leaf o)) :: levels) r in
      match levels with
      | (p, q) :: before =>
          if p =? to_price o then ts_levels depth ((p, q + lf_qty (to_leaf o)) :: before) r else new
      | [] => new
      end
  end.
Definition ts_l2 (bs : bookside) (s : side) (clock depth : Z) : res (list (Z * Z)) :=
  l <- ts_items bs s clock ;; Ok (ts_levels depth [] l).

(** ** The event heap *)
(** eventHeap.ts 16-23 *)
Fixpoint ts_raw_loop (n : nat) (h : heap) (i : Z) : res (list event) :=
  match n with
  | O => Ok []
  | S n =>
      _ <- massert ((0 <=? i) && (i <? MAX_EVENTS)) ;;
      more <- ts_raw_loop n h (hn_next (h_nodes h i)) ;;
      Ok (hn_event (h_nodes h i) :: more)
  end.
Definition ts_raw_events (h : heap) : res (list event) := ts_raw_loop (Z.to_nat (h_count h)) h (h_used h).

(** A [PublicKey] object: [===] on objects compares what they are, not the address inside.
    Decoding an event makes new objects, numbered [new], [new + 1] and so on. *)
Record js_key : Type := mkKey { jk_object : Z; jk_address : Z }.
Definition node_owner (e : event) : Z := match e with EFill f => fe_maker f | EOut o => oe_owner o end.
(** All 600 nodes of the account in the order of the array, free ones included. *)
Definition all_nodes (h : heap) : list hnode := map (fun i => h_nodes h (Z.of_nat i)) (seq 0 600).

(** client.ts 1088-1117: [getAccountsToConsume]. *)
Fixpoint ts_accounts_loop (nodes : list hnode) (new : Z) (accounts : list js_key) : list js_key :=
  match nodes with
  | [] => accounts
  | n :: r =>
      let k := mkKey new (node_owner (hn_event n)) in
      let accounts' := filter (fun a => negb (jk_object a =? jk_object k)) accounts ++ [k] in
      if 20 <? Z.of_nat (length accounts') then accounts' else ts_accounts_loop r (new + 1) accounts'
  end.
Definition ts_accounts_to_consume (h : heap) (new : Z) : list js_key := ts_accounts_loop (all_nodes h) new [].

(** client.ts 1119-1145: [getSlotsToConsume]. *)
Fixpoint ts_slots_loop (key : js_key) (nodes : list hnode) (i new : Z) : list Z :=
  match nodes with
  | [] => []
  | n :: r =>
      let k := mkKey new (node_owner (hn_event n)) in
      let more := ts_slots_loop key r (i + 1) (new + 1) in
      if jk_object key =? jk_object k then i :: more else more
  end.
Definition ts_slots_to_consume (h : heap) (key : js_key) (new : Z) : list Z := ts_slots_loop key (all_nodes h) 0 new.

(** ** Open orders accounts *)
(** openOrders.ts 300-332: for each slot in use the order with its id, looked for on the side and
    in the tree the slot names.  Without a break before, the whole side is walked. *)
Definition ts_slot_order (bids asks : bookside) (clock : Z) (oo : open_order) : res (list ts_order) :=
  if oo_free oo then Ok []
  else
    let bs := match oo_side oo with Bid => bids | Ask => asks end in
    l <- match oo_tree oo with
         | Fixed => ts_fixed_items bs (oo_side oo) clock
         | OraclePegged => ts_pegged_items bs (oo_side oo) clock
         end ;;
    Ok (match find (fun o => lf_key (to_leaf o) =? oo_id oo) l with Some o => [o] | None => [] end).
Fixpoint ts_slots_orders (bids asks : bookside) (clock : Z) (slots : list open_order) : res (list ts_order) :=
  match slots with
  | [] => Ok []
  | oo :: r =>
      x <- ts_slot_order bids asks clock oo ;;
      more <- ts_slots_orders bids asks clock r ;;
      Ok (x ++ more)
  end.
Definition ts_account_items (bids asks : bookside) (clock : Z) (a : ooa) : res (list ts_order) :=
  ts_slots_orders bids asks clock (a_orders a).

(** accounts/market.ts 100-102; BN's [div] rounds towards zero. *)
Definition ts_maker_fee_floor (m : market) (q : Z) : Z := Z.quot (q * maker_fee m) 1000000.
(** openOrders.ts 141-172: what one waiting event adds.  [takerSide === 1] is a selling taker. *)
Definition ts_event_balance (m : market) (a : ooa) (e : event) (b : Z * Z) : Z * Z :=
  match e with
  | EFill f =>
      if fe_maker f =? a_owner a then
        let base := fe_qty f * bls m in
        let quote := fe_qty f * fe_price f * qls m in
        let fee := ts_maker_fee_floor m quote in
        match fe_taker_side f with
        | Ask => (fst b + base, snd b - (quote + fee))
        | Bid => (fst b - base, snd b + (quote - fee))
        end
      else b
  | EOut _ => b
  end.
(** openOrders.ts 123-175: [getBalanceNative] with the event heap loaded. *)
Definition ts_balance (m : market) (h : heap) (a : ooa) : res (Z * Z) :=
  let p := a_pos a in
  let b := (p_asks_base p * bls m + p_base_free p, p_bids_quote p * qls m + p_quote_free p + p_locked_fees p) in
  es <- ts_raw_events h ;;
  Ok (fold_left (fun b e => ts_event_balance m a e b) es b).

(** ** Placing an order *)
(** openOrders.ts 196-207: a [Set] of the first owners on the other side, up to three. *)
Fixpoint ts_owners_loop (accounts : list Z) (l : list ts_order) : list Z :=
  match l with
  | [] => accounts
  | o :: r =>
      let k := lf_owner (to_leaf o) in
      let accounts' := if mem_key k accounts then accounts else accounts ++ [k] in
      if 3 <=? Z.of_nat (length accounts') then accounts' else ts_owners_loop accounts' r
  end.
Definition ts_remaining (bids asks : bookside) (clock : Z) (t : place_order_type) (s : side) : res (list Z) :=
  match t with
  | POPostOnly | POPostOnlySlide => Ok []
  | _ =>
      l <- ts_items (match s with Bid => asks | Ask => bids end) (invert_side s) clock ;;
      Ok (ts_owners_loop [] l)
  end.

(** ** Finding markets *)
(** market.ts 73-77: the batches of transactions [findAllMarkets] asks for. *)
Fixpoint ts_batches_loop (n : nat) (signatures : list Z) : list (list Z) :=
  match n with O => [] | S n => firstn 50 signatures :: ts_batches_loop n signatures end.
Definition ts_batches (signatures : list Z) : list (list Z) :=
  [] :: ts_batches_loop (Z.to_nat ((Z.of_nat (length signatures) + 49) / 50)) signatures.

(** market.ts 26-46: [findAccountsByMints] asks for the accounts whose bytes from offset 792 on
    are the base mint and from 824 on the quote mint.  A [memcmp] filter of the RPC node passes an
    account only if it is long enough. *)
Definition memcmp (offset : nat) (bytes data : list Z) : bool :=
  (Nat.leb (offset + length bytes) (length data)) &&
  forallb (fun x => fst x =? snd x) (combine bytes (firstn (length bytes) (skipn offset data))).
Definition ts_by_mints (base_mint quote_mint data : list Z) : bool :=
  memcmp 792 base_mint data && memcmp 824 quote_mint data.

(** ** Sending instructions *)
(** The wallet of the client and the delegate set on the open orders account object. *)
Record ts_client : Type := mkTsClient { tc_wallet : Z; tc_delegate : option Z }.
(** The wallet signs every transaction; the delegate is added (openOrders.ts 214, 237, 291). *)
Definition ts_signatures (c : ts_client) : list Z :=
  tc_wallet c :: match tc_delegate c with Some d => [d] | None => [] end.
(** An instruction with the account that must have signed. *)
Definition ts_ix : Type := (Z * instr)%type.
(** client.ts 604-661: the signer of a new order is the delegate, or else the wallet. *)
Definition ts_place_signer (c : ts_client) : Z :=
  match tc_delegate c with Some d => d | None => tc_wallet c end.
(** client.ts 825-899: the signer of every cancellation is the owner. *)
Definition ts_cancel (k : Z) (a : ooa) (id : Z) : ts_ix := (a_owner a, ICancel (a_owner a) k id).
Definition ts_cancel_client (k : Z) (a : ooa) (cid : Z) : ts_ix := (a_owner a, ICancelClient (a_owner a) k cid).
Definition ts_cancel_all (k : Z) (a : ooa) (side : option side) : ts_ix :=
  (a_owner a, ICancelAll (a_owner a) k side 24).
(** client.ts 926-963: [settleFundsIx] is signed by the delegate, or else the owner. *)
Definition ts_settle (c : ts_client) (k : Z) (a : ooa) (ub uq : Z) (ref : option Z) : ts_ix :=
  let u := match tc_delegate c with Some d => d | None => a_owner a end in (u, ISettle u k ub uq ref).
(** openOrders.ts 239-298: cancel on one side or both, then settle, in one transaction; creating
    the token accounts is left out. *)
Definition ts_cancel_all_orders (c : ts_client) (k : Z) (a : ooa) (sd : option side) (ub uq : Z) (ref : option Z)
  : list ts_ix := [ts_cancel_all k a sd; ts_settle c k a ub uq ref].

(** Instructions in one transaction: all of them or none. *)
Fixpoint ts_run (e : env) (s : sys) (l : list ts_ix) : res sys :=
  match l with
  | [] => Ok s
  | (_, i) :: r => '(s', _) <- exec e s i ;; ts_run e s' r
  end.
(** A transaction without all the signatures it needs is rejected. *)
Definition ts_send (c : ts_client) (e : env) (s : sys) (l : list ts_ix) : res sys :=
  _ <- require (forallb (fun x => mem_key (fst x) (ts_signatures c)) l) Constraint ;; ts_run e s l.
