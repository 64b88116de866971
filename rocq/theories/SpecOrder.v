(** Specification vocabulary for what placing an order does: the trades and removals it
    causes, and how they show in the books, the event heap and the accounts. *)
From Coq Require Import ZArith List Bool.
From Verif Require Import Base Nodes OrderTree BookSide Heap Market OpenOrders Order Book SpecBook SpecFees.
Import ListNotations.
Open Scope Z_scope.

(** ** Happenings while an order is matched *)
(** [AFill i q]: [q] base lots of the resting order [i] change hands at its price;
    [ADrop i]: the invalid order [i] is removed; [AOwn i]: the taker's own order [i] is
    cancelled. *)
Inductive act : Type :=
| AFill (i : item) (q : Z)
| ADrop (i : item)
| AOwn (i : item).

Definition act_item (a : act) : item :=
  match a with AFill i _ => i | ADrop i => i | AOwn i => i end.
Definition act_base (a : act) : Z := match a with AFill _ q => q | _ => 0 end.
Definition act_quote (a : act) : Z := match a with AFill i q => q * im_price i | _ => 0 end.
Definition base_lots (acts : list act) : Z := sumZ (map act_base acts).
Definition quote_lots (acts : list act) : Z := sumZ (map act_quote acts).
Definition is_fill (a : act) : bool := match a with AFill _ _ => true | _ => false end.
Definition is_drop (a : act) : bool := match a with ADrop _ => true | _ => false end.

(** What is left of an order [l] of tree [t]. *)
Definition about (a : act) (t : otree_id) (l : leaf) : bool :=
  otree_eqb (im_tree (act_item a)) t && (lf_key (im_leaf (act_item a)) =? lf_key l).
Definition after_act (a : act) (l : leaf) : option leaf :=
  match a with
  | AFill _ q => if lf_qty l =? q then None else Some (lf_set_qty l (lf_qty l - q))
  | _ => None
  end.
Fixpoint residue (acts : list act) (t : otree_id) (l : leaf) : option leaf :=
  match acts with
  | [] => Some l
  | a :: r => if about a t l then after_act a l else residue r t l
  end.
Fixpoint residues (acts : list act) (t : otree_id) (L : list leaf) : list leaf :=
  match L with
  | [] => []
  | l :: r =>
      match residue acts t l with Some l' => l' :: residues acts t r | None => residues acts t r end
  end.

(** ** How happenings show in the heap and the accounts *)
(** The event describing a fill. *)
Definition fill_of (o : order) (owner now seq : Z) (i : item) (q : Z) : fill_event :=
  let l := im_leaf i in
  mkFill (o_side o) (lf_qty l =? q) (lf_slot l) now seq (lf_owner l) (lf_ts l) owner
    (o_client_id o) (im_price i) (lf_peg_limit l) q (lf_client_id l).

(** An account the instruction may change at once: the taker's own or one it was given. *)
Definition at_hand (taker : option Z) (rem : list Z) (k : Z) : Prop := taker = Some k \/ In k rem.

(** The order [l] is taken off the book: its owner's account is settled at once if it is
    at hand, otherwise an out event is queued. *)
Inductive drop_effect (taker : option Z) (rem : list Z) (now : Z) (s : side) (l : leaf)
  : world -> world -> Prop :=
| de_now w a a' : at_hand taker rem (lf_owner l) ->
    acct_get (lf_owner l) (w_accts w) = Some a ->
    ooa_cancel_order a (lf_slot l) (lf_qty l) (w_mkt w) = Ok a' ->
    drop_effect taker rem now s l w (w_set_acct w (lf_owner l) a')
| de_queued w h :
    push_back (w_heap w) (EOut (mkOut s (lf_slot l) now (h_seq (w_heap w)) (lf_owner l) (lf_qty l))) = Ok h ->
    drop_effect taker rem now s l w (w_set_heap w h).

Inductive effect (o : order) (taker : option Z) (owner : Z) (rem : list Z) (now : Z)
  : world -> act -> world -> Prop :=
| ef_fill_now w i q a a' m' : In (lf_owner (im_leaf i)) rem ->
    acct_get (lf_owner (im_leaf i)) (w_accts w) = Some a ->
    execute_maker a (w_mkt w) (fill_of o owner now (m_seq (w_mkt w)) i q) = Ok (a', m') ->
    effect o taker owner rem now w (AFill i q) (w_set_acct (w_set_mkt w m') (lf_owner (im_leaf i)) a')
| ef_fill_queued w i q h :
    push_back (w_heap w) (EFill (fill_of o owner now (m_seq (w_mkt w)) i q)) = Ok h ->
    effect o taker owner rem now w (AFill i q) (w_set_heap w h)
| ef_drop w i w' : drop_effect taker rem now (invert_side (o_side o)) (im_leaf i) w w' ->
    effect o taker owner rem now w (ADrop i) w'
| ef_own w i a a' : taker = Some (lf_owner (im_leaf i)) ->
    acct_get (lf_owner (im_leaf i)) (w_accts w) = Some a ->
    ooa_cancel_order a (lf_slot (im_leaf i)) (lf_qty (im_leaf i)) (w_mkt w) = Ok a' ->
    effect o taker owner rem now w (AOwn i) (w_set_acct w (lf_owner (im_leaf i)) a').

Inductive effects (o : order) (taker : option Z) (owner : Z) (rem : list Z) (now : Z)
  : world -> list act -> world -> Prop :=
| efs_nil w : effects o taker owner rem now w [] w
| efs_cons w a w1 r w2 : effect o taker owner rem now w a w1 ->
    effects o taker owner rem now w1 r w2 -> effects o taker owner rem now w (a :: r) w2.

Inductive drops (taker : option Z) (rem : list Z) (now : Z) (s : side) : world -> list (otree_id * leaf) -> world -> Prop :=
| drops_nil w : drops taker rem now s w [] w
| drops_cons w t l w1 r w2 : drop_effect taker rem now s l w w1 ->
    drops taker rem now s w1 r w2 -> drops taker rem now s w ((t, l) :: r) w2.

(** Same configuration, expiry, recorded deposits and referrer total. *)
Definition same_terms (m m' : market) : Prop :=
  m_cfg m' = m_cfg m /\ m_time_expiry m' = m_time_expiry m /\ m_base_total m' = m_base_total m /\
  m_quote_total m' = m_quote_total m /\ m_fees_to_referrers m' = m_fees_to_referrers m.

(** Nothing changes but the market's fee and volume counters, the books and the taker's own account. *)
Definition quiet (taker : option Z) (w w' : world) : Prop :=
  w_heap w' = w_heap w /\ same_terms (w_mkt w) (w_mkt w') /\
  forall k, taker <> Some k -> acct_get k (w_accts w') = acct_get k (w_accts w).

(** [l] is a sublist of [m], in the same order. *)
Inductive sublist {A} : list A -> list A -> Prop :=
| sub_nil l : sublist [] l
| sub_take x l m : sublist l m -> sublist (x :: l) (x :: m)
| sub_skip x l m : sublist l m -> sublist l (x :: m).

(** Orders that only add to the book; where an order may rest; the limit of an order pegged to the
    oracle, -1 for other orders. *)
Definition posts_only (o : order) : bool :=
  match o_params o with
  | OFixed _ PTPostOnly | OFixed _ PTPostOnlySlide | OOraclePegged _ PTPostOnly _ | OOraclePegged _ PTPostOnlySlide _ => true
  | _ => false
  end.
Definition rests_in (o : order) : option otree_id :=
  match o_params o with OFixed _ _ => Some Fixed | OOraclePegged _ _ _ => Some OraclePegged | _ => None end.
Definition limit_given (o : order) : Z := match o_params o with OOraclePegged _ _ l => l | _ => -1 end.
(** The order placed on the book, and what the instruction reports about it. *)
Definition put_ok (o : order) (owner now : Z) (m : market) (r : order_amounts)
  (put : option (otree_id * leaf)) : Prop :=
  match put with
  | None => oa_order_id r = None /\ oa_posted_base r = 0 /\ oa_posted_quote r = 0 /\ oa_maker_fees r = 0
  | Some (t, l) =>
      rests_in o = Some t /\ oa_order_id r = Some (lf_key l) /\ 0 < lf_qty l /\
      oa_posted_base r = lf_qty l * bls m /\
      l = mkLeaf (lf_slot l) (o_tif o) (lf_key l) owner (lf_qty l) now (limit_given o) (o_client_id o)
  end.

(** Placing [o] turned [w] into [w'] with result [r]: the opposing side listed [items], [acts]
    happened, at most two orders [gone] of the own side were dropped to make room, and [put]
    was placed there. *)
Record explained (w : world) (o : order) (oracle taker : option Z) (owner now : Z) (rem : list Z)
  (w' : world) (r : order_amounts) (items : list item) (acts : list act)
  (gone : list (otree_id * leaf)) (put : option (otree_id * leaf)) : Prop := {
  ex_items : iter_all (w_book w (invert_side (o_side o))) now oracle = Ok items;
  ex_acts : sublist (map act_item acts) items;
  ex_other : forall t L, lists (w_book w (invert_side (o_side o))) t L ->
               lists (w_book w' (invert_side (o_side o))) t (residues acts t L);
  ex_own : forall t L L', lists (w_book w (o_side o)) t L -> lists (w_book w' (o_side o)) t L' ->
             forall l, In l L' <-> (In l L /\ ~ In (t, l) gone) \/ put = Some (t, l);
  ex_put : put_ok o owner now (w_mkt w) r put;
  ex_gone : (length gone <= 2)%nat /\ (put = None -> gone = []) /\
            forall t l L, In (t, l) gone -> lists (w_book w (o_side o)) t L -> In l L;
  ex_world : exists w1 w2 w3 w4,
      w1 = w_set_mkt w (m_set_seq (w_mkt w) (m_seq (w_mkt w) + 1)) /\
      effects o taker owner rem now w1 acts w2 /\ quiet taker w2 w3 /\
      drops taker rem now (o_side o) w3 gone w4 /\ quiet taker w4 w';
  ex_base : oa_base_taken r = base_lots acts * bls (w_mkt w);
  ex_quote : oa_quote_taken r = quote_lots acts * qls (w_mkt w) }.

(** ** Calls in normal operation *)
(** A book side of a market: the product of its operations, every order has something left
    to trade, and its number was handed out before. *)
Definition sound_side (w : world) (s : side) : Prop :=
  book_reach s (w_book w s) /\
  forall t L l, lists (w_book w s) t L -> In l L -> 0 < lf_qty l /\ seq_of s l <= m_seq (w_mkt w).

(** Orders as the instructions build them. *)
Record sane_order (o : order) : Prop := {
  so_base : 0 <= o_max_base o;
  so_quote : 0 <= o_max_quote o;
  so_price : match o_params o with
             | OImmediateOrCancel p | OFillOrKill p | OFixed p _ => is_i64 p
             | OOraclePegged _ _ limit => 1 <= limit
             | OMarket => True
             end }.

Record sound_call (w : world) (o : order) (taker : option Z) (owner : Z) : Prop := {
  sc_cfg : cfg_sound (m_cfg (w_mkt w));
  sc_sides : forall s, sound_side w s;
  sc_order : sane_order o;
  sc_taker : taker = Some owner \/ taker = None }.

(** ** Prices *)
(** The worst price an order accepts, if it has one. *)
Definition order_limit (o : order) (oracle : option Z) : option Z :=
  match o_params o with
  | OMarket => None
  | OImmediateOrCancel p | OFillOrKill p | OFixed p _ => Some p
  | OOraclePegged offset _ _ => option_map (fun op => op + offset) oracle
  end.
Definition accepts (s : side) (limit : option Z) (price : Z) : Prop :=
  match limit with
  | None => True
  | Some p => match s with Bid => price <= p | Ask => p <= price end
  end.
(** The order asks for post-only-slide. *)
Definition slides (o : order) : bool :=
  match o_params o with OFixed _ PTPostOnlySlide | OOraclePegged _ PTPostOnlySlide _ => true | _ => false end.
(** The listed price is the price of the order. *)
Definition right_price (oracle : option Z) (i : item) : Prop :=
  match im_tree i with
  | Fixed => im_price i = lf_key (im_leaf i) / 2 ^ 64
  | OraclePegged => exists op, oracle = Some op /\ im_price i = exact_price OraclePegged op (im_leaf i)
  end.
(** The price of an order on the book. *)
Definition price_is (oracle : option Z) (t : otree_id) (l : leaf) (p : Z) : Prop :=
  match t with
  | Fixed => p = lf_key l / 2 ^ 64
  | OraclePegged => exists op, oracle = Some op /\ p = exact_price OraclePegged op l
  end.
(** [i] may trade at [now]: it is live and within its own peg limit. *)
Definition may_trade (s : side) (now : Z) (i : item) : Prop :=
  live now (im_leaf i) /\ (im_tree i = OraclePegged -> within_peg s (im_price i) (lf_peg_limit (im_leaf i))).
(** Strict priority of [i] over [j]. *)
Definition beats (s : side) (i j : item) : Prop :=
  better_order s (im_price i) (seq_of s (im_leaf i)) (im_price j) (seq_of s (im_leaf j)).
(** Nothing is left of the order [i] after [a]. *)
Definition finishes (a : act) (i : item) : Prop :=
  act_item a = i /\ match a with AFill _ q => q = lf_qty (im_leaf i) | _ => True end.
(** [i] belongs to the taker's account. *)
Definition own_item (taker : option Z) (i : item) : bool :=
  match taker with Some k => k =? lf_owner (im_leaf i) | None => false end.
(** Quote lots taken from the orders of others. *)
Definition others_quote (taker : option Z) (acts : list act) : Z :=
  sumZ (map (fun a => if own_item taker (act_item a) then 0 else act_quote a) acts).
(** What makers other than the taker are promised for these fills. *)
Definition rebates (m : market) (taker : option Z) (acts : list act) : Z :=
  sumZ (map (fun a => if own_item taker (act_item a) then 0 else maker_gets m (act_quote a * qls m)) acts).
(** The price [p] of a new order on side [s] meets the opposing price [q]. *)
Definition crosses (s : side) (p q : Z) : Prop := match s with Bid => q <= p | Ask => p <= q end.
(** The quote budget can pay for the whole base quantity at every acceptable listed price. *)
Definition ample_budget (m : market) (o : order) (price : Z) (items : list item) : Prop :=
  match o_side o with
  | Bid => o_max_base o * price * (1000000 + taker_fee m) <= o_max_quote o * 1000000
  | Ask => forall i, In i items -> o_max_base o * im_price i <= o_max_quote o
  end.
(** Every pegged order of the side has a price in range, or there is no oracle price. *)
Definition pegs_in_range (bs : bookside) (oracle : option Z) : Prop :=
  match oracle with
  | None => True
  | Some op => forall L l, lists bs OraclePegged L -> In l L -> in_price_range op l
  end.
