(** Properties C12 to C18: what placing an order does.  Vocabulary: SpecOrder.v; [explained]
    says what happened to both books, the event heap and the accounts. *)
From Coq Require Import ZArith List Bool Sorted.
From Verif Require Import Base Nodes OrderTree BookSide Heap Market OpenOrders Order Book Instructions
  SpecBook SpecFees SpecOrder Steps OrderClaims StepFacts Samples OrderRefutes.
Import ListNotations.
Open Scope Z_scope.

(** The hypothesis [sound_call] of the theorems below holds whenever an instruction places an
    order in an execution: [w] is the state of a reachable system, or one in the middle of an
    instruction (every instruction is made of [wsteps], see [exec_steps]). *)
Theorem C12_calls_are_sound who s w db dq o taker owner :
  reachable s -> wsteps who (s_w s) 0 0 w db dq -> sane_order o -> taker = Some owner \/ taker = None ->
  sound_call w o taker owner.
Proof.
  intros H Hs Ho Ht. destruct (wsteps_sound _ _ _ _ _ _ _ Hs (reachable_sound _ H)) as [H1 H2].
  constructor; assumption.
Qed.
Print Assumptions C12_calls_are_sound.

(** A bid of user 3 for 60 lots at 107 or less with room for 100000 quote lots. *)
Definition sample_bid (t : self_trade) (ps : order_params) : order := mkOrder Bid 60 100000 9 0 t ps.
Definition bid107 : order := sample_bid DecrementTake (OFixed 107 PTLimit).
Lemma sample1_call o k : sane_order o -> sound_call (s_w sample1) o (Some k) k.
Proof. intros H. exact (C12_calls_are_sound None _ _ 0 0 _ _ _ sample1_reachable (wss_nil _ _ _ _) H (or_introl eq_refl)). Qed.
Lemma sample2_call o k : sane_order o -> sound_call (s_w sample2) o (Some k) k.
Proof. intros H. exact (C12_calls_are_sound None _ _ 0 0 _ _ _ sample2_reachable (wss_nil _ _ _ _) H (or_introl eq_refl)). Qed.

Ltac sane := cbv zeta beta; unfold bid107, sample_bid; Samples.sane.

(** C12: every fill is at the resting order's current price, with an order that may trade
    now, and within the new order's limit. *)
Theorem C12_fills_within_limit w o oracle taker owner now limit rem w' r :
  sound_call w o taker owner -> new_order w o oracle taker owner now limit rem = Ok (w', r) ->
  exists items acts gone put,
  explained w o oracle taker owner now rem w' r items acts gone put /\
  forall i q, In (AFill i q) acts ->
    right_price oracle i /\ may_trade (invert_side (o_side o)) now i /\
    accepts (o_side o) (order_limit o oracle) (im_price i) /\ 1 <= q <= lf_qty (im_leaf i).
Proof. exact (fills_within_limit w o oracle taker owner now limit rem w' r). Qed.
Print Assumptions C12_fills_within_limit.

(** Fills at 105, 106 (pegged) and 107. *)
Example C12_case : sound_call (s_w sample1) bid107 (Some 103) 103 /\
  amounts (new_order (s_w sample1) bid107 (Some 100) (Some 103) 103 120 10 []) =
    Some (mkAmounts None 0 0 6000 63650 26 0 26).
Proof. cbv zeta beta; split; [apply sample1_call; sane|vm_compute; reflexivity]. Qed.

(** An oracle-pegged order may trade beyond its own peg limit while it is matched: a bid at
    oracle price 100 plus 10 with peg limit 50 buys 30 lots at 105 and 106. *)
Theorem C12_peg_limit_refuted : exists s o oracle k now limit w' r,
  reachable s /\ sane_order o /\ o_side o = Bid /\ 0 < limit_given o /\
  new_order (s_w s) o oracle (Some k) k now limit [] = Ok (w', r) /\
  0 < oa_base_taken r /\
  limit_given o * qls (w_mkt (s_w s)) * oa_base_taken r < oa_quote_taken r * bls (w_mkt (s_w s)).
Proof.
  exists sample1, (mkOrder Bid 30 100000 9 0 DecrementTake (OOraclePegged 10 PTLimit 50)), (Some 100), 103, 120, 10.
  destruct (amounts_ok (new_order (s_w sample1) (mkOrder Bid 30 100000 9 0 DecrementTake (OOraclePegged 10 PTLimit 50))
    (Some 100) (Some 103) 103 120 10 []) (mkAmounts None 0 0 3000 31600 13 0 13) ltac:(vm_compute; reflexivity)) as [w' E].
  exists w', (mkAmounts None 0 0 3000 31600 13 0 13).
  split; [exact sample1_reachable|]. split; [sane|]. split; [reflexivity|]. split; [reflexivity|].
  split; [exact E|]. split; vm_compute; reflexivity.
Qed.
Print Assumptions C12_peg_limit_refuted.

(** C13: a buy never costs more than the stated maximum, in quote and in base. *)
Theorem C13_within_budget w o oracle taker owner now limit rem w' r :
  sound_call w o taker owner -> new_order w o oracle taker owner now limit rem = Ok (w', r) ->
  match o_side o with
  | Bid => oa_quote_taken r + oa_taker_fees r + oa_posted_quote r + oa_maker_fees r <= o_max_quote o * qls (w_mkt w)
  | Ask => oa_quote_taken r <= o_max_quote o * qls (w_mkt w)
  end /\
  oa_base_taken r + oa_posted_base r <= o_max_base o * bls (w_mkt w).
Proof. exact (within_budget w o oracle taker owner now limit rem w' r). Qed.
Print Assumptions C13_within_budget.

(** 5400 quote lots of 10 buy 50 lots and their fees, and no more. *)
Example C13_case :
  let o := mkOrder Bid 60 5400 9 0 DecrementTake (OFixed 107 PTLimit) in
  sound_call (s_w sample1) o (Some 103) 103 /\
  amounts (new_order (s_w sample1) o (Some 100) (Some 103) 103 120 10 []) =
    Some (mkAmounts None 0 0 5000 52950 22 0 22).
Proof. cbv zeta beta; split; [apply sample1_call; sane|vm_compute; reflexivity]. Qed.

(** C14, for bids: the fills follow the order of the listing, which is price-time priority,
    and before a fill every listed order with priority over it that may trade has been
    finished. *)
Theorem C14_better_first_bids w o oracle taker owner now limit rem w' r :
  sound_call w o taker owner -> new_order w o oracle taker owner now limit rem = Ok (w', r) ->
  o_side o = Bid ->
  exists items acts gone put,
  explained w o oracle taker owner now rem w' r items acts gone put /\
  StronglySorted (listed_before Ask) items /\
  (forall L l, lists (w_book w Ask) Fixed L -> In l L ->
     exists i, In i items /\ im_tree i = Fixed /\ im_leaf i = l) /\
  forall A i q B, acts = A ++ AFill i q :: B ->
    forall j, In j items -> may_trade Ask now j -> beats Ask j i ->
    exists a, In a A /\ finishes a j.
Proof. exact (better_first_bids w o oracle taker owner now limit rem w' r). Qed.
Print Assumptions C14_better_first_bids.

(** The ask at 105 and the pegged ask at 106 are finished, five lots at 107 are left. *)
Example C14_case : o_side bid107 = Bid /\ sound_call (s_w sample1) bid107 (Some 103) 103 /\
  exists w' L, new_order (s_w sample1) bid107 (Some 100) (Some 103) 103 120 10 [] =
      Ok (w', mkAmounts None 0 0 6000 63650 26 0 26) /\
    lists (w_book w' Ask) Fixed L /\ map price_qty L = [(107, 5)].
Proof.
  split; [reflexivity|]. split; [apply sample1_call; sane|]. apply placed_view_ok. vm_compute. reflexivity.
Qed.

(** C14, for asks, is false: a sale limited to 199 quote lots sells one lot at 100 and then
    one at 60, leaving nine lots of the better bid at 100. *)
Theorem C14_better_first_refuted : exists s o k now limit L w' r L',
  reachable s /\ sane_order o /\ o_side o = Ask /\
  lists (w_book (s_w s) Bid) Fixed L /\ map price_qty L = [(100, 10); (60, 10)] /\
  new_order (s_w s) o None (Some k) k now limit [] = Ok (w', r) /\
  lists (w_book w' Bid) Fixed L' /\ map price_qty L' = [(100, 9); (60, 9)].
Proof.
  exists sample2, (mkOrder Ask 30 199 9 0 DecrementTake (OFixed 50 PTLimit)), 103, 120, 10.
  destruct (view_ok (s_w sample2) Bid Fixed [(100, 10); (60, 10)] ltac:(vm_compute; reflexivity)) as (L & HL & EL).
  destruct (placed_view_ok (new_order (s_w sample2) (mkOrder Ask 30 199 9 0 DecrementTake (OFixed 50 PTLimit)) None
    (Some 103) 103 120 10 []) Bid Fixed (mkAmounts None 0 0 2 160 0 0 0) [(100, 9); (60, 9)]
    ltac:(vm_compute; reflexivity)) as (w' & L' & E & HL' & EL').
  exists L, w', (mkAmounts None 0 0 2 160 0 0 0), L'.
  split; [exact sample2_reachable|]. split; [sane|]. split; [reflexivity|].
  split; [exact HL|]. split; [exact EL|]. split; [exact E|]. split; [exact HL'|exact EL'].
Qed.
Print Assumptions C14_better_first_refuted.

(** What holds for both sides: a better order is left unfinished only by a sale whose
    remaining quote limit does not reach its price.
    Missing: such sales go on to worse orders. *)
Theorem C14_better_first_partial w o oracle taker owner now limit rem w' r :
  sound_call w o taker owner -> new_order w o oracle taker owner now limit rem = Ok (w', r) ->
  exists items acts gone put,
  explained w o oracle taker owner now rem w' r items acts gone put /\
  StronglySorted (listed_before (invert_side (o_side o))) items /\
  (forall L l, lists (w_book w (invert_side (o_side o))) Fixed L -> In l L ->
     exists i, In i items /\ im_tree i = Fixed /\ im_leaf i = l) /\
  forall A i q B, acts = A ++ AFill i q :: B ->
    forall j, In j items -> may_trade (invert_side (o_side o)) now j -> beats (invert_side (o_side o)) j i ->
    exists A1 a A2, A = A1 ++ a :: A2 /\
      (finishes a j \/
       o_side o = Ask /\ exists q', a = AFill j q' /\ q' < lf_qty (im_leaf j) /\
         o_max_quote o - quote_lots (A1 ++ [a]) < im_price j).
Proof. exact (better_first w o oracle taker owner now limit rem w' r). Qed.
Print Assumptions C14_better_first_partial.

Example C14_partial_case : let o := mkOrder Ask 15 10000 9 0 DecrementTake (OFixed 50 PTLimit) in
  sound_call (s_w sample2) o (Some 103) 103 /\
  exists w' L, new_order (s_w sample2) o None (Some 103) 103 120 10 [] = Ok (w', mkAmounts None 0 0 15 1300 0 0 0) /\
    lists (w_book w' Bid) Fixed L /\ map price_qty L = [(60, 5)].
Proof. cbv zeta beta; split; [apply sample2_call; sane|]. apply placed_view_ok. vm_compute. reflexivity. Qed.

(** C15: immediate-or-cancel, market and fill-or-kill orders leave nothing on the book (and
    make no room there), and a successful fill-or-kill is filled completely. *)
Theorem C15_take_only w o oracle taker owner now limit rem w' r :
  sound_call w o taker owner -> new_order w o oracle taker owner now limit rem = Ok (w', r) ->
  match o_params o with OMarket | OImmediateOrCancel _ | OFillOrKill _ => True | _ => False end ->
  exists items acts, explained w o oracle taker owner now rem w' r items acts [] None /\
  (forall p, o_params o = OFillOrKill p -> oa_base_taken r = o_max_base o * bls (w_mkt w)).
Proof.
  intros Hs Hn Hp. apply (take_only_types w o oracle taker owner now limit rem w' r Hs Hn).
  unfold post_target, rests_in. destruct (o_params o); (reflexivity || contradiction).
Qed.
Print Assumptions C15_take_only.

Example C15_take_only_case :
  let fok := sample_bid DecrementTake (OFillOrKill 107) in
  let ioc := sample_bid DecrementTake (OImmediateOrCancel 106) in
  let small := sample_bid DecrementTake (OFillOrKill 106) in
  sound_call (s_w sample1) fok (Some 103) 103 /\ sound_call (s_w sample1) ioc (Some 103) 103 /\
  amounts (new_order (s_w sample1) fok (Some 100) (Some 103) 103 120 10 []) = Some (mkAmounts None 0 0 6000 63650 26 0 26) /\
  amounts (new_order (s_w sample1) ioc (Some 100) (Some 103) 103 120 10 []) = Some (mkAmounts None 0 0 3500 36900 15 0 15) /\
  amounts (new_order (s_w sample1) small (Some 100) (Some 103) 103 120 10 []) = None.
Proof. cbv zeta beta; split; [apply sample1_call; sane|]. split; [apply sample1_call; sane|]. vm_compute. auto. Qed.

(** C15: a post-only or post-only-slide order never trades, and if it is placed then not worse
    than asked for and not at or through any opposing order that may trade. *)
Theorem C15_post_only w o oracle taker owner now limit rem w' r :
  sound_call w o taker owner -> new_order w o oracle taker owner now limit rem = Ok (w', r) ->
  posts_only o = true ->
  exists items acts gone put,
  explained w o oracle taker owner now rem w' r items acts gone put /\
  (forall a, In a acts -> is_drop a = true) /\
  oa_base_taken r = 0 /\ oa_quote_taken r = 0 /\ oa_taker_fees r = 0 /\
  forall t l, put = Some (t, l) -> exists p,
    price_is oracle t l p /\ accepts (o_side o) (order_limit o oracle) p /\
    (forall i, In i items -> may_trade (invert_side (o_side o)) now i -> ~ crosses (o_side o) p (im_price i)).
Proof. exact (post_only_type w o oracle taker owner now limit rem w' r). Qed.
Print Assumptions C15_post_only.

(** C15: a limit or post-only order rests at the price asked for, a sliding one there or one
    step before an opposing order it would have met; a pegged one within its peg limit. *)
Theorem C15_posted_price w o oracle taker owner now limit rem w' r :
  sound_call w o taker owner -> new_order w o oracle taker owner now limit rem = Ok (w', r) ->
  exists items acts gone put,
  explained w o oracle taker owner now rem w' r items acts gone put /\
  forall t l, put = Some (t, l) -> exists p lim,
    price_is oracle t l p /\ order_limit o oracle = Some lim /\
    (slides o = false -> p = lim) /\
    (slides o = true -> p = lim \/
       exists i, In i items /\ may_trade (invert_side (o_side o)) now i /\ crosses (o_side o) lim (im_price i) /\
         p = match o_side o with Bid => im_price i - 1 | Ask => im_price i + 1 end) /\
    within_peg (o_side o) p (limit_given o).
Proof. exact (posted_price w o oracle taker owner now limit rem w' r). Qed.
Print Assumptions C15_posted_price.

(** Post-only at 107 is not placed; sliding rests at 104, before the ask at 105. *)
Example C15_post_case :
  let post := sample_bid DecrementTake (OFixed 107 PTPostOnly) in
  let slide := sample_bid DecrementTake (OFixed 107 PTPostOnlySlide) in
  posts_only post = true /\ posts_only slide = true /\
  sound_call (s_w sample1) post (Some 103) 103 /\ sound_call (s_w sample1) slide (Some 103) 103 /\
  amounts (new_order (s_w sample1) post (Some 100) (Some 103) 103 120 10 []) = Some (mkAmounts None 0 0 0 0 0 0 0) /\
  exists w' L r, new_order (s_w sample1) slide (Some 100) (Some 103) 103 120 10 [] = Ok (w', r) /\
    lists (w_book w' Bid) Fixed L /\ map price_qty L = [(104, 60); (95, 40); (94, 50)].
Proof.
  split; [reflexivity|]. split; [reflexivity|]. split; [apply sample1_call; sane|]. split; [apply sample1_call; sane|].
  split; [vm_compute; reflexivity|].
  destruct (placed_view_ok (new_order (s_w sample1) (sample_bid DecrementTake (OFixed 107 PTPostOnlySlide)) (Some 100)
    (Some 103) 103 120 10 []) Bid Fixed
    (mkAmounts (Some 1936908127739502919673) 6000 62400 0 0 0 13 0) [(104, 60); (95, 40); (94, 50)]
    ltac:(vm_compute; reflexivity)) as (w' & L & E & HL & EL).
  exists w', L, (mkAmounts (Some 1936908127739502919673) 6000 62400 0 0 0 13 0). auto.
Qed.

(** C16: with abort (and cancel-provide) no fill is with the taker's own account; only
    cancel-provide cancels own orders (refunding them, see [effect]); the taker fee is
    charged exactly on what is bought from or sold to others, and what is not promised to
    makers of it goes to the referrer account. *)
Theorem C16_self_trades w o oracle taker owner now limit rem w' r :
  sound_call w o taker owner -> new_order w o oracle taker owner now limit rem = Ok (w', r) ->
  exists items acts gone put,
  explained w o oracle taker owner now rem w' r items acts gone put /\
  (o_self_trade o <> DecrementTake -> forall i q, In (AFill i q) acts -> own_item taker i = false) /\
  (forall i, In (AOwn i) acts -> o_self_trade o = CancelProvide /\ own_item taker i = true) /\
  oa_taker_fees r = taker_pays (w_mkt w) (others_quote taker acts * qls (w_mkt w)) /\
  oa_referrer r = (if 0 <? others_quote taker acts * qls (w_mkt w)
                   then oa_taker_fees r - rebates (w_mkt w) taker acts else 0).
Proof. exact (self_trades w o oracle taker owner now limit rem w' r). Qed.
Print Assumptions C16_self_trades.

(** User 1 meets their own asks at 105 and 107 and user 2's pegged ask at 106. *)
Example C16_case :
  let o t := sample_bid t (OFixed 106 PTLimit) in
  (forall t, sound_call (s_w sample1) (o t) (Some 101) 101) /\
  amounts (new_order (s_w sample1) (o AbortTransaction) (Some 100) (Some 101) 101 120 10 []) = None /\
  option_map oa_base_taken (amounts (new_order (s_w sample1) (o CancelProvide) (Some 100) (Some 101) 101 120 10 [])) = Some 1500 /\
  option_map oa_taker_fees (amounts (new_order (s_w sample1) (o CancelProvide) (Some 100) (Some 101) 101 120 10 [])) = Some 7 /\
  option_map oa_base_taken (amounts (new_order (s_w sample1) (o DecrementTake) (Some 100) (Some 101) 101 120 10 [])) = Some 3500 /\
  option_map oa_taker_fees (amounts (new_order (s_w sample1) (o DecrementTake) (Some 100) (Some 101) 101 120 10 [])) = Some 7.
Proof. split; [intros t; apply sample1_call; sane|]. vm_compute. auto. Qed.

(** C17: at most [limit] fills, at most five removals of invalid orders, at most [limit] + 7
    new events. *)
Theorem C17_limits w o oracle taker owner now limit rem w' r :
  sound_call w o taker owner -> new_order w o oracle taker owner now limit rem = Ok (w', r) ->
  0 <= limit ->
  exists items acts gone put,
  explained w o oracle taker owner now rem w' r items acts gone put /\
  Z.of_nat (length (filter is_fill acts)) <= limit /\ (length (filter is_drop acts) <= 5)%nat /\
  h_count (w_heap w) <= h_count (w_heap w') <= h_count (w_heap w) + limit + 7.
Proof. exact (limits_respected w o oracle taker owner now limit rem w' r). Qed.
Print Assumptions C17_limits.

(** Limit 2 stops after the asks at 105 and 106 although 107 is acceptable. *)
Example C17_case : sound_call (s_w sample1) bid107 (Some 103) 103 /\
  amounts (new_order (s_w sample1) bid107 (Some 100) (Some 103) 103 120 2 []) = Some (mkAmounts None 0 0 3500 36900 15 0 15) /\
  match new_order (s_w sample1) bid107 (Some 100) (Some 103) 103 120 2 [] with
  | Ok (w', _) => h_count (w_heap w') = h_count (w_heap (s_w sample1)) + 2
  | Err _ => False
  end.
Proof. cbv zeta beta; split; [apply sample1_call; sane|]. vm_compute. auto. Qed.

(** C18 is false in full, for bids: with a taker fee of one half, user 1 meets the own ask at
    10. The budget of 150 allows 100 before fees; the fee is not charged on the self trade,
    and one lot is placed at 30 while ten lots at 10 are left. *)
Theorem C18_posting_never_crosses_refuted_bid : exists s o k now limit w' r LA LB,
  reachable s /\ sane_order o /\ o_side o = Bid /\
  new_order (s_w s) o None (Some k) k now limit [] = Ok (w', r) /\ oa_posted_base r = 1 /\
  lists (w_book w' Ask) Fixed LA /\ map price_qty LA = [(10, 10)] /\
  lists (w_book w' Bid) Fixed LB /\ map price_qty LB = [(30, 1)] /\ forall l, In l (LA ++ LB) -> lf_tif l = 0.
Proof. exact posts_crossing_bid. Qed.
Print Assumptions C18_posting_never_crosses_refuted_bid.

(** And for asks: a sale limited to 199 quote lots sells one lot at 100 and rests at 61 while
    nine lots of the bid at 100 are left. *)
Theorem C18_posting_never_crosses_refuted_ask : exists s o k now limit w' r LA LB,
  reachable s /\ sane_order o /\ o_side o = Ask /\
  new_order (s_w s) o None (Some k) k now limit [] = Ok (w', r) /\ oa_posted_base r = 1 /\
  lists (w_book w' Bid) Fixed LB /\ map price_qty LB = [(100, 9); (60, 10)] /\
  lists (w_book w' Ask) Fixed LA /\ map price_qty LA = [(61, 1); (110, 10); (150, 10)] /\
  forall l, In l (LA ++ LB) -> lf_tif l = 0.
Proof. exact posts_crossing_ask. Qed.
Print Assumptions C18_posting_never_crosses_refuted_ask.

(** What holds: if the order is post-only or its quote budget covers its whole base quantity
    at every acceptable price, then when it is placed every listed opposing order that may
    trade and that it meets has been finished; and if no pegged order is out of range,
    nothing that the opposing side lists afterwards and that may trade meets it.
    Missing: orders with less quote than base (false, see above), and pegged orders the
    listing misses (C08). *)
Theorem C18_posting_never_crosses_partial w o oracle taker owner now limit rem w' r :
  sound_call w o taker owner -> new_order w o oracle taker owner now limit rem = Ok (w', r) ->
  (posts_only o = false -> forall p items, order_limit o oracle = Some p ->
     iter_all (w_book w (invert_side (o_side o))) now oracle = Ok items -> ample_budget (w_mkt w) o p items) ->
  exists items acts gone put,
  explained w o oracle taker owner now rem w' r items acts gone put /\
  forall t l, put = Some (t, l) -> exists p, price_is oracle t l p /\
    (forall i, In i items -> may_trade (invert_side (o_side o)) now i -> crosses (o_side o) p (im_price i) ->
       exists a, In a acts /\ finishes a i) /\
    (pegs_in_range (w_book w (invert_side (o_side o))) oracle ->
     exists items', iter_all (w_book w' (invert_side (o_side o))) now oracle = Ok items' /\
     forall i, In i items' -> may_trade (invert_side (o_side o)) now i -> ~ crosses (o_side o) p (im_price i)).
Proof. exact (posting_never_crosses w o oracle taker owner now limit rem w' r). Qed.
Print Assumptions C18_posting_never_crosses_partial.

Example C18_case : let o := sample_bid DecrementTake (OFixed 106 PTLimit) in
  sound_call (s_w sample1) o (Some 103) 103 /\ (forall items, ample_budget (w_mkt (s_w sample1)) o 106 items) /\
  exists w' L r, new_order (s_w sample1) o (Some 100) (Some 103) 103 120 10 [] = Ok (w', r) /\
    lists (w_book w' Bid) Fixed L /\ map price_qty L = [(106, 25); (95, 40); (94, 50)].
Proof.
  split; [apply sample1_call; sane|]. split; [intros items; vm_compute; discriminate|].
  destruct (amounts (new_order (s_w sample1) (sample_bid DecrementTake (OFixed 106 PTLimit)) (Some 100)
    (Some 103) 103 120 10 [])) as [r|] eqn:Er; [|vm_compute in Er; discriminate Er].
  destruct (placed_view_ok (new_order (s_w sample1) (sample_bid DecrementTake (OFixed 106 PTLimit)) (Some 100)
    (Some 103) 103 120 10 []) Bid Fixed r [(106, 25); (95, 40); (94, 50)]
    ltac:(vm_compute; vm_compute in Er; congruence)) as (w' & L & E & HL & EL).
  exists w', L, r. auto.
Qed.
