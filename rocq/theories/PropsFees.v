(** Properties C19 (fees) and C39 (expiry).  Vocabulary: SpecFees.v, SpecOrder.v, SpecInstr.v. *)
From Coq Require Import ZArith List Bool Lia.
From Verif Require Import Base Nodes OrderTree BookSide Heap Market OpenOrders Order Book Instructions
  SpecBook SpecFees SpecOrder SpecInstr FeeProofs OrderClaims Steps StepFacts InstrFacts Samples PropsOrder.
Import ListNotations.
Open Scope Z_scope.

(** C19: for every fee schedule accepted at market creation, the taker fee on an amount is the
    exact fee rounded up, at most the amount, and covers the rebates promised to makers
    however the amount is split into fills. *)
Theorem C19_taker_fee now t c te s m amount fills :
  create_market_ix now t c te = Ok s -> m_cfg m = c -> 0 <= amount < 2 ^ 64 ->
  (forall x, In x fills -> 0 <= x) -> sumZ fills = amount ->
  exists f, taker_fees_ceil chk_u64 m amount = Ok f /\
    amount * taker_fee m <= f * 1000000 < amount * taker_fee m + 1000000 /\ 0 <= f <= amount /\
    exists rs, Forall2 (fun x r => maker_rebate_floor m x = Ok r /\ 0 <= r) fills rs /\ sumZ rs <= f.
Proof. exact (taker_fee_exact now t c te s m amount fills). Qed.
Print Assumptions C19_taker_fee.

(** C19: the maker fee on a fill is the exact fee rounded down, or nothing if makers get a
    rebate, whose amount is rounded down too. *)
Theorem C19_maker_fee now t c te s m amount :
  create_market_ix now t c te = Ok s -> m_cfg m = c -> 0 <= amount < 2 ^ 64 ->
  exists f r, maker_fees_floor m amount = Ok f /\ maker_rebate_floor m amount = Ok r /\
    0 <= f <= amount /\ 0 <= r <= amount /\
    (0 <= maker_fee m -> f * 1000000 <= amount * maker_fee m < f * 1000000 + 1000000 /\ r = 0) /\
    (maker_fee m <= 0 -> r * 1000000 <= amount * - maker_fee m < r * 1000000 + 1000000 /\ f = 0).
Proof. exact (maker_fee_exact now t c te s m amount). Qed.
Print Assumptions C19_maker_fee.

(** C19: what is locked when a bid is posted covers the fees of any fills and what a final
    cancellation of the rest refunds. *)
Theorem C19_locked_fee now t c te s m amount fills rest :
  create_market_ix now t c te = Ok s -> m_cfg m = c -> 0 <= amount < 2 ^ 63 ->
  (forall x, In x fills -> 0 <= x) -> 0 <= rest -> sumZ fills + rest = amount ->
  exists locked refund fs, maker_fees_ceil chk_i64 m amount = Ok locked /\
    maker_fees_ceil chk_u64 m rest = Ok refund /\
    Forall2 (fun x f => maker_fees_floor m x = Ok f /\ 0 <= f) fills fs /\
    0 <= refund /\ sumZ fs + refund <= locked <= amount.
Proof. exact (locked_fee_covers now t c te s m amount fills rest). Qed.
Print Assumptions C19_locked_fee.

(** C19: in an order, the fees charged are these, on the amounts traded with others and
    posted. *)
Theorem C19_order_fees w o oracle taker owner now limit rem w' r :
  sound_call w o taker owner -> new_order w o oracle taker owner now limit rem = Ok (w', r) ->
  exists items acts gone put,
  explained w o oracle taker owner now rem w' r items acts gone put /\
  oa_taker_fees r = taker_pays (w_mkt w) (others_quote taker acts * qls (w_mkt w)) /\
  0 <= rebates (w_mkt w) taker acts <= oa_taker_fees r /\
  oa_maker_fees r = match o_side o with Bid => maker_locks (w_mkt w) (oa_posted_quote r) | Ask => 0 end.
Proof. exact (order_fees w o oracle taker owner now limit rem w' r). Qed.
Print Assumptions C19_order_fees.

Definition fee_market (maker taker : Z) : market :=
  mkMarket (market_with 10 100 maker taker) 0 0 0 0 0 0 0 0 0 0.
Example C19_case :
  is_ok (sample_market 10 100 200 400) = true /\ is_ok (sample_market 10 100 (-300) 400) = true /\
  is_ok (sample_market 10 100 (-500) 400) = false /\
  taker_fees_ceil chk_u64 (fee_market (-300) 400) 33333 = Ok 14 /\
  map (maker_rebate_floor (fee_market (-300) 400)) [11111; 22222] = [Ok 3; Ok 6] /\
  maker_fees_ceil chk_i64 (fee_market 200 400) 33333 = Ok 7 /\
  map (maker_fees_floor (fee_market 200 400)) [11111; 12222] = [Ok 2; Ok 2] /\
  maker_fees_ceil chk_u64 (fee_market 200 400) 10000 = Ok 2.
Proof. vm_compute. auto 10. Qed.

Example C19_order_case : sound_call (s_w sample1) bid107 (Some 103) 103 /\
  amounts (new_order (s_w sample1) bid107 (Some 100) (Some 103) 103 120 10 []) =
    Some (mkAmounts None 0 0 6000 63650 26 0 26).
Proof. exact C12_case. Qed.

(** C39: an order placed by an instruction can trade exactly before its expiry timestamp, and
    at most for 65535 seconds; without expiry it can always. *)
Theorem C39_expiry e s i s' id sd expiry k : reachable s -> exec e s i = Ok (s', OIds [Some id]) ->
  placing i = Some (sd, expiry) -> placing_for i = Some k ->
  exists t L l, lists (w_book (s_w s') sd) t L /\ In l L /\ lf_key l = id /\ lf_owner l = k /\
    expires_at (e_now e) expiry l.
Proof. exact (instr_expires e s i s' id sd expiry k). Qed.
Print Assumptions C39_expiry.

(** C39: the same for every order placed, also by place_orders. *)
Theorem C39_order_expiry w o oracle taker owner now limit rem w' r expiry id :
  sound_call w o taker owner -> new_order w o oracle taker owner now limit rem = Ok (w', r) ->
  0 <= now -> 0 <= expiry -> tif_from_expiry now expiry = Some (o_tif o) -> oa_order_id r = Some id ->
  exists t L l, lists (w_book w' (o_side o)) t L /\ In l L /\ lf_key l = id /\ lf_owner l = owner /\
    expires_at now expiry l.
Proof. exact (order_expires w o oracle taker owner now limit rem w' r expiry id). Qed.
Print Assumptions C39_order_expiry.

(** C39: an expiry in the past changes nothing. *)
Theorem C39_expired_places_nothing e s i s' out sd expiry : exec e s i = Ok (s', out) ->
  placing i = Some (sd, expiry) -> 0 < expiry <= e_now e -> s' = s /\ out = OIds [None].
Proof. exact (expired_places_nothing e s i s' out sd expiry). Qed.
Print Assumptions C39_expired_places_nothing.

(** With expiry 150, user 3's bid is placed at time 120, and not at time 150. *)
Example C39_case : reachable sample1 /\
  let i := limit_until 3 Bid 90 5 8 150 in
  placing i = Some (Bid, 150) /\ placing_for i = Some 103 /\
  match exec (at_time 120 (Some 100)) sample1 i with
  | Ok (_, OIds [Some id]) => id / 2 ^ 64 = 90
  | _ => False
  end /\
  match exec (at_time 150 (Some 100)) sample1 i with Ok (_, out) => out = OIds [None] | _ => False end.
Proof. split; [exact sample1_reachable|]. vm_compute. auto. Qed.
