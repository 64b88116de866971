(** Properties C48 to C50: matching does not stop early, and how room is made on a full side.
    Vocabulary: SpecMatch.v and SpecOrder.v. *)
From Coq Require Import ZArith List Bool.
From Verif Require Import Base Nodes OrderTree BookSide Heap Market OpenOrders Order Book Instructions
  SpecBook SpecFees SpecOrder SpecMatch SpecSystem MatchDone Steps StepFacts Samples PropsOrder.
Import ListNotations.
Open Scope Z_scope.

(** C48: after placing an order that may take, every listed order it could have met is gone
    (filled, or cancelled as the taker's own), unless there is a reason to stop: everything
    asked for was traded, the match limit is used up, or the budget does not reach the price
    of it or of an order that comes first.  Every limit order of the side is listed. *)
Theorem C48_takes_all w o oracle taker owner now limit rem w' r :
  sound_call w o taker owner -> new_order w o oracle taker owner now limit rem = Ok (w', r) ->
  0 <= limit -> posts_only o = false ->
  exists items acts gone put,
  explained w o oracle taker owner now rem w' r items acts gone put /\
  (forall L l, lists (w_book w (invert_side (o_side o))) Fixed L -> In l L ->
     exists i, In i items /\ im_tree i = Fixed /\ im_leaf i = l) /\
  Z.of_nat (length (filter is_fill acts)) <= limit /\
  forall i, In i items -> may_trade (invert_side (o_side o)) now i ->
    accepts (o_side o) (order_limit o oracle) (im_price i) ->
    (exists a, In a acts /\ finishes a i) \/ has_reason w o now limit items acts i.
Proof. intros Hsc Hno. exact (takes_all w o oracle taker owner now limit rem w' r Hsc Hno). Qed.
Print Assumptions C48_takes_all.

(** A market order for 100 lots takes all three asks of sample 1 (65 lots); limited to two
    matches it leaves the third. *)
Example C48_case : let o := mkOrder Bid 100 100000 9 0 DecrementTake OMarket in
  sound_call (s_w sample1) o (Some 103) 103 /\ posts_only o = false /\
  (exists w' L, new_order (s_w sample1) o (Some 100) (Some 103) 103 120 10 [] =
      Ok (w', mkAmounts None 0 0 6500 69000 28 0 28) /\
    lists (w_book w' Ask) Fixed L /\ map price_qty L = []) /\
  (exists w' L, new_order (s_w sample1) o (Some 100) (Some 103) 103 120 2 [] =
      Ok (w', mkAmounts None 0 0 3500 36900 15 0 15) /\
    lists (w_book w' Ask) Fixed L /\ map price_qty L = [(107, 30)]).
Proof.
  cbv zeta. split; [apply sample1_call; sane|]. split; [reflexivity|].
  split; apply placed_view_ok; vm_compute; reflexivity.
Qed.

(** C49: the orders of the own side dropped to make room for a new one had expired, except at
    most one, which was the worst of 512 or more and worse than the new order. *)
Theorem C49_room w o oracle taker owner now limit rem w' r LF LP :
  sound_call w o taker owner -> new_order w o oracle taker owner now limit rem = Ok (w', r) ->
  now < 2 ^ 64 -> lists (w_book w (o_side o)) Fixed LF -> lists (w_book w (o_side o)) OraclePegged LP ->
  exists items acts gone put,
  explained w o oracle taker owner now rem w' r items acts gone put /\
  (Forall (fun x => gone_before now (snd x)) gone \/
   exists ge t l, gone = ge ++ [(t, l)] /\ Forall (fun x => gone_before now (snd x)) ge /\
     evicts (o_side o) oracle (map (pair Fixed) LF ++ map (pair OraclePegged) LP) ge t l put).
Proof. intros Hsc Hno. exact (room_claim w o oracle taker owner now limit rem w' r Hsc Hno LF LP). Qed.
Print Assumptions C49_room.

(** 512 asks of user 1 at 1000, 1001, ... 1511, 24 to an account. *)
Definition more_accounts : list (env * instr) :=
  map (fun k => (at_time 10 None, ICreateAccount (201 + Z.of_nat k) 1 0 0)) (seq 0 22).
Definition many_asks : list (env * instr) :=
  map (fun n => (at_time (100 + Z.of_nat n) None,
      IPlaceOrder (mkPlaceCtx 1 (201 + Z.of_nat n / 24) 0 11 51 [])
        (mkPlaceArgs Ask (1000 + Z.of_nat n) 1 1000000 7 POLimit 0 DecrementTake 10))) (seq 0 512).
Definition full_run : res sys := run (sample_market 1 1 0 0) (open_accounts 10 ++ more_accounts ++ many_asks).
Definition full_sample : sys := the_sys full_run.
Lemma full_sample_reachable : reachable full_sample.
Proof. unfold full_sample, full_run, sample_market. apply sample_reachable. vm_compute. reflexivity. Qed.
Lemma full_call o k : sane_order o -> sound_call (s_w full_sample) o (Some k) k.
Proof. intros H. exact (C12_calls_are_sound None _ _ 0 0 _ _ _ full_sample_reachable (wss_nil _ _ _ _) H (or_introl eq_refl)). Qed.

(** The new ask at 900 takes the place of the one at 1511. *)
Definition prices_from (p : Z) (n : nat) : list (Z * Z) := map (fun k => (p + Z.of_nat k, 1)) (seq 0 n).
Example C49_case : let o := mkOrder Ask 5 100000 9 0 DecrementTake (OFixed 900 PTLimit) in
  sound_call (s_w full_sample) o (Some 103) 103 /\
  (exists L, lists (w_book (s_w full_sample) Ask) Fixed L /\ map price_qty L = prices_from 1000 512) /\
  exists w' L r, new_order (s_w full_sample) o None (Some 103) 103 1000 10 [] = Ok (w', r) /\
    lists (w_book w' Ask) Fixed L /\ map price_qty L = (900, 5) :: prices_from 1000 511.
Proof.
  cbv zeta. split; [apply full_call; sane|].
  split; [apply view_ok; vm_compute; reflexivity|].
  destruct (placed_view_ok (new_order (s_w full_sample) (mkOrder Ask 5 100000 9 0 DecrementTake (OFixed 900 PTLimit)) None
    (Some 103) 103 1000 10 []) Ask Fixed (mkAmounts (Some 16602069666338596454913) 5 4500 0 0 0 0 0)
    ((900, 5) :: prices_from 1000 511) ltac:(vm_compute; reflexivity)) as (w' & L & E & HL & EL).
  exists w', L, (mkAmounts (Some 16602069666338596454913) 5 4500 0 0 0 0 0). auto.
Qed.

(** C50: an order that beats the worst order of a full side finds room.  False: when the
    worst order is the only pegged one among 513, dropping it frees one node of the pool and
    inserting the new order needs two. *)
Definition crowded_run : res sys :=
  run (sample_market 1 1 0 0)
    (open_accounts 10 ++ more_accounts ++ [(at_time 50 (Some 5000), peg_order 2 Ask 1 1 15 3)] ++ many_asks).
Definition crowded : sys := the_sys crowded_run.
Lemma crowded_reachable : reachable crowded.
Proof. unfold crowded, crowded_run, sample_market. apply sample_reachable. vm_compute. reflexivity. Qed.

(** Nothing rests on the bid side, so nothing can be met, and the ask at 900 beats the pegged
    order's 5001. *)
Theorem C50_room_found_refuted : exists s now op a LF,
  reachable s /\ (exists l, lists (w_book (s_w s) Ask) OraclePegged [l] /\ room_price (Some op) OraclePegged l = Some 5001) /\
  lists (w_book (s_w s) Ask) Fixed LF /\ map price_qty LF = prices_from 1000 512 /\
  lists (w_book (s_w s) Bid) Fixed [] /\ lists (w_book (s_w s) Bid) OraclePegged [] /\
  pa_side a = Ask /\ pa_price a = 900 /\
  exec (at_time now (Some op)) s (IPlaceOrder (place_by 3 Ask []) a) = Err SomeError.
Proof.
  destruct (view_ok (s_w crowded) Ask Fixed (prices_from 1000 512) ltac:(vm_compute; reflexivity)) as (LF & HF & EF).
  exists crowded, 1000, 5000, (mkPlaceArgs Ask 900 1 1000000 1 POLimit 0 DecrementTake 10), LF.
  split; [exact crowded_reachable|]. split.
  { eexists. split; [eexists; split; [vm_compute; reflexivity|reflexivity]|vm_compute; reflexivity]. }
  split; [exact HF|]. split; [exact EF|].
  split; [exists []; split; vm_compute; reflexivity|]. split; [exists []; split; vm_compute; reflexivity|].
  split; [reflexivity|]. split; [reflexivity|]. vm_compute. reflexivity.
Qed.
Print Assumptions C50_room_found_refuted.

(** What holds: once the worst order was dropped there is room for any order, unless one kind
    of order is gone from the side and the other has 512.
    Missing: that case, and sides whose worst order cannot be told (only pegged orders, no
    oracle price). *)
Theorem C50_room_found_partial s bs now oracle bs' x p LF LP t l :
  book_reach s bs -> bs_remove_worst bs now oracle = Ok (bs', Some (x, p)) ->
  lists bs' Fixed LF -> lists bs' OraclePegged LP ->
  ((length LF <= 511)%nat \/ LP <> []) -> ((length LP <= 511)%nat \/ LF <> []) -> is_u128 (lf_key l) ->
  exists bs2 h old, bs_insert_leaf bs' t l = Ok (bs2, h, old).
Proof. exact (room_after_eviction s bs now oracle bs' x p LF LP t l). Qed.
Print Assumptions C50_room_found_partial.

(** The side of 512 limit asks loses the one at 1511. *)
Example C50_case : book_reach Ask (w_book (s_w full_sample) Ask) /\
  exists bs' x LF, bs_remove_worst (w_book (s_w full_sample) Ask) 1000 None = Ok (bs', Some (x, 1511)) /\
    lists bs' Fixed LF /\ length LF = 511%nat /\ lists bs' OraclePegged [].
Proof.
  split.
  { pose proof (sc_sides _ _ _ _ (full_call (mkOrder Ask 5 100000 9 0 DecrementTake (OFixed 900 PTLimit)) 103 ltac:(sane)) Ask) as [H _]. exact H. }
  destruct (bs_remove_worst (w_book (s_w full_sample) Ask) 1000 None) as [[bs' [[x p]|]]|] eqn:E.
  2:{ exfalso. revert E. vm_compute. discriminate. }
  2:{ exfalso. revert E. vm_compute. discriminate. }
  assert (G : match bs_remove_worst (w_book (s_w full_sample) Ask) 1000 None with
    | Ok (b, Some (y, q)) => match tree_iter_all (bs_nodes b) (bs_root b Fixed), tree_iter_all (bs_nodes b) (bs_root b OraclePegged) with
        | Ok i, Ok [] => (q =? 1511) && (length i =? 511)%nat
        | _, _ => false end
    | _ => false end = true) by (vm_compute; reflexivity).
  rewrite E in G. destruct (tree_iter_all (bs_nodes bs') (bs_root bs' Fixed)) as [i|] eqn:E1; [|discriminate G].
  destruct (tree_iter_all (bs_nodes bs') (bs_root bs' OraclePegged)) as [[|j i']|] eqn:E2; try discriminate G.
  apply andb_prop in G as [G1 G2]. apply Z.eqb_eq in G1. apply Nat.eqb_eq in G2. subst p.
  exists bs', x, (map snd i). split; [reflexivity|]. split; [exists i; auto|]. split; [rewrite map_length; exact G2|].
  exists []. auto.
Qed.
