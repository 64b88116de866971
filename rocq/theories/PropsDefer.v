(** Property C60: it does not matter in the end which accounts are passed along with an order.
    Vocabulary: SpecDefer.v ([with_rem], [placed_by], [same_end]), SpecEvents.v ([consumed]). *)
From Coq Require Import ZArith List Bool Lia.
From Verif Require Import Base Nodes OrderTree BookSide Heap Market OpenOrders Order Book Instructions
  SpecBook SpecOrder SpecSystem SpecEvents SpecDefer DeferIx Samples.
Import ListNotations.
Open Scope Z_scope.

(** The same instruction sent with other accounts passed along: some of its fills and removals
    are then applied at once that were queued before, or the other way round.  If both go
    through, they return the same, and when the queue has been emptied - by whom and in
    whatever order - market, books, accounts and tokens are the same; only the account the
    order was placed through may owe a penalty more or less. *)
Theorem C60_same_end e s i r1 r2 s1 s2 out1 out2 s1' s2' : reachable s ->
  exec e s (with_rem i r1) = Ok (s1, out1) -> exec e s (with_rem i r2) = Ok (s2, out2) ->
  consumed s1 s1' -> consumed s2 s2' -> waiting (s_w s1') = [] -> waiting (s_w s2') = [] ->
  out1 = out2 /\ same_end (placed_by i) s1' s2'.
Proof. exact (defer_same e s i r1 r2 s1 s2 out1 out2 s1' s2'). Qed.
Print Assumptions C60_same_end.

(** Already before that, books and tokens are the same. *)
Theorem C60_same_book e s i r1 r2 s1 s2 out1 out2 : reachable s ->
  exec e s (with_rem i r1) = Ok (s1, out1) -> exec e s (with_rem i r2) = Ok (s2, out2) ->
  (forall sd, w_book (s_w s1) sd = w_book (s_w s2) sd) /\ s_tok s1 = s_tok s2.
Proof. exact (defer_book e s i r1 r2 s1 s2 out1 out2). Qed.
Print Assumptions C60_same_book.

(** User 2 asks 120 lots down to 94: user 1's bids of 40 at 95 and 50 at 94 are taken and 30
    lots rest.  With user 1's account passed along nothing waits; without it two fills do, and
    user 2 owes a penalty. *)
Definition big_ask (rem : list Z) : instr :=
  IPlaceOrder (place_by 2 Ask rem) (mkPlaceArgs Ask 94 120 1000000 9 POLimit 0 DecrementTake 10).
Definition the_penalty (s : sys) (k : Z) : Z :=
  match acct_get k (w_accts (s_w s)) with Some a => p_penalty (a_pos a) | None => 0 end.
Example C60_case :
  let e := at_time 110 (Some 100) in
  let at_once := after e sample1 (with_rem (big_ask []) [101]) in
  let queued := after e sample1 (with_rem (big_ask []) []) in
  let later := after (at_time 120 None) queued (IConsume 0 8 [101; 102]) in
  reachable sample1 /\ succeeds e sample1 (with_rem (big_ask []) [101]) = true /\ succeeds e sample1 (with_rem (big_ask []) []) = true /\
  succeeds (at_time 120 None) queued (IConsume 0 8 [101; 102]) = true /\
  waiting (s_w at_once) = [] /\ length (waiting (s_w queued)) = 2%nat /\ waiting (s_w later) = [] /\
  balances at_once <> balances queued /\ balances at_once = balances later /\
  (the_penalty sample1 102, the_penalty at_once 102, the_penalty later 102) = (0, 0, 1) /\
  map (fun x => lf_qty (snd x)) (orders (s_w later) Ask) = [30; 20; 30; 15].
Proof. split; [exact sample1_reachable|]. vm_compute. repeat (split; [first [reflexivity|discriminate]|]). first [reflexivity|discriminate]. Qed.
