(** Property C51: what can happen to an order resting on the book through instructions of others.
    Vocabulary: SpecPersist.v. *)
From Coq Require Import ZArith List Bool.
From Verif Require Import Base Nodes OrderTree BookSide Heap Market OpenOrders Order Book Instructions
  SpecBook SpecOrder SpecMatch SpecSystem SpecControl SpecPersist PersistFacts Samples.
Import ListNotations.
Open Scope Z_scope.

(** C51: an order stays on the book exactly as it is through every instruction that does not
    act for its owner, except that a new order of the other side whose limit it meets trades
    with it (leaving the rest, if any, in its place with nothing else changed), or finds it
    expired or beyond its peg limit; or a new order of its side finds it expired, or takes its
    place because the side is full and the new limit is better. *)
Theorem C51_orders_persist e s i s' out sd t l :
  reachable s -> exec e s i = Ok (s', out) -> e_now e < 2 ^ 64 ->
  In (t, l) (orders (s_w s) sd) -> ~ acts_for i (lf_owner l) ->
  In (t, l) (orders (s_w s') sd) \/
  exists oracle, oracle_input (w_mkt (s_w s)) e = Ok oracle /\
    fate oracle (e_now e) (wanted oracle i) (s_w s) (s_w s') sd t l.
Proof. exact (orders_persist e s i s' out sd t l). Qed.
Print Assumptions C51_orders_persist.

(** Instructions that neither place nor cancel change no order of anybody. *)
Theorem C51_others_leave_the_book e s i s' out sd :
  never_touches_orders i = true -> exec e s i = Ok (s', out) -> orders (s_w s') sd = orders (s_w s) sd.
Proof. exact (orders_untouched e s i s' out sd). Qed.
Print Assumptions C51_others_leave_the_book.

(** Tree, price or offset as stored in the key, lots, owner. *)
Definition shown (x : otree_id * leaf) : otree_id * Z * Z * Z :=
  (fst x, lf_key (snd x) / 2 ^ 64, lf_qty (snd x), lf_owner (snd x)).

(** User 3 buys 8 lots up to 105, or 40 lots up to 107 after the order at 107 has expired. *)
Example C51_case :
  map shown (orders (s_w sample1) Ask) = [(Fixed, 105, 20, 101); (Fixed, 107, 30, 101); (OraclePegged, 2 ^ 63 + 6, 15, 102)] /\
  map shown (orders (s_w sample1) Bid) = [(Fixed, 95, 40, 101); (Fixed, 94, 50, 101)] /\
  (let i := limit_order 3 Bid 105 8 6 in let e := at_time 140 (Some 100) in
   succeeds e sample1 i = true /\ ~ acts_for i 101 /\ ~ acts_for i 102 /\
   oracle_input (w_mkt (s_w sample1)) e = Ok (Some 100) /\ wanted (Some 100) i = [(Bid, Some 105)] /\
   map shown (orders (s_w (after e sample1 i)) Ask) =
     [(Fixed, 105, 12, 101); (Fixed, 107, 30, 101); (OraclePegged, 2 ^ 63 + 6, 15, 102)] /\
   map shown (orders (s_w (after e sample1 i)) Bid) = [(Fixed, 95, 40, 101); (Fixed, 94, 50, 101)]) /\
  (let i := limit_order 3 Bid 107 40 6 in let e := at_time 160 (Some 100) in
   succeeds e sample1 i = true /\
   map shown (orders (s_w (after e sample1 i)) Ask) = [] /\
   map shown (orders (s_w (after e sample1 i)) Bid) = [(Fixed, 107, 5, 103); (Fixed, 95, 40, 101); (Fixed, 94, 50, 101)]) /\
  (let i := IDeposit 1 101 11 12 5 6 in let e := at_time 140 None in
   succeeds e sample1 i = true /\ never_touches_orders i = true).
Proof.
  split; [vm_compute; reflexivity|]. split; [vm_compute; reflexivity|]. split; [|split].
  - cbv zeta. split; [vm_compute; reflexivity|]. split; [cbn; discriminate|]. split; [cbn; discriminate|].
    split; [vm_compute; reflexivity|]. split; [reflexivity|]. split; vm_compute; reflexivity.
  - cbv zeta. split; [|split]; vm_compute; reflexivity.
  - cbv zeta. split; vm_compute; reflexivity.
Qed.
