(** C55: every instruction ends. *)
From Coq Require Import ZArith List Bool.
From Verif Require Import Base Nodes OrderTree BookSide Heap Market OpenOrders Order Book Instructions
  SpecBook SpecLedger SpecEvents SpecSystem StepFacts FuelFacts Samples.
Import ListNotations.
Open Scope Z_scope.

(** C55: the loops of the program that walk through an order tree without a count of their own
    (insertion, removal, search of the worst and the earliest-expiring order, iteration) end
    before the model's bound of [tree_fuel] steps, whatever instruction is run on whatever
    state, also when the instruction fails. *)
Theorem C55_walks_end e s i : reachable s -> e_oracle e <> Err OutOfFuel -> exec e s i <> Err OutOfFuel.
Proof. intros Hr. exact (exec_no_fuel e s i (reachable_sound s Hr)). Qed.
Print Assumptions C55_walks_end.

(** The bound matters: with one step, inserting into the bids of this market would not end. *)
Definition one_more : leaf := mkLeaf 5 0 (new_node_key Bid 94 1000) 101 7 0 (-1) 9.
Example C55_case : reachable sample1 /\
  match root_handle (bs_fixed (w_bids (s_w sample1))) with
  | Some h => insert_walk 1 (bs_nodes (w_bids (s_w sample1))) (bs_fixed (w_bids (s_w sample1))) one_more h [] = Err OutOfFuel
  | None => False
  end /\
  option_map (fun _ => true) (match insert_leaf (bs_nodes (w_bids (s_w sample1))) (bs_fixed (w_bids (s_w sample1))) one_more with
                              | Ok r => Some r | Err _ => None end) = Some true /\
  succeeds (at_time 160 (Some 100)) sample1 (limit_order 1 Bid 93 7 9) = true /\
  err_of (exec (at_time 160 (Some 100)) sample1 (ICancel 2 102 12345)) = Some OpenOrdersOrderNotFound.
Proof.
  split; [exact sample1_reachable|]. split; [vm_compute; reflexivity|]. split; [vm_compute; reflexivity|].
  split; vm_compute; reflexivity.
Qed.
