(** Executions behind the refutations of C18. *)
From Coq Require Import ZArith List Bool.
From Verif Require Import Base Nodes OrderTree BookSide Heap Market OpenOrders Order Book Instructions
  SpecBook SpecOrder Samples.
Import ListNotations.
Open Scope Z_scope.

Lemma posts_crossing_bid : exists s o k now limit w' r LA LB,
  reachable s /\ sane_order o /\ o_side o = Bid /\
  new_order (s_w s) o None (Some k) k now limit [] = Ok (w', r) /\ oa_posted_base r = 1 /\
  lists (w_book w' Ask) Fixed LA /\ map price_qty LA = [(10, 10)] /\
  lists (w_book w' Bid) Fixed LB /\ map price_qty LB = [(30, 1)] /\ forall l, In l (LA ++ LB) -> lf_tif l = 0.
Proof.
  exists sample3, (mkOrder Bid 100 150 9 0 DecrementTake (OFixed 30 PTLimit)), 101, 120, 10.
  destruct (placed_both (new_order (s_w sample3) (mkOrder Bid 100 150 9 0 DecrementTake (OFixed 30 PTLimit)) None (Some 101) 101 120 10 []))
    as [[[r LA] LB]|] eqn:E; [|vm_compute in E; discriminate E].
  destruct (placed_both_ok _ _ _ _ E) as (w' & E1 & H1 & H2). vm_compute in E. injection E as <- <- <-.
  exists w'. do 3 eexists. split; [exact sample3_reachable|]. split; [sane|].
  split; [reflexivity|]. split; [exact E1|]. split; [reflexivity|]. split; [exact H1|]. split; [vm_compute; reflexivity|].
  split; [exact H2|]. split; [vm_compute; reflexivity|]. cbn [app In]. intuition (subst; reflexivity).
Qed.

Lemma posts_crossing_ask : exists s o k now limit w' r LA LB,
  reachable s /\ sane_order o /\ o_side o = Ask /\
  new_order (s_w s) o None (Some k) k now limit [] = Ok (w', r) /\ oa_posted_base r = 1 /\
  lists (w_book w' Bid) Fixed LB /\ map price_qty LB = [(100, 9); (60, 10)] /\
  lists (w_book w' Ask) Fixed LA /\ map price_qty LA = [(61, 1); (110, 10); (150, 10)] /\
  forall l, In l (LA ++ LB) -> lf_tif l = 0.
Proof.
  exists sample2, (mkOrder Ask 100 199 9 0 DecrementTake (OFixed 61 PTLimit)), 103, 120, 10.
  destruct (placed_both (new_order (s_w sample2) (mkOrder Ask 100 199 9 0 DecrementTake (OFixed 61 PTLimit)) None (Some 103) 103 120 10 []))
    as [[[r LA] LB]|] eqn:E; [|vm_compute in E; discriminate E].
  destruct (placed_both_ok _ _ _ _ E) as (w' & E1 & H1 & H2). vm_compute in E. injection E as <- <- <-.
  exists w'. do 3 eexists. split; [exact sample2_reachable|]. split; [sane|].
  split; [reflexivity|]. split; [exact E1|]. split; [reflexivity|]. split; [exact H2|]. split; [vm_compute; reflexivity|].
  split; [exact H1|]. split; [vm_compute; reflexivity|]. cbn [app In]. intuition (subst; reflexivity).
Qed.
