(** The statements of [PropsAgain], and a closed market. *)
From Coq Require Import ZArith List Bool Lia.
From Verif Require Import Base Nodes OrderTree BookSide Heap Market OpenOrders Order Book Instructions BaseFacts
  SpecBook SpecOrder SpecLedger SpecEvents SpecSystem SpecControl Program SpecProgram ProgramProofs Samples SpecCreate SpecAgain Again AgainFacts.
Import ListNotations.
Open Scope Z_scope.

Lemma stays_over s s' : reachable s -> s_closed s = true -> goes_on s s' ->
  s_closed s' = true /\ over s' /\ w_mkt (s_w s') = w_mkt (s_w s) /\
  forall k a', acct_get k (w_accts (s_w s')) = Some a' -> exists a, acct_get k (w_accts (s_w s)) = Some a /\ same_holdings a a'.
Proof.
  intros R C G. destruct (goes_on_closed _ _ G R C) as (R' & C' & M & _ & _ & _ & K).
  split; [exact C'|]. split; [exact (closed_rests _ R' C')|]. split; [exact M|exact K].
Qed.

Lemma over_among addr p m s : preachable addr p -> market_in p m = Some s -> s_closed s = true -> over s.
Proof. intros P M. exact (closed_rests s (market_alone _ _ _ _ P M)). Qed.

Lemma after_reachable e s i : reachable s -> succeeds e s i = true -> reachable (after e s i).
Proof. intros R H. unfold after, succeeds in *. destruct (exec e s i) as [[s' out]|] eqn:E; [exact (reach_step _ _ _ _ _ R E)|discriminate H]. Qed.
Lemma after_goes e s i : succeeds e s i = true -> goes_on s (after e s i).
Proof. intros H. unfold after, succeeds in *. destruct (exec e s i) as [[s' out]|] eqn:E; [exact (go_step _ _ _ _ _ _ E (go_none _))|discriminate H]. Qed.

Definition closed91 : sys := after (at_time 175 None) sample6 (ICloseMarket 71).
Definition later91 : sys := after (at_time 176 None) closed91 (ISetDelegate 1 101 9).
Definition terms91 (bv qv : Z) : mcfg := mkCfg 10 100 (-200) 400 40 350 70 0 0 71 0 0 63 64 bv qv.
Definition again91 (bv qv : Z) : res sys := create_again 180 later91 (terms91 bv qv) 0.
Lemma closed91_reachable : reachable closed91.
Proof. apply after_reachable; [exact sample6_reachable|vm_compute; reflexivity]. Qed.
Lemma closed91_case : reachable closed91 /\ s_closed closed91 = true /\ goes_on closed91 later91 /\
  map fst (w_accts (s_w later91)) = [103; 102; 101] /\
  map (fun x => a_delegate (snd x)) (w_accts (s_w later91)) = [0; 0; 9] /\
  map (fun x => p_maker_volume (a_pos (snd x))) (w_accts (s_w later91)) <> [0; 0; 0] /\
  succeeds (at_time 176 None) closed91 (IDeposit 1 101 11 12 5 5) = false /\
  is_ok (again91 351 352) = true /\ is_ok (again91 51 352) = false /\ is_ok (again91 351 52) = false.
Proof.
  split; [exact closed91_reachable|]. split; [vm_compute; reflexivity|]. split; [apply after_goes; vm_compute; reflexivity|].
  split; [vm_compute; reflexivity|]. split; [vm_compute; reflexivity|]. split; [vm_compute; discriminate|].
  split; [vm_compute; reflexivity|]. split; [vm_compute; reflexivity|]. split; vm_compute; reflexivity.
Qed.
