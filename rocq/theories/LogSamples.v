(** Concrete executions with their events. *)
From Coq Require Import ZArith List Bool Lia.
From Verif Require Import Base Nodes OrderTree BookSide Heap Market OpenOrders Order Book Instructions Logs
  SpecBook SpecOrder SpecSystem SpecLogs Samples.
Import ListNotations.
Open Scope Z_scope.

Fixpoint run_logs (s : sys) (l : list (env * instr)) : res (sys * list log) :=
  match l with
  | [] => Ok (s, [])
  | (e, i) :: r =>
      '(s1, _) <- exec e s i ;;
      '(s2, L) <- run_logs s1 r ;;
      Ok (s2, exec_logs e s i ++ L)
  end.
Lemma run_emits l : forall s s' L, run_logs s l = Ok (s', L) -> emits s (map snd l) L s'.
Proof.
  induction l as [|[e i] l IH]; intros s s' L H.
  - injection H as <- <-. constructor.
  - cbn [run_logs] in H. destruct (exec e s i) as [[s1 out]|] eqn:E; [|discriminate H]. cbn [bind] in H.
    destruct (run_logs s1 l) as [[s2 L1]|] eqn:E1; [|discriminate H]. cbn [bind] in H. injection H as <- <-.
    exact (es_more e s i s1 out (map snd l) L1 s2 E (IH _ _ _ E1)).
Qed.
Lemma run_emitted l : forall s L0 s' L, emitted s L0 -> run_logs s l = Ok (s', L) -> emitted s' (L0 ++ L).
Proof.
  induction l as [|[e i] l IH]; intros s L0 s' L H0 H.
  - injection H as <- <-. rewrite app_nil_r. exact H0.
  - cbn [run_logs] in H. destruct (exec e s i) as [[s1 out]|] eqn:E; [|discriminate H]. cbn [bind] in H.
    destruct (run_logs s1 l) as [[s2 L1]|] eqn:E1; [|discriminate H]. cbn [bind] in H. injection H as <- <-.
    rewrite app_assoc. exact (IH _ _ _ _ (em_step _ _ _ _ _ _ H0 E) E1).
Qed.
Definition the_run (r : res (sys * list log)) : sys * list log := match r with Ok x => x | Err _ => (no_sys, []) end.
Definition logged (now : Z) (t : tokens) (c : mcfg) (te : Z) (l : list (env * instr)) : res (sys * list log) :=
  s <- create_market_ix now t c te ;; run_logs s l.
Lemma logged_emitted now t c te l : is_ok (logged now t c te l) = true ->
  emitted (fst (the_run (logged now t c te l))) (snd (the_run (logged now t c te l))).
Proof.
  unfold logged. intros H. destruct (create_market_ix now t c te) as [s|] eqn:E; [|discriminate H]. cbn [bind] in *.
  destruct (run_logs s l) as [[s' L]|] eqn:E1; [|discriminate H]. cbn [the_run fst snd].
  exact (run_emitted l s [] s' L (em_create _ _ _ _ _ E) E1).
Qed.

(** User 1 asks 20 lots at 105, user 2 asks 15 at 106; user 3 bids 30 at 106, passing user 1's
    account along, so that one fill is delivered at once and one waits. *)
Definition two_fills : list (env * instr) :=
  open_accounts 10 ++
  [(at_time 100 (Some 100), limit_order 1 Ask 105 20 1);
   (at_time 101 (Some 100), limit_order 2 Ask 106 15 2);
   (at_time 102 (Some 100), IPlaceOrder (place_by 3 Bid [101]) (mkPlaceArgs Bid 106 30 1000000 3 POLimit 0 DecrementTake 10))].
Definition two_fills_run : res (sys * list log) := logged 5 start_tokens (market_with 10 100 200 400) 0 two_fills.
Definition two_fills_sys : sys := fst (the_run two_fills_run).
Definition two_fills_logs : list log := snd (the_run two_fills_run).
Lemma two_fills_emitted : emitted two_fills_sys two_fills_logs.
Proof. apply logged_emitted. vm_compute. reflexivity. Qed.

(** Where user 3 is about to bid. *)
Definition before_sys : sys := fst (the_run (logged 5 start_tokens (market_with 10 100 200 400) 0 (firstn 5 two_fills))).
Definition the_bid : place_ctx := place_by 3 Bid [101].
Definition bid_args (n : Z) : place_args := mkPlaceArgs Bid 106 n 1000000 3 POLimit 0 DecrementTake 10.
Lemma before_emitted : emitted before_sys (snd (the_run (logged 5 start_tokens (market_with 10 100 200 400) 0 (firstn 5 two_fills)))).
Proof. apply logged_emitted. vm_compute. reflexivity. Qed.
