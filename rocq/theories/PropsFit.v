(** Property C70: every number fits its field.  Vocabulary: SpecFit.v. *)
From Coq Require Import ZArith List Bool Lia.
From Verif Require Import Base Nodes OrderTree BookSide Heap Market OpenOrders Order Book Instructions
  SpecBook SpecLedger SpecSystem SpecFit FitIx Samples.
Import ListNotations.
Open Scope Z_scope.

(** C70: in every state the program can get into on chain, the fields of all resting orders,
    waiting events, accounts and of the market are within the machine types that store them;
    quantities and fill prices are positive, and slots are below 24. *)
Theorem C70_fits s : run_on_chain s -> all_fit (s_w s).
Proof. exact (chain_fits s). Qed.
Print Assumptions C70_fits.

(** Runs of machine calls. *)
Lemma run_chain l : forall r, (forall s, r = Ok s -> run_on_chain s) -> Forall (fun x => machine_call (fst x) (snd x)) l ->
  forall s, run r l = Ok s -> run_on_chain s.
Proof.
  induction l as [|[e i] l IH]; intros r Hr Hl s H; [exact (Hr s H)|].
  cbn [run] in H. destruct r as [s0|]; [|discriminate H]. cbn [bind] in H. inversion Hl as [|x y Hx Hy]; subst.
  refine (IH _ _ Hy s H). intros s1 H1. destruct (exec e s0 i) as [[s2 out]|] eqn:E; [|discriminate H1].
  cbn [bind fst] in H1. injection H1 as <-. exact (on_step _ _ _ _ _ (Hr s0 eq_refl) Hx E).
Qed.
Lemma sample_chain now t c te l : Forall (fun x => machine_call (fst x) (snd x)) l ->
  is_ok (run (create_market_ix now t c te) l) = true -> run_on_chain (the_sys (run (create_market_ix now t c te) l)).
Proof.
  intros Hl H. destruct (run (create_market_ix now t c te) l) as [s|] eqn:E; [|discriminate H].
  refine (run_chain l _ _ Hl s E). intros s0 E0. exact (on_create _ _ _ _ _ E0).
Qed.

(** Values at the ends of their ranges: the largest client id, account number and delegate,
    and an expiry beyond what sixteen bits of seconds hold. *)
Definition edge_calls : list (env * instr) :=
  [(at_time 10 None, ICreateAccount 101 1 (2 ^ 256 - 1) (2 ^ 32 - 1)); (at_time 10 None, ICreateAccount 103 3 0 0);
   (at_time 100 None, limit_until 1 Ask 105 20 (2 ^ 64 - 1) 1000000); (at_time 100 None, limit_order 1 Ask 900000 1 7);
   (at_time 2000 None, limit_order 3 Bid 105 5 8)].
Definition edge_state : sys := the_sys (run (sample_market 10 100 200 400) edge_calls).
Lemma edge_chain : run_on_chain edge_state.
Proof.
  unfold edge_state, sample_market. apply sample_chain; [|vm_compute; reflexivity].
  unfold edge_calls. repeat (apply Forall_cons; [split; [reflexivity|cbn; unfold is_address, is_u32; lia]|]). apply Forall_nil.
Qed.
Example C70_case : run_on_chain edge_state /\
  map (fun x => (lf_tif (snd x), lf_client_id (snd x), lf_key (snd x) / 2 ^ 64, lf_qty (snd x))) (orders (s_w edge_state) Ask) =
    [(65535, 2 ^ 64 - 1, 105, 15); (0, 7, 900000, 1)] /\
  map (fun e => match e with EFill f => (fe_taker_cid f, fe_maker_cid f, fe_price f, fe_qty f) | EOut _ => (0, 0, 0, 0) end) (waiting (s_w edge_state)) =
    [(8, 2 ^ 64 - 1, 105, 5)] /\
  option_map (fun a => (a_delegate a, a_num a)) (acct_get 101 (w_accts (s_w edge_state))) = Some (2 ^ 256 - 1, 2 ^ 32 - 1).
Proof. split; [exact edge_chain|]. vm_compute. auto. Qed.
