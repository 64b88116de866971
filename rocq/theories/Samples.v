(** Concrete executions, for examples and refutations. *)
From Coq Require Import ZArith List Bool Lia.
From Verif Require Import Base Nodes OrderTree BookSide Heap Market OpenOrders Order Book Instructions SpecBook SpecOrder SpecSystem.
Import ListNotations.
Open Scope Z_scope.

(** Runs of instructions: each must succeed. *)
Fixpoint run (r : res sys) (l : list (env * instr)) : res sys :=
  match l with
  | [] => r
  | (e, i) :: l' => s <- r ;; run (x <- exec e s i ;; Ok (fst x)) l'
  end.
Definition is_ok {A} (r : res A) : bool := match r with Ok _ => true | Err _ => false end.

Definition no_market : mcfg := mkCfg 1 1 0 0 0 0 0 0 0 0 0 0 0 0 0 0.
Definition no_sys : sys :=
  mkSys (mkWorld (mkMarket no_market 0 0 0 0 0 0 0 0 0 0) (bookside_init Bid) (bookside_init Ask) heap_init [])
    (fun _ => None) false.
Definition the_sys (r : res sys) : sys := match r with Ok s => s | Err _ => no_sys end.

Lemma run_reachable l : forall r, (forall s, r = Ok s -> reachable s) -> forall s, run r l = Ok s -> reachable s.
Proof.
  induction l as [|[e i] l IH]; intros r Hr s H; [exact (Hr s H)|].
  cbn [run] in H. destruct r as [s0|]; [|discriminate H]. cbn [bind] in H.
  refine (IH _ _ s H). intros s1 H1. destruct (exec e s0 i) as [[s2 out]|] eqn:E; [|discriminate H1].
  cbn [bind fst] in H1. injection H1 as <-. exact (reach_step _ _ _ _ _ (Hr s0 eq_refl) E).
Qed.
Lemma sample_reachable now t c te l :
  is_ok (run (create_market_ix now t c te) l) = true ->
  reachable (the_sys (run (create_market_ix now t c te) l)).
Proof.
  intros H. destruct (run (create_market_ix now t c te) l) as [s|] eqn:E; [|discriminate H].
  refine (run_reachable l _ _ s E). intros s0 E0. exact (reach_create _ _ _ _ _ E0).
Qed.

(** Tokens: users 1, 2, 3 hold accounts 11, 21, 31 of the base mint and 12, 22, 32 of the
    quote mint. *)
Definition start_tokens : tokens := fun k =>
  if existsb (Z.eqb k) [11; 21; 31] then Some (mkTacc 61 (k / 10) 1000000000)
  else if existsb (Z.eqb k) [12; 22; 32] then Some (mkTacc 62 (k / 10) 1000000000)
  else None.

(** A market with an oracle; the fees are arguments.  Vaults 51 and 52, authority 50. *)
Definition market_with (qls bls maker taker : Z) : mcfg :=
  mkCfg qls bls maker taker 40 50 70 0 0 71 77 0 61 62 51 52.
Definition sample_market (qls bls maker taker : Z) : res sys :=
  create_market_ix 5 start_tokens (market_with qls bls maker taker) 0.

Definition at_time (now : Z) (oracle : option Z) : env := mkEnv now (Ok oracle).
Definition open_accounts (now : Z) : list (env * instr) :=
  [(at_time now None, ICreateAccount 101 1 0 0); (at_time now None, ICreateAccount 102 2 0 0);
   (at_time now None, ICreateAccount 103 3 0 0)].
(** A placement by user [u] through their account. *)
Definition place_by (u : Z) (s : side) (rem : list Z) : place_ctx :=
  mkPlaceCtx u (100 + u) 0 (match s with Bid => 10 * u + 2 | Ask => 10 * u + 1 end)
    (match s with Bid => 52 | Ask => 51 end) rem.
Definition limit_order (u : Z) (s : side) (price qty cid : Z) : instr :=
  IPlaceOrder (place_by u s []) (mkPlaceArgs s price qty 1000000 cid POLimit 0 DecrementTake 10).
Definition limit_until (u : Z) (s : side) (price qty cid expiry : Z) : instr :=
  IPlaceOrder (place_by u s []) (mkPlaceArgs s price qty 1000000 cid POLimit expiry DecrementTake 10).
Definition peg_order (u : Z) (s : side) (offset peg_limit qty cid : Z) : instr :=
  IPlacePegged (place_by u s []) (mkPegArgs s offset peg_limit qty 1000000 cid POLimit 0 DecrementTake 10).

(** Both sides have orders: asks of user 1 at 105 (20 lots) and 107 (30 lots, until second
    150), a pegged ask of user 2 at oracle + 6 (15 lots), bids of user 1 at 95 and 94. *)
Definition sample1_run : res sys :=
  run (sample_market 10 100 200 400)
    (open_accounts 10 ++
     [(at_time 100 (Some 100), limit_order 1 Ask 105 20 1);
      (at_time 101 (Some 100), limit_until 1 Ask 107 30 2 150);
      (at_time 102 (Some 100), peg_order 2 Ask 6 1 15 3);
      (at_time 103 (Some 100), limit_order 1 Bid 95 40 4);
      (at_time 104 (Some 100), limit_order 1 Bid 94 50 5)]).
Definition sample1 : sys := the_sys sample1_run.
Lemma sample1_reachable : reachable sample1.
Proof. unfold sample1, sample1_run, sample_market. apply sample_reachable. vm_compute. reflexivity. Qed.

(** Bids of user 1 at 100 (10 lots) and 60 (10 lots), no fees. *)
Definition sample2_run : res sys :=
  run (sample_market 1 1 0 0)
    (open_accounts 10 ++
     [(at_time 100 None, limit_order 1 Bid 100 10 1); (at_time 101 None, limit_order 1 Bid 60 10 2);
      (at_time 102 None, limit_order 1 Ask 110 10 3); (at_time 102 None, limit_order 1 Ask 150 10 4)]).
Definition sample2 : sys := the_sys sample2_run.
Lemma sample2_reachable : reachable sample2.
Proof. unfold sample2, sample2_run, sample_market. apply sample_reachable. vm_compute. reflexivity. Qed.

(** What a placement reports. *)
Definition amounts (x : res (world * order_amounts)) : option order_amounts :=
  match x with Ok (_, r) => Some r | Err _ => None end.
Lemma amounts_ok x r : amounts x = Some r -> exists w', x = Ok (w', r).
Proof. destruct x as [[w' r']|]; intros H; [injection H as ->; eauto|discriminate H]. Qed.

(** The fixed orders of a side by price data and quantity, after a placement. *)
Definition price_qty (l : leaf) : Z * Z := (lf_key l / 2 ^ 64, lf_qty l).
Definition placed_view (x : res (world * order_amounts)) (s : side) (t : otree_id)
  : option (order_amounts * list (Z * Z)) :=
  match x with
  | Ok (w', r) =>
      match tree_iter_all (bs_nodes (w_book w' s)) (bs_root (w_book w' s) t) with
      | Ok items => Some (r, map price_qty (map snd items))
      | Err _ => None
      end
  | Err _ => None
  end.
Lemma placed_view_ok x s t r v : placed_view x s t = Some (r, v) ->
  exists w' L, x = Ok (w', r) /\ lists (w_book w' s) t L /\ map price_qty L = v.
Proof.
  intros H. unfold placed_view in H. destruct x as [[w' r']|]; [|discriminate H].
  destruct (tree_iter_all (bs_nodes (w_book w' s)) (bs_root (w_book w' s) t)) as [items|] eqn:E; [|discriminate H].
  injection H as -> <-. exists w', (map snd items). split; [reflexivity|]. split; [|reflexivity].
  exists items. split; [exact E|reflexivity].
Qed.

(** Taker fee of one half: user 1 asks 20 lots at 10. *)
Definition sample3_run : res sys :=
  run (sample_market 1 1 0 500000)
    (open_accounts 10 ++ [(at_time 100 None, limit_order 1 Ask 10 20 1)]).
Definition sample3 : sys := the_sys sample3_run.
Lemma sample3_reachable : reachable sample3.
Proof. unfold sample3, sample3_run, sample_market. apply sample_reachable. vm_compute. reflexivity. Qed.

(** The fixed orders of both sides after a placement. *)
Definition placed_both (x : res (world * order_amounts)) : option (order_amounts * list leaf * list leaf) :=
  match x with
  | Ok (w', r) =>
      match tree_iter_all (bs_nodes (w_book w' Ask)) (bs_root (w_book w' Ask) Fixed),
            tree_iter_all (bs_nodes (w_book w' Bid)) (bs_root (w_book w' Bid) Fixed) with
      | Ok a, Ok b => Some (r, map snd a, map snd b)
      | _, _ => None
      end
  | Err _ => None
  end.
Lemma placed_both_ok x r LA LB : placed_both x = Some (r, LA, LB) ->
  exists w', x = Ok (w', r) /\ lists (w_book w' Ask) Fixed LA /\ lists (w_book w' Bid) Fixed LB.
Proof.
  intros H. unfold placed_both in H. destruct x as [[w' r']|]; [|discriminate H].
  destruct (tree_iter_all (bs_nodes (w_book w' Ask)) _) as [a|] eqn:E1; [|discriminate H].
  destruct (tree_iter_all (bs_nodes (w_book w' Bid)) _) as [b|] eqn:E2; [|discriminate H].
  injection H as -> <- <-. exists w'. split; [reflexivity|]. split; [exists a|exists b]; auto.
Qed.

Ltac sane :=
  constructor; cbn [o_max_base o_max_quote o_params];
  [lia|lia|first [exact I | left; reflexivity | right; lia
    | unfold is_i64; change (2 ^ 63) with 9223372036854775808; lia]].

(** The orders of a side by price data and quantity. *)
Definition view (w : world) (s : side) (t : otree_id) : option (list (Z * Z)) :=
  match tree_iter_all (bs_nodes (w_book w s)) (bs_root (w_book w s) t) with
  | Ok items => Some (map price_qty (map snd items))
  | Err _ => None
  end.
Lemma view_ok w s t v : view w s t = Some v -> exists L, lists (w_book w s) t L /\ map price_qty L = v.
Proof.
  intros H. unfold view in H. destruct (tree_iter_all _ _) as [items|] eqn:E; [|discriminate H].
  injection H as <-. exists (map snd items). split; [|reflexivity]. exists items. auto.
Qed.

(** Runs that go on from a sample. *)
Lemma the_sys_reachable r : reachable (the_sys r) -> forall s, r = Ok s -> reachable s.
Proof. intros H s ->. exact H. Qed.
Lemma extend_reachable r l : reachable (the_sys r) -> is_ok (run r l) = true -> reachable (the_sys (run r l)).
Proof.
  intros Hr H. pose proof (run_reachable l r (the_sys_reachable r Hr)) as G. destruct (run r l) as [s|]; [exact (G s eq_refl)|discriminate H].
Qed.

(** After sample1, user 3 bids 107 for 60 lots at second 160: two fills, an expired order
    returned and the rest posted, with the events still waiting. *)
Definition sample4_run : res sys := run sample1_run [(at_time 160 (Some 100), limit_order 3 Bid 107 60 6)].
Definition sample4 : sys := the_sys sample4_run.
Lemma sample1_is : sample1 = the_sys sample1_run.
Proof. reflexivity. Qed.
Lemma sample4_is_run : sample4 = the_sys (run sample1_run [(at_time 160 (Some 100), limit_order 3 Bid 107 60 6)]).
Proof. unfold sample4, sample4_run. reflexivity. Qed.
Lemma sample4_reachable : reachable sample4.
Proof.
  rewrite sample4_is_run. apply extend_reachable; [rewrite <- sample1_is; exact sample1_reachable|vm_compute; reflexivity].
Qed.
(** Then the market is expired by its admin. *)
Definition sample5_run : res sys := run sample4_run [(at_time 170 None, ISetExpired 71)].
Definition sample5 : sys := the_sys sample5_run.
Lemma sample4_is : sample4 = the_sys sample4_run.
Proof. reflexivity. Qed.
Lemma sample5_is_run : sample5 = the_sys (run sample4_run [(at_time 170 None, ISetExpired 71)]).
Proof. unfold sample5, sample5_run. reflexivity. Qed.
Lemma sample5_reachable : reachable sample5.
Proof.
  rewrite sample5_is_run. apply extend_reachable; [rewrite <- sample4_is; exact sample4_reachable|vm_compute; reflexivity].
Qed.
(** And everybody is paid out: events consumed, orders returned, accounts settled, fees swept. *)
Definition wind_down : list (env * instr) :=
  [(at_time 171 None, IConsume 0 8 [101; 102; 103]);
   (at_time 172 None, IPrune 71 101 100); (at_time 172 None, IPrune 71 102 100); (at_time 172 None, IPrune 71 103 100);
   (at_time 173 None, ISettleExpired 71 101 11 12 None); (at_time 173 None, ISettle 2 102 21 22 None);
   (at_time 173 None, ISettle 3 103 31 32 (Some 12)); (at_time 174 None, ISweep 70 32)].
Definition sample6_run : res sys := run sample5_run wind_down.
Definition sample6 : sys := the_sys sample6_run.
Lemma sample5_is : sample5 = the_sys sample5_run.
Proof. reflexivity. Qed.
Lemma sample6_is_run : sample6 = the_sys (run sample5_run wind_down).
Proof. unfold sample6, sample6_run. reflexivity. Qed.
Lemma sample6_reachable : reachable sample6.
Proof.
  rewrite sample6_is_run. apply extend_reachable; [rewrite <- sample5_is; exact sample5_reachable|vm_compute; reflexivity].
Qed.

(** ** Looking at a state *)
Definition after (e : env) (s : sys) (i : instr) : sys := match exec e s i with Ok (s', _) => s' | Err _ => no_sys end.
Definition succeeds (e : env) (s : sys) (i : instr) : bool := is_ok (exec e s i).
(** Free base, base lots in asks, free quote, quote lots in bids and locked fees per account. *)
Definition balances (s : sys) : list (Z * (Z * Z * Z * Z * Z)) :=
  map (fun x => let p := a_pos (snd x) in
    (fst x, (p_base_free p, p_asks_base p, p_quote_free p, p_bids_quote p, p_locked_fees p))) (w_accts (s_w s)).
Definition pos_of (s : sys) (k : Z) : option position := option_map a_pos (acct_get k (w_accts (s_w s))).
Definition amounts_of (s : sys) (l : list Z) : list (option Z) := map (fun k => option_map t_amount (s_tok s k)) l.
Definition ids_on (s : sys) (sd : side) : list (otree_id * Z) := map (fun x => (fst x, lf_key (snd x))) (orders (s_w s) sd).
Definition err_of {A} (r : res A) : option err := match r with Ok _ => None | Err x => Some x end.
Definition s_tok_view (x : option tacc) : option (Z * Z * Z) := option_map (fun y => (t_mint y, t_owner y, t_amount y)) x.
Lemma succeeds_after e s i : succeeds e s i = true -> exists out, exec e s i = Ok (after e s i, out).
Proof. unfold succeeds, after. destruct (exec e s i) as [[s' out]|]; [eauto|discriminate]. Qed.
