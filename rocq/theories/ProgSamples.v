(** Concrete executions over two markets. *)
From Coq Require Import ZArith List Bool Lia.
From Verif Require Import Base Nodes OrderTree BookSide Heap Market OpenOrders Order Book Instructions SpecBook SpecOrder SpecSystem
  Program SpecProgram Samples.
Import ListNotations.
Open Scope Z_scope.

Definition addr58 (o n : Z) : Z := 2 * (o * 4294967296 + n) + 1.
Lemma addr58_differ : addresses_differ addr58.
Proof. unfold addresses_differ, addr58. split; intros; lia. Qed.

Fixpoint prun (r : res prog) (l : list (env * pinstr)) : res prog :=
  match l with
  | [] => r
  | (e, i) :: l' => p <- r ;; prun (x <- pexec addr58 e p i ;; Ok (fst x)) l'
  end.
Definition the_prog (r : res prog) : prog := match r with Ok p => p | Err _ => prog0 (fun _ => None) end.
Lemma prun_runs l : forall p p', prun (Ok p) l = Ok p' -> runs addr58 p p'.
Proof.
  induction l as [|[e i] l IH]; intros p p' H; [injection H as <-; constructor|].
  cbn [prun bind] in H. destruct (pexec addr58 e p i) as [[p1 out]|] eqn:E; cbn [bind fst] in H.
  - eapply rn_step; [exact E|]. exact (IH _ _ H).
  - exfalso. clear - H. destruct l as [|[e' i'] l]; cbn [prun bind] in H; discriminate H.
Qed.
Lemma runs_preachable p p' : runs addr58 p p' -> preachable addr58 p -> preachable addr58 p'.
Proof. induction 1 as [|e p i p1 out p2 H _ IH]; intros R; [exact R|]. exact (IH (pr_step _ _ _ _ _ _ R H)). Qed.
Lemma prun_ok p l : is_ok (prun (Ok p) l) = true -> runs addr58 p (the_prog (prun (Ok p) l)).
Proof. intros H. destruct (prun (Ok p) l) as [p'|] eqn:E; [|discriminate H]. exact (prun_runs _ _ _ E). Qed.

Definition market40 : mcfg := market_with 10 100 200 400.
Definition market41 : mcfg := mkCfg 1 10 0 100 41 150 70 0 0 71 0 0 61 62 151 152.
Definition pplace (m u acct : Z) (s : side) (price qty cid : Z) : pinstr :=
  PMarket m (IPlaceOrder (mkPlaceCtx u acct 0 (match s with Bid => 10 * u + 2 | Ask => 10 * u + 1 end)
     (match m, s with 40, Bid => 52 | 40, Ask => 51 | _, Bid => 152 | _, Ask => 151 end) [])
     (mkPlaceArgs s price qty 1000000 cid POLimit 0 DecrementTake 10)).
Definition later : env := at_time 200 None.
Definition two_markets_start : list (env * pinstr) :=
  [(at_time 5 None, PCreateMarket 40 market40 0); (at_time 6 None, PCreateMarket 41 market41 0);
   (at_time 7 None, PCreateIndexer 1); (at_time 7 None, PCreateIndexer 2);
   (at_time 8 None, PCreateAccount 40 1 0 3); (at_time 8 None, PCreateAccount 41 1 0 3);
   (at_time 8 None, PCreateAccount 40 2 0 3); (at_time 8 None, PCreateAccount 41 2 0 3); (at_time 8 None, PCreateAccount 41 2 0 3);
   (at_time 9 None, PCloseAccount 41 2 (addr58 2 2));
   (at_time 10 None, pplace 40 1 (addr58 1 1) Ask 105 20 1);
   (at_time 11 None, pplace 41 1 (addr58 1 2) Ask 110 50 2);
   (at_time 12 None, pplace 41 2 (addr58 2 3) Bid 95 7 3);
   (at_time 13 None, PToken (IExtTransfer 2 22 152 140))].
Definition two_markets_run : res prog := prun (Ok (prog0 start_tokens)) two_markets_start.
Definition two_markets : prog := the_prog two_markets_run.
Lemma two_markets_reachable : preachable addr58 two_markets.
Proof. apply (runs_preachable (prog0 start_tokens)); [|constructor]. apply prun_ok. vm_compute. reflexivity. Qed.
Definition buy40 : pinstr := pplace 40 2 (addr58 2 1) Bid 105 10 4.

Definition pafter (e : env) (p : prog) (i : pinstr) : prog := match pexec addr58 e p i with Ok (p', _) => p' | Err _ => prog0 (fun _ => None) end.
Definition pok (e : env) (p : prog) (i : pinstr) : bool := is_ok (pexec addr58 e p i).
Definition amounts_at (p : prog) (l : list Z) : list Z := map (amount_in (p_tok p)) l.
Definition book_at (p : prog) (m : Z) : list (Z * Z) * list (Z * Z) :=
  match market_in p m with
  | Some s => (map (fun x => price_qty (snd x)) (orders (s_w s) Bid), map (fun x => price_qty (snd x)) (orders (s_w s) Ask))
  | None => ([], [])
  end.
Lemma one_run e p i o : pok e p i = true -> i <> PCloseIndexer o -> runs_indexed addr58 o p (pafter e p i).
Proof.
  intros H N. unfold pok, pafter in *. destruct (pexec addr58 e p i) as [[p' out]|] eqn:E; [|discriminate H].
  eapply ri_step; [exact E|exact N|constructor].
Qed.

(** User 1 opens and closes an account, closes and opens the indexer, opens another account. *)
Definition reuse0 : prog := the_prog (prun (Ok (prog0 start_tokens))
  [(later, PCreateMarket 40 market40 0); (later, PCreateMarket 41 market41 0); (later, PCreateIndexer 1); (later, PCreateAccount 40 1 0 3)]).
Definition reuse1 : prog := the_prog (prun (Ok reuse0) [(later, PCloseAccount 40 1 (addr58 1 1))]).
Definition reuse2 : prog := the_prog (prun (Ok reuse1) [(later, PCloseIndexer 1); (later, PCreateIndexer 1); (later, PCreateAccount 41 1 0 3)]).
Definition account_at (p : prog) (m k : Z) : option ooa := match market_in p m with Some s => acct_get k (w_accts (s_w s)) | None => None end.
Lemma account_at_in p m k a : account_at p m k = Some a -> account_in p m k a.
Proof. unfold account_at, account_in. destruct (market_in p m) as [s|]; [|discriminate]. intros H. exists s. split; [reflexivity|exact H]. Qed.
Lemma account_in_at p m k a : account_in p m k a -> account_at p m k = Some a.
Proof. unfold account_at. intros (s & -> & H). exact H. Qed.

Lemma reuse1_none m a : ~ account_in reuse1 m (addr58 1 1) a.
Proof.
  intros H. apply account_in_at in H. assert (T : address_taken reuse1 (addr58 1 1) = false) by (vm_compute; reflexivity).
  unfold account_at, market_in in H. unfold address_taken in T. revert H T. generalize (p_mkts reuse1) as l. induction l as [|[k x] l IH]; cbn [al_get option_map existsb snd]; [discriminate|].
  intros H T. apply orb_false_iff in T as [T1 T2]. destruct (m =? k); [|exact (IH H T2)]. cbn [option_map s_w] in H. rewrite H in T1. discriminate T1.
Qed.
Definition reuse_acct (m : Z) : ooa := mkOoa 1 0 1 1 position0 (repeat open_order0 MAX_OPEN_ORDERS).
Lemma reuse_after_closing : exists addr o p p' m m' k a0 a1 p0, addresses_differ addr /\ preachable addr p0 /\
  account_in p0 m k a0 /\ runs addr p0 p /\ (forall m a, ~ account_in p m k a) /\ a_num a1 <= counted p o /\
  runs addr p p' /\ account_in p' m' k a1 /\ a_owner a0 = o /\ a_owner a1 = o /\ m <> m'.
Proof.
  exists addr58, 1, reuse1, reuse2, 40, 41, (addr58 1 1), (reuse_acct 40), (reuse_acct 41), reuse0.
  split; [exact addr58_differ|]. split; [apply (runs_preachable (prog0 start_tokens)); [|constructor]; apply prun_ok; vm_compute; reflexivity|].
  split; [apply account_at_in; vm_compute; reflexivity|]. split; [apply prun_ok; vm_compute; reflexivity|].
  split; [exact reuse1_none|]. split; [vm_compute; discriminate|]. split; [apply prun_ok; vm_compute; reflexivity|].
  split; [apply account_at_in; vm_compute; reflexivity|]. repeat split. discriminate.
Qed.
