(** Concrete stub oracles. *)
From Coq Require Import ZArith List Bool Lia SpecFloat.
From Verif Require Import Base Nodes OrderTree BookSide Heap Market OpenOrders Order Book Instructions Program
  Oracle Stub SpecStub.
Import ListNotations.
Open Scope Z_scope.

(** Addresses that differ: with a, b >= 0 the square of a + b plus a tells a and b. *)
Definition nat_code (x : Z) : Z := if x <? 0 then - 2 * x - 1 else 2 * x.
Definition pair_addr (o m : Z) : Z := (nat_code o + nat_code m) * (nat_code o + nat_code m) + nat_code o + 1.
Lemma nat_code_inj x y : nat_code x = nat_code y -> x = y.
Proof. unfold nat_code. destruct (Z.ltb_spec x 0); destruct (Z.ltb_spec y 0); lia. Qed.
Lemma nat_code_nonneg x : 0 <= nat_code x.
Proof. unfold nat_code. destruct (Z.ltb_spec x 0); lia. Qed.
Lemma pair_sum a b a' b' : 0 <= a -> 0 <= b -> 0 <= a' -> 0 <= b' -> (a + b) * (a + b) + a + 1 = (a' + b') * (a' + b') + a' + 1 ->
  a = a' /\ b = b'.
Proof.
  intros A B A' B' E. assert (a + b = a' + b') as S; [|rewrite S in E; lia].
  destruct (Z.lt_trichotomy (a + b) (a' + b')) as [L|[L|L]]; [exfalso; nia|exact L|exfalso; nia].
Qed.
Lemma pair_addr_differ : stub_addresses_differ pair_addr.
Proof.
  intros o m o' m' E. unfold pair_addr in E.
  destruct (pair_sum _ _ _ _ (nat_code_nonneg o) (nat_code_nonneg m) (nat_code_nonneg o') (nat_code_nonneg m') E) as [E1 E2].
  split; now apply nat_code_inj.
Qed.

Definition run_calls (addr : Z -> Z -> Z) : list stub_call -> res stubs :=
  fix go h := match h with [] => Ok [] | c :: h' => st <- go h' ;; stub_exec addr (sc_signed c) (sc_ts c) (sc_slot c) st (sc_ix c) end.
Lemma run_history addr h : forall st, run_calls addr h = Ok st -> stub_history addr h st.
Proof.
  induction h as [|c h IH]; cbn [run_calls]; intros st E; [injection E as <-; constructor|].
  fold (run_calls addr) in E. destruct (run_calls addr h) as [st0|] eqn:R; cbn [bind] in E; [|discriminate].
  exact (sh_call addr h st0 c st (IH st0 eq_refl) E).
Qed.

(** The latest call first. *)
Definition calls5 : list stub_call :=
  [ mkStubCall [4] 850 5050 (SClose 4 (pair_addr 4 61));
    mkStubCall [3] 840 5040 (SSet 3 (pair_addr 3 61) (f64_of 20000));
    mkStubCall [9; 3] 830 5030 (SSet 3 (pair_addr 3 61) (f64_of 15000));
    mkStubCall [4] 810 5010 (SCreate 4 61 (f64_of 7));
    mkStubCall [9; 3] 800 5000 (SCreate 3 61 (f64_of 10000)) ].
Definition stubs5 : stubs := [ (pair_addr 3 61, mkStub 3 61 (f64_of 20000) 840 5040 (f64_of 0)) ].
Lemma history5 : stub_history pair_addr calls5 stubs5.
Proof. apply run_history. now vm_compute. Qed.

Definition stub_market : market :=
  mkMarket (mkCfg 10 100 0 0 40 50 70 0 0 71 (pair_addr 3 61) 0 61 62 51 52) 0 0 0 0 0 0 0 0 0 0.
(** A confidence bound of one eighth, 100 slots, base with 9 and quote with 6 decimals. *)
Definition stub_cfg : oracle_cfg := mkOracleCfg (f64_near 1 (-3)) 100 9 6.

Lemma negative_case : exists addr h st o mint m c slot v,
  stub_addresses_differ addr /\ stub_history addr h st /\ c_oracle_a (m_cfg m) = addr o mint /\ c_oracle_b (m_cfg m) = 0 /\
  oracle_price m c (Some (stub_account st (addr o mint))) None slot = Ok (Some v) /\ v < 0.
Proof.
  exists pair_addr, [mkStubCall [3] 800 5000 (SCreate 3 61 (f64_of (-5)))],
    [(pair_addr 3 61, mkStub 3 61 (f64_of (-5)) 800 5000 (f64_of 0))], 3, 61, stub_market,
    (mkOracleCfg (f64_of 0) 100 6 6), 5000, (- 5 * 2 ^ 48).
  split; [exact pair_addr_differ|]. split; [apply run_history; now vm_compute|]. now vm_compute.
Qed.
