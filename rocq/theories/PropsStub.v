(** Property C85: stub oracles. *)
From Coq Require Import ZArith List Bool SpecFloat.
From Verif Require Import Base Nodes OrderTree BookSide Heap Market OpenOrders Order Book Instructions Program
  Oracle Stub SpecStub StubFacts StubSamples.
Import ListNotations.
Open Scope Z_scope.

(** C85: after every history of calls, the account at the address of an owner and a mint belongs
    to them and states the price the last accepted call for it gave and the slot of that call; it
    does not exist before the first call and after closing. *)
Theorem C85_last addr h st o m : stub_addresses_differ addr -> stub_history addr h st ->
  match last_stated addr o m h with
  | Some (p, slot) => exists s, al_get (addr o m) st = Some s /\ sb_owner s = o /\ sb_mint s = m /\ sb_price s = p /\
                        sb_last_slot s = slot /\ sb_deviation s = f64_of 0
  | None => al_get (addr o m) st = None
  end.
Proof. exact (stub_last addr h st o m). Qed.
Print Assumptions C85_last.

(** C85: a call that changes the account of an owner has that owner's signature. *)
Theorem C85_only_owner addr h st c st' o m : stub_addresses_differ addr -> stub_history addr h st ->
  stub_exec addr (sc_signed c) (sc_ts c) (sc_slot c) st (sc_ix c) = Ok st' ->
  al_get (addr o m) st' <> al_get (addr o m) st -> In o (sc_signed c).
Proof. exact (stub_only_owner addr h st c st' o m). Qed.
Print Assumptions C85_only_owner.

(** C85: a price a market takes from a stub oracle is the one its owner stated last, in the
    market's units, and not older than the market allows. *)
Theorem C85_market addr h st o mint m c slot v : stub_addresses_differ addr -> stub_history addr h st ->
  c_oracle_a (m_cfg m) = addr o mint -> c_oracle_b (m_cfg m) = 0 ->
  oracle_price m c (Some (stub_account st (addr o mint))) None slot = Ok (Some v) ->
  exists p t adj, last_stated addr o mint h = Some (p, t) /\
    (0 <= oc_max_staleness c -> t <> 0 -> slot <= t + oc_max_staleness c) /\
    decimal_adjustment c = Ok adj /\ i80f48_of_f64 (f64_mul p adj) = Some v.
Proof. exact (stub_price addr h st o mint m c slot v). Qed.
Print Assumptions C85_market.

(** C85: and such a price is taken if it passes the confidence filter with no uncertainty. *)
Theorem C85_taken addr h st o mint m c slot p t adj : stub_addresses_differ addr -> stub_history addr h st ->
  c_oracle_a (m_cfg m) = addr o mint -> addr o mint <> 0 -> c_oracle_b (m_cfg m) = 0 ->
  last_stated addr o mint h = Some (p, t) -> (oc_max_staleness c < 0 \/ 0 < t /\ slot <= t + oc_max_staleness c) ->
  oc_max_staleness c <= 9223372036854775807 -> slot <= u64_max ->
  f64_gt (f64_of 0) (f64_mul (oc_conf_filter c) p) = false -> decimal_adjustment c = Ok adj ->
  oracle_price m c (Some (stub_account st (addr o mint))) None slot = Ok (i80f48_of_f64 (f64_mul p adj)).
Proof. exact (stub_taken addr h st o mint m c slot p t adj). Qed.
Print Assumptions C85_taken.

(** C85: after the owner has closed it, every order on a market that reads it fails. *)
Theorem C85_closed addr h st o mint m c slot : stub_addresses_differ addr -> stub_history addr h st ->
  c_oracle_a (m_cfg m) = addr o mint -> addr o mint <> 0 -> c_oracle_b (m_cfg m) = 0 -> last_stated addr o mint h = None ->
  oracle_price m c (Some (stub_account st (addr o mint))) None slot = Err Panic.
Proof. exact (stub_closed addr h st o mint m c slot). Qed.
Print Assumptions C85_closed.

(** C85: nothing keeps an owner from stating a negative price, and a market with no confidence
    filter takes it. *)
Theorem C85_negative_refuted : exists addr h st o mint m c slot v,
  stub_addresses_differ addr /\ stub_history addr h st /\ c_oracle_a (m_cfg m) = addr o mint /\ c_oracle_b (m_cfg m) = 0 /\
  oracle_price m c (Some (stub_account st (addr o mint))) None slot = Ok (Some v) /\ v < 0.
Proof. exact negative_case. Qed.
Print Assumptions C85_negative_refuted.

(** ** Cases *)
(** Owner 3 creates an oracle for mint 61, 4 one for the same mint; 3 sets it twice, 4 closes
    theirs. *)
Example C85_last_case : stub_addresses_differ pair_addr /\ stub_history pair_addr calls5 stubs5 /\
  last_stated pair_addr 3 61 calls5 = Some (f64_of 20000, 5040) /\ last_stated pair_addr 4 61 calls5 = None /\
  last_stated pair_addr 4 61 (tl calls5) = Some (f64_of 7, 5010).
Proof. split; [exact pair_addr_differ|]. split; [exact history5|]. now vm_compute. Qed.

(** 4 can neither set nor close the oracle of 3, nor create a second one there. *)
Example C85_only_owner_case :
  stub_exec pair_addr [4] 900 5060 stubs5 (SSet 4 (pair_addr 3 61) (f64_of 1)) = Err Constraint /\
  stub_exec pair_addr [4] 900 5060 stubs5 (SSet 3 (pair_addr 3 61) (f64_of 1)) = Err Constraint /\
  stub_exec pair_addr [4] 900 5060 stubs5 (SClose 4 (pair_addr 3 61)) = Err Constraint /\
  stub_exec pair_addr [3] 900 5060 stubs5 (SCreate 3 61 (f64_of 1)) = Err Constraint /\
  (exists st', stub_exec pair_addr [3] 900 5060 stubs5 (SSet 3 (pair_addr 3 61) (f64_of 1)) = Ok st' /\
    al_get (pair_addr 3 61) st' <> al_get (pair_addr 3 61) stubs5).
Proof.
  repeat (split; [now vm_compute|]). eexists. split; [now vm_compute|]. vm_compute. discriminate.
Qed.

(** Up to slot 5140 a market that allows 100 slots takes 20000 quote per base token of 10^9 and
    10^6: 20 per native unit. *)
Example C85_market_case : c_oracle_a (m_cfg stub_market) = pair_addr 3 61 /\ c_oracle_b (m_cfg stub_market) = 0 /\
  oracle_price stub_market stub_cfg (Some (stub_account stubs5 (pair_addr 3 61))) None 5140 = Ok (Some (20 * 2 ^ 48)) /\
  oracle_price stub_market stub_cfg (Some (stub_account stubs5 (pair_addr 3 61))) None 5141 = Ok None.
Proof. now vm_compute. Qed.

Example C85_taken_case : exists adj, pair_addr 3 61 <> 0 /\ 0 < 5040 /\ 5140 <= 5040 + oc_max_staleness stub_cfg /\
  f64_gt (f64_of 0) (f64_mul (oc_conf_filter stub_cfg) (f64_of 20000)) = false /\ decimal_adjustment stub_cfg = Ok adj.
Proof. eexists. repeat split; vm_compute; congruence. Qed.

Example C85_closed_case : last_stated pair_addr 4 61 calls5 = None /\ pair_addr 4 61 <> 0.
Proof. split; vm_compute; congruence. Qed.
