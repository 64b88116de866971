(** Property C83: finding and loading the open orders accounts of an owner.
    Vocabulary: SpecFindOo.v and SpecProgram.v. *)
From Coq Require Import ZArith List Bool Lia.
From Verif Require Import Base Nodes OrderTree BookSide Heap Market OpenOrders Order Book Instructions SpecBook SpecLedger SpecSystem SpecFit
  Program SpecProgram Ts Bytes SpecBytes Find FindOo SpecFindOo FindOoFacts Samples ProgSamples FindOoSamples.
Import ListNotations.
Open Scope Z_scope.

(** C83: what the program stores of an indexer is what the client reads, and it takes the space
    the program gives it. *)
Theorem C83_indexer_decodes disc bump x : length disc = 8%nat -> is_u8 bump -> is_u32 (ix_counter x) -> (length (ix_addrs x) <= 256)%nat -> Forall is_address (ix_addrs x) ->
  ts_indexer (indexer_account disc bump x) = Some (bump, ix_counter x, ix_addrs x) /\
  Z.of_nat (length (indexer_account disc bump x)) = indexer_space (Z.of_nat (length (ix_addrs x))).
Proof. intros H1 H2 H3 H4 H5. exact (conj (indexer_reads disc bump x H1 H2 H3 H4 H5) (indexer_length disc bump x H1)). Qed.
Print Assumptions C83_indexer_decodes.
Example C83_indexer_case : ts_indexer (indexer_account (repeat 7 8) 255 (mkIdx (2 ^ 32 - 1) [2 ^ 256 - 1; 5])) = Some (255, 2 ^ 32 - 1, [2 ^ 256 - 1; 5]) /\
  length (indexer_account (repeat 7 8) 255 (mkIdx (2 ^ 32 - 1) [2 ^ 256 - 1; 5])) = 81%nat.
Proof. vm_compute. auto. Qed.

(** C83: the list of all open orders accounts of an owner has exactly those, over all markets,
    closed ones included, each once; none for who has no indexer. *)
Theorem C83_finds_all addr d place p get o : kinds_ok d -> addresses_differ addr -> program_on_chain addr p -> kept d place p get ->
  NoDup (ts_find_all get (place o)) /\ forall k, In k (ts_find_all get (place o)) <-> owns p o k.
Proof. intros Hk HA HC HG. exact (found_all addr d place p get Hk HA HC HG o). Qed.
Print Assumptions C83_finds_all.

(** C83: the list for one market has exactly the owner's accounts of that market. *)
Theorem C83_finds_for_market addr d place p get o m : kinds_ok d -> addresses_differ addr -> program_on_chain addr p -> kept d place p get ->
  NoDup (ts_find_for_market get (place o) m) /\
  forall k, In k (ts_find_for_market get (place o) m) <-> exists a, account_in p m k a /\ a_owner a = o.
Proof. intros Hk HA HC HG. exact (found_for_market addr d place p get Hk HA HC HG o m). Qed.
Print Assumptions C83_finds_for_market.

(** C83: the Rust client's search finds the same accounts. *)
Theorem C83_rust_finds addr d place p get o all : kinds_ok d -> addresses_differ addr -> program_on_chain addr p -> kept d place p get ->
  all_accounts d p get all -> is_address o ->
  NoDup (rc_fetch (kd_account d) o all) /\ forall k, In k (rc_fetch (kd_account d) o all) <-> owns p o k.
Proof. intros Hk HA HC HG. exact (rust_found addr d place p get Hk HA HC HG all o). Qed.
Print Assumptions C83_rust_finds.

(** Users 1 and 2 have accounts on both markets, user 3 has no indexer. *)
Example C83_finds_case : kinds_ok kinds83 /\ addresses_differ addr58 /\ program_on_chain addr58 two_markets /\ kept kinds83 place83 two_markets (node two_markets) /\
  all_accounts kinds83 two_markets (node two_markets) (dump two_markets) /\
  map (fun o => ts_find_all (node two_markets) (place83 o)) [1; 2; 3] = [[addr58 1 1; addr58 1 2]; [addr58 2 1; addr58 2 3]; []] /\
  map (fun o => ts_find_for_market (node two_markets) (place83 o) 41) [1; 2; 3] = [[addr58 1 2]; [addr58 2 3]; []] /\
  map (fun o => length (rc_fetch (kd_account kinds83) o (dump two_markets))) [1; 2; 3] = [2; 2; 0]%nat.
Proof.
  split; [split; reflexivity|]. split; [exact addr58_differ|]. split; [exact two_markets_chain|].
  split; [apply node_kept; vm_compute; reflexivity|]. split; [apply fine_all; vm_compute; reflexivity|]. vm_compute. auto.
Qed.

(** C83, partial: up to fifty accounts, all on markets not closed, are loaded in order, each as it
    is and with the market and the orders that belong to it.  Missing: more accounts, and closed
    markets, where loading fails. *)
Theorem C83_loads_partial addr d place p get addrs : kinds_ok d -> addresses_differ addr -> program_on_chain addr p -> kept d place p get ->
  (length addrs <= 50)%nat ->
  (forall k, In k addrs -> exists m a s, account_in p m k a /\ market_in p m = Some s /\ s_closed s = false) ->
  exists l, ts_load_all get addrs = Some l /\ map ld_key l = addrs /\ Forall (as_it_is p) l.
Proof. intros Hk HA HC HG. exact (loads_all addr d place p get Hk HA HC HG addrs). Qed.
Print Assumptions C83_loads_partial.
Example C83_loads_case : program_on_chain addr58 two_markets /\ kept kinds83 place83 two_markets (node two_markets) /\
  match ts_load_all (node two_markets) (ts_find_all (node two_markets) (place83 2)) with
  | Some l => map (fun x => (ld_key x, ld_market x, a_owner (ld_account x), p_bids_base (a_pos (ld_account x)), c_base_vault (m_cfg (ld_state x)))) l =
      [(addr58 2 1, 40, 2, 0, 51); (addr58 2 3, 41, 2, 7, 151)]
  | None => False
  end.
Proof. split; [exact two_markets_chain|]. split; [apply node_kept; vm_compute; reflexivity|]. vm_compute. reflexivity. Qed.

(** C83 fails for more than fifty accounts, whatever the node has: the books of all their markets
    are asked for at once, and a node answers for a hundred addresses at most. *)
Theorem C83_too_many get addrs : (50 < length addrs)%nat -> ts_load_all get addrs = None.
Proof. exact (too_many get addrs). Qed.
Print Assumptions C83_too_many.
(** C83 fails if one of the accounts is on a closed market, for all of them. *)
Theorem C83_closed_market addr d place p get addrs k m a s : kinds_ok d -> addresses_differ addr -> program_on_chain addr p -> kept d place p get ->
  In k addrs -> account_in p m k a -> market_in p m = Some s -> s_closed s = true -> ts_load_all get addrs = None.
Proof. intros Hk HA HC HG. exact (closed_market_in_the_way addr d place p get Hk HA HC HG addrs k m a s). Qed.
Print Assumptions C83_closed_market.
(** Both happen: user 1 opens 51 accounts, which are all listed; user 2 has an account on market
    40 and one on market 41, which is then closed. *)
Theorem C83_loads_refuted : exists p1 p2,
  program_on_chain addr58 p1 /\ kept kinds83 place83 p1 (node p1) /\ length (ts_find_all (node p1) (place83 1)) = 51%nat /\
    ts_load_all (node p1) (ts_find_all (node p1) (place83 1)) = None /\
  program_on_chain addr58 p2 /\ kept kinds83 place83 p2 (node p2) /\ ts_find_all (node p2) (place83 2) = [addr58 2 1; addr58 2 2] /\
    ts_load_all (node p2) (ts_find_all (node p2) (place83 2)) = None /\ is_some (ts_load_all (node p2) [addr58 2 1]) = true.
Proof.
  exists crowd, half_closed. split; [exact crowd_chain|]. split; [apply node_kept; vm_compute; reflexivity|].
  split; [vm_compute; reflexivity|]. split; [apply too_many; vm_compute; lia|].
  split; [exact half_closed_chain|]. split; [apply node_kept; vm_compute; reflexivity|]. vm_compute. auto.
Qed.
Print Assumptions C83_loads_refuted.
