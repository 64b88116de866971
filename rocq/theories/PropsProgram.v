(** C57, C58: many markets side by side, and the indexers of open orders accounts. *)
From Coq Require Import ZArith List Bool Lia.
From Verif Require Import Base Nodes OrderTree BookSide Heap Market OpenOrders Order Book Instructions
  SpecBook SpecOrder SpecLedger SpecEvents SpecSystem SpecControl Program SpecProgram ProgFacts IndexFacts ProgramProofs Samples ProgSamples.
Import ListNotations.
Open Scope Z_scope.

(** C57: among any number of markets sharing users and their token accounts, each market is in a
    state that it could also reach on its own: all theorems about reachable states hold of it. *)
Theorem C57_each_market_alone addr p m s : preachable addr p -> market_in p m = Some s -> reachable s.
Proof. exact (market_alone addr p m s). Qed.
Print Assumptions C57_each_market_alone.

(** C57: an instruction on one market leaves all other markets as they are: their books, queues,
    accounts and settings, and nothing leaves their vaults. *)
Theorem C57_others_untouched addr e p i p' out m s : preachable addr p -> pexec addr e p i = Ok (p', out) ->
  market_in p m = Some s -> market_of i <> Some m ->
  let c := m_cfg (w_mkt (s_w s)) in
  exists s', market_in p' m = Some s' /\ s_w s' = s_w s /\ s_closed s' = s_closed s /\
    amount_in (p_tok p) (c_base_vault c) <= amount_in (p_tok p') (c_base_vault c) /\
    amount_in (p_tok p) (c_quote_vault c) <= amount_in (p_tok p') (c_quote_vault c).
Proof. exact (others_untouched addr e p i p' out m s). Qed.
Print Assumptions C57_others_untouched.

(** C57: no two markets share a vault. *)
Theorem C57_vaults_apart addr p m m' s s' : preachable addr p -> market_in p m = Some s -> market_in p m' = Some s' -> m <> m' ->
  forall v v', In v (vaults_of s) -> In v' (vaults_of s') -> v <> v'.
Proof. exact (vaults_apart addr p m m' s s'). Qed.
Print Assumptions C57_vaults_apart.

(** C58: at any time every indexer lists exactly its owner's open accounts over all markets, each
    once and no more than 256; every account's address is derived from its owner and number. *)
Theorem C58_indexers_right addr p : addresses_differ addr -> preachable addr p -> well_indexed p /\ numbered_by addr p.
Proof. exact (indexers_right addr p). Qed.
Print Assumptions C58_indexers_right.

(** C58: opening an account works unless the indexer is missing, full or has counted to the end,
    the market is missing or closed, or the name is too long. *)
Theorem C58_opens addr e p m o d nl : addresses_differ addr -> preachable addr p -> is_authority p o = false ->
  (exists p' out, pexec addr e p (PCreateAccount m o d nl) = Ok (p', out)) <->
  (exists x s, al_get o (p_idx p) = Some x /\ (length (ix_addrs x) < 256)%nat /\ ix_counter x < 4294967295 /\
     market_in p m = Some s /\ s_closed s = false /\ nl <= 32).
Proof. exact (creates_iff addr e p m o d nl). Qed.
Print Assumptions C58_opens.

(** C58: the account opened is new, empty, its owner's, and last in the indexer's list. *)
Theorem C58_opened addr e p m o d nl p' out : addresses_differ addr -> preachable addr p ->
  pexec addr e p (PCreateAccount m o d nl) = Ok (p', out) ->
  exists x a, al_get o (p_idx p) = Some x /\ let n := ix_counter x + 1 in
    al_get o (p_idx p') = Some (mkIdx n (ix_addrs x ++ [addr o n])) /\
    account_in p' m (addr o n) a /\ a_owner a = o /\ a_delegate a = d /\ a_num a = n /\
    a_pos a = position0 /\ (forall oo, In oo (a_orders a) -> oo = open_order0) /\
    ~ (exists m' a', account_in p m' (addr o n) a').
Proof. exact (creates_what addr e p m o d nl p' out). Qed.
Print Assumptions C58_opened.

(** C58: owners can close their accounts once nothing is left in them: the indexer is never in
    the way, even if the market is closed. *)
Theorem C58_closes addr e p m o k : addresses_differ addr -> preachable addr p -> is_authority p o = false ->
  (exists p' out, pexec addr e p (PCloseAccount m o k) = Ok (p', out)) <->
  (exists a, account_in p m k a /\ a_owner a = o /\ empty_handed a /\ p_penalty (a_pos a) = 0).
Proof. exact (account_closes addr e p m o k). Qed.
Print Assumptions C58_closes.

(** C58: an indexer can be closed exactly when its owner has no account in any market. *)
Theorem C58_indexer_closes addr e p o : addresses_differ addr -> preachable addr p -> is_authority p o = false ->
  (exists p' out, pexec addr e p (PCloseIndexer o) = Ok (p', out)) <-> (al_get o (p_idx p) <> None /\ forall k, ~ owns p o k).
Proof. exact (ends_iff addr e p o). Qed.
Print Assumptions C58_indexer_closes.

(** C58: as long as its indexer is not closed, no address is used again: an account with a number
    counted before is one that was there before. *)
Theorem C58_no_reuse addr o p p' m k a : runs_indexed addr o p p' -> addresses_differ addr -> preachable addr p ->
  account_in p' m k a -> a_owner a = o -> a_num a <= counted p o ->
  exists a0, account_in p m k a0 /\ a_owner a0 = o /\ a_num a0 = a_num a.
Proof. exact (no_reuse addr o p p' m k a). Qed.
Print Assumptions C58_no_reuse.

(** C58: closing the indexer starts the numbers again, so addresses of closed accounts then come
    back, also for accounts of other markets. *)
Theorem C58_reuse_after_closing : exists addr o p p' m m' k a0 a1 p0, addresses_differ addr /\ preachable addr p0 /\
  account_in p0 m k a0 /\ runs addr p0 p /\ (forall m a, ~ account_in p m k a) /\ a_num a1 <= counted p o /\
  runs addr p p' /\ account_in p' m' k a1 /\ a_owner a0 = o /\ a_owner a1 = o /\ m <> m'.
Proof. exact reuse_after_closing. Qed.
Print Assumptions C58_reuse_after_closing.

(** Markets 40 and 41 over the same mints; users 1 and 2 have orders on both.  A purchase on
    market 40 takes from user 2's wallet and changes that market only. *)
Example C57_case : addresses_differ addr58 /\ preachable addr58 two_markets /\
  (let p' := pafter later two_markets buy40 in
   pok later two_markets buy40 = true /\ market_of buy40 <> Some 41 /\
   amounts_at two_markets [21; 22; 51; 52; 151; 152] = [1000000000; 999999195; 2000; 0; 500; 95 * 7 + 140] /\
   amounts_at p' [21; 22; 51; 52; 151; 152] = [1000000000; 999988690; 2000; 10505; 500; 95 * 7 + 140] /\
   book_at two_markets 40 = ([], [(105, 20)]) /\ book_at p' 40 = ([], [(105, 10)]) /\
   book_at two_markets 41 = ([(95, 7)], [(110, 50)]) /\ book_at p' 41 = book_at two_markets 41).
Proof. split; [exact addr58_differ|]. split; [exact two_markets_reachable|]. vm_compute. repeat split; discriminate. Qed.

(** Their indexers; a further account can be opened and closed, an account with orders or an
    indexer with accounts cannot. *)
Example C58_case : preachable addr58 two_markets /\ is_authority two_markets 1 = false /\
  al_get 1 (p_idx two_markets) = Some (mkIdx 2 [addr58 1 1; addr58 1 2]) /\
  al_get 2 (p_idx two_markets) = Some (mkIdx 3 [addr58 2 1; addr58 2 3]) /\
  al_get 3 (p_idx two_markets) = None /\
  pok later two_markets (PCreateAccount 41 1 0 32) = true /\
  pok later two_markets (PCreateAccount 41 1 0 33) = false /\
  pok later two_markets (PCreateAccount 42 1 0 3) = false /\
  pok later two_markets (PCreateAccount 41 3 0 3) = false /\
  pok later two_markets (PCloseAccount 40 2 (addr58 2 1)) = true /\
  pok later two_markets (PCloseAccount 41 2 (addr58 2 1)) = false /\
  pok later two_markets (PCloseAccount 41 1 (addr58 1 2)) = false /\
  pok later two_markets (PCloseIndexer 1) = false /\
  al_get 2 (p_idx (pafter later two_markets (PCloseAccount 40 2 (addr58 2 1)))) = Some (mkIdx 3 [addr58 2 3]).
Proof. split; [exact two_markets_reachable|]. vm_compute. repeat split. Qed.

(** User 2 closed the second account before: its number is not given out again. *)
Example C58_no_reuse_case : preachable addr58 two_markets /\ counted two_markets 2 = 3 /\
  runs_indexed addr58 2 two_markets (pafter later two_markets (PCreateAccount 41 2 0 3)) /\
  address_taken two_markets (addr58 2 2) = false /\
  address_taken (pafter later two_markets (PCreateAccount 41 2 0 3)) (addr58 2 2) = false /\
  address_taken (pafter later two_markets (PCreateAccount 41 2 0 3)) (addr58 2 4) = true.
Proof.
  split; [exact two_markets_reachable|]. split; [vm_compute; reflexivity|]. split; [apply one_run; [vm_compute; reflexivity|discriminate]|].
  vm_compute. repeat split.
Qed.
