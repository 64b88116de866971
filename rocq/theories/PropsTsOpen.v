(** C89: opening an account through the TypeScript client.
    Model: TsOpen.v ([ts_open] with the owner's indexer as the client read it; it returns the new
    state and the address).  Vocabulary: SpecProgram.v. *)
From Coq Require Import ZArith List Bool Lia.
From Verif Require Import Base Nodes OrderTree BookSide Heap Market OpenOrders Order Book Instructions
  SpecBook SpecOrder SpecLedger SpecEvents SpecSystem SpecControl Program SpecProgram Samples ProgSamples TsOpen TsOpenFacts.
Import ListNotations.
Open Scope Z_scope.

(** C89: somebody without an indexer can open an account on any open market; somebody with one can
    unless it is full or has counted to the end.  The name has at most 32 bytes. *)
Theorem C89_opens addr e p m o d nl : addresses_differ addr -> preachable addr p -> is_authority p o = false ->
  (exists p' k, ts_open addr e p (al_get o (p_idx p)) m o d nl = Ok (p', k)) <->
  ((forall x, al_get o (p_idx p) = Some x -> (length (ix_addrs x) < 256)%nat /\ ix_counter x < 4294967295) /\
   (exists s, market_in p m = Some s /\ s_closed s = false) /\ nl <= 32).
Proof. exact (opens_iff addr e p m o d nl). Qed.
Print Assumptions C89_opens.

(** C89: the address returned is that of the account opened, which is new, empty, the owner's and
    listed last, whatever the client read before ([read]), be it out of date. *)
Theorem C89_opened addr e p read m o d nl p' k : addresses_differ addr -> preachable addr p -> ts_open addr e p read m o d nl = Ok (p', k) ->
  exists a x, account_in p' m k a /\ a_owner a = o /\ a_delegate a = d /\ a_pos a = position0 /\ (forall oo, In oo (a_orders a) -> oo = open_order0) /\
    ~ (exists m' a', account_in p m' k a') /\ al_get o (p_idx p') = Some x /\ last (ix_addrs x) 0 = k /\ k = addr o (a_num a) /\
    preachable addr p'.
Proof. exact (opened addr e p read m o d nl p' k). Qed.
Print Assumptions C89_opened.

(** C89: if another account was opened, or an indexer made or closed, since the client read the
    indexer, or if it failed to read one that is there, then nothing is opened. *)
Theorem C89_stale addr e p read m o d nl : addresses_differ addr -> preachable addr p ->
  (forall x, read = Some x -> 0 <= ix_counter x) ->
  match read, al_get o (p_idx p) with Some x, Some y => ix_counter x <> ix_counter y | None, None => False | _, _ => True end ->
  exists er, ts_open addr e p read m o d nl = Err er.
Proof. exact (stale addr e p read m o d nl). Qed.
Print Assumptions C89_stale.

(** User 3 opens a first account on market 41 and user 2, whose second account was closed, a
    fourth; with the indexer as it was before neither opens another. *)
Definition opened_at (r : res (prog * Z)) : option (Z * option (list Z)) :=
  match r with Ok (p, k) => Some (k, option_map ix_addrs (al_get (k / 8589934592) (p_idx p))) | Err _ => None end.
Example C89_case : addresses_differ addr58 /\ preachable addr58 two_markets /\ is_authority two_markets 2 = false /\ is_authority two_markets 3 = false /\
  al_get 3 (p_idx two_markets) = None /\ al_get 2 (p_idx two_markets) = Some (mkIdx 3 [addr58 2 1; addr58 2 3]) /\
  opened_at (ts_open addr58 later two_markets None 41 3 0 5) = Some (addr58 3 1, Some [addr58 3 1]) /\
  opened_at (ts_open addr58 later two_markets (al_get 2 (p_idx two_markets)) 41 2 9 5) = Some (addr58 2 4, Some [addr58 2 1; addr58 2 3; addr58 2 4]) /\
  match ts_open addr58 later two_markets (al_get 2 (p_idx two_markets)) 41 2 9 5 with
  | Ok (p, _) => opened_at (ts_open addr58 later p (al_get 2 (p_idx two_markets)) 41 2 9 5) | Err _ => Some (0, None) end = None /\
  opened_at (ts_open addr58 later two_markets None 41 2 0 5) = None /\ opened_at (ts_open addr58 later two_markets None 42 3 0 5) = None.
Proof. split; [exact addr58_differ|]. split; [exact two_markets_reachable|]. vm_compute. repeat split. Qed.
