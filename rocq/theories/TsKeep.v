(** ts/client/src/client.ts: the instructions with which a market is kept running and wound
    down.  Addresses of the market's own accounts and programs are left out. *)
From Coq Require Import ZArith List Bool.
From Verif Require Import Base Nodes OrderTree BookSide Heap Market OpenOrders Order Book Instructions.
Import ListNotations.
Open Scope Z_scope.

(** An instruction and the keys marked as signers in it.  An optional account passed as [null]
    is not marked; one passed as a key is, also if it is the default key (0). *)
Record keep_ix : Type := mkKeep { ki_needs : list Z; ki_do : instr }.

(** client.ts 978-1006: [consumeEventsIx] passes no admin if the market has none. *)
Definition ts_consume (m : market) (limit : Z) (rem : list Z) : keep_ix :=
  let u := c_consume_events_admin (m_cfg m) in
  mkKeep (if u =? 0 then [] else [u]) (IConsume u limit rem).
(** client.ts 1008-1061: [consumeGivenEventsIx], and [consumeEventsForAccountIx] with the slots
    and accounts it looks up (Ts.v), pass the admin's key as the market states it. *)
Definition ts_consume_given (m : market) (slots rem : list Z) : keep_ix :=
  let u := c_consume_events_admin (m_cfg m) in mkKeep [u] (IConsumeGiven u slots rem).
(** client.ts 497-521: [depositIx]; the depositor is the account's owner. *)
Definition ts_deposit (k : Z) (a : ooa) (ub uq base quote : Z) : keep_ix :=
  mkKeep [a_owner a] (IDeposit (a_owner a) k ub uq base quote).
(** client.ts 1063-1089: [pruneOrdersIx] *)
Definition ts_prune (m : market) (k limit : Z) : keep_ix :=
  let u := c_close_market_admin (m_cfg m) in mkKeep [u] (IPrune u k limit).
(** client.ts 311-338: [closeMarketIx] *)
Definition ts_close_market (m : market) : keep_ix :=
  let u := c_close_market_admin (m_cfg m) in mkKeep [u] (ICloseMarket u).

(** Sending with the signatures [sigs], the wallet's among them: without those it needs the
    transaction is rejected (utils/rpc.ts 14-75 signs with the wallet and the signers given). *)
Definition keep_send (sigs : list Z) (e : env) (s : sys) (i : keep_ix) : res (sys * output) :=
  _ <- require (forallb (fun u => mem_key u sigs) (ki_needs i)) Constraint ;; exec e s (ki_do i).
