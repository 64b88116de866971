(** Model of the SOL that changes hands for what an order leaves behind in the event queue:
    /repo/programs/openbook-v2/src/state/market.rs 16-17 (PENALTY_EVENT_HEAP),
    instructions/place_take_order.rs 88-97, instructions/settle_funds.rs 38-46,
    token_utils.rs 61-87 and the closing of the market account in
    accounts_ix/close_market.rs 8-44.  Left out: the rent paid and given back when accounts are
    created and closed, transaction fees, and the SOL in accounts other than those named.  The
    counters in the open orders accounts are part of Instructions.v. *)
From Coq Require Import ZArith List Bool.
From Verif Require Import Base Nodes OrderTree BookSide Heap Market OpenOrders Order Book Instructions.
Import ListNotations.
Open Scope Z_scope.

(** state/market.rs 16-17 *)
Definition PENALTY_EVENT_HEAP : Z := 500.

(** The lamports in each account. *)
Definition lamports : Type := Z -> Z.
Definition l_upd (l : lamports) (k v : Z) : lamports := fun x => if x =? k then v else l x.

(** token_utils.rs 61-87, with the System program's transfer: the sender signs, is an account
    without data (so never the market account) and has the amount. *)
Definition sol_transfer (l : lamports) (market amount from to : Z) : res lamports :=
  if 0 <? amount then
    _ <- require (negb (from =? market)) Constraint ;;
    _ <- require (amount <=? l from) Constraint ;;
    let l1 := l_upd l from (l from - amount) in
    _ <- require (l1 to + amount <=? u64_max) Constraint ;;
    Ok (l_upd l1 to (l1 to + amount))
  else Ok l.

(** What an instruction that leads from [s] to [s'] has its penalty payer pay.
    place_take_order.rs 54-56 and 88-97: the heap is compared before and after new_order,
    and nothing else in that instruction touches it; settle_funds.rs 38-46, also reached from
    settle_funds_expired.rs. *)
Definition penalty_due (s : sys) (i : instr) (s' : sys) : Z :=
  match i with
  | IPlaceTake _ _ =>
      if h_count (w_heap (s_w s)) <? h_count (w_heap (s_w s')) then PENALTY_EVENT_HEAP else 0
  | ISettle _ k _ _ _ | ISettleExpired _ k _ _ _ =>
      match acct_get k (w_accts (s_w s)) with
      | Some a => p_penalty (a_pos a) * PENALTY_EVENT_HEAP
      | None => 0
      end
  | _ => 0
  end.

(** accounts_ix/close_market.rs 10-18: Anchor's [close] sends everything in the market
    account to the destination, which must be another account.  The book sides and the event
    heap are closed in the same way; the SOL in them is not modelled. *)
Definition sol_close (l : lamports) (market dest : Z) : res lamports :=
  _ <- require (negb (dest =? market)) Constraint ;;
  let v := l market in
  let l1 := l_upd l market 0 in
  _ <- require (l1 dest + v <=? u64_max) Constraint ;;
  Ok (l_upd l1 dest (l1 dest + v)).

(** One instruction on the market at address [market], with the penalty payer and the
    destination of the SOL that the caller names. *)
Definition exec_sol (e : env) (market : Z) (s : sys) (l : lamports) (payer dest : Z) (i : instr)
  : res (sys * lamports * output) :=
  '(s', out) <- exec e s i ;;
  l' <- match i with
        | ICloseMarket _ => sol_close l market dest
        | _ => sol_transfer l market (penalty_due s i s') payer market
        end ;;
  Ok (s', l', out).
