(** Model of further parts of the Rust client (/repo/lib/client/src): context.rs, the
    instructions client.rs sends and how it finds or creates an account, and
    chain_data_fetcher.rs.  How the TypeScript client creates an account is here as well. *)
From Coq Require Import ZArith List Bool.
From Verif Require Import Base Nodes OrderTree BookSide Heap Market OpenOrders Order Book Instructions Program ChainData.
Import ListNotations.
Open Scope Z_scope.

(** ** Sizes (context.rs 10-40) *)
(** 23-30; the arguments are u64, lot sizes are positive ([create_market]). *)
Definition rc_quote_lots_taker (m : market) (quote : Z) : res Z :=
  _ <- massert (negb (FEES_SCALE + taker_fee m =? 0)) ;;
  fees <- chk_u64 (Z.quot (quote * taker_fee m) (FEES_SCALE + taker_fee m)) ;;
  chk_u64 (quote / qls m + fees).
(** 31-36 *)
Definition rc_quote_lots_maker (m : market) (quote : Z) : res Z :=
  fees <- maker_fees_floor m quote ;;
  chk_u64 (quote / qls m + fees).
(** 11-16 *)
Definition rc_quote_lots_taker_usd (m : market) (usd : Z) : res Z :=
  q <- chk_u64 (usd * 10 ^ 6) ;; rc_quote_lots_taker m q.
Definition rc_quote_lots_maker_usd (m : market) (usd : Z) : res Z :=
  q <- chk_u64 (usd * 10 ^ 6) ;; rc_quote_lots_maker m q.
(** 38-40 and 17-19; [decimals] is the market's [base_decimals]. *)
Definition rc_base_lots (m : market) (base : Z) : Z := base / bls m.
Definition rc_base_lots_usd (m : market) (decimals size : Z) : res Z :=
  b <- chk_u64 (size * decimals) ;; Ok (rc_base_lots m b).

(** ** Instructions (client.rs 379-690) *)
(** The client's owner key and its open orders account. *)
Record rclient : Type := mkRc { rc_owner : Z; rc_account : Z }.
(** 379-430 and 432-490: the open orders admin is left out and no accounts are passed along. *)
Definition rc_place (c : rclient) (user_token vault : Z) (g : place_args) : instr :=
  IPlaceOrder (mkPlaceCtx (rc_owner c) (rc_account c) 0 user_token vault []) g.
Definition rc_place_pegged (c : rclient) (user_token vault : Z) (g : peg_args) : instr :=
  IPlacePegged (mkPlaceCtx (rc_owner c) (rc_account c) 0 user_token vault []) g.
(** 492-517 and 519-547 *)
Definition rc_cancel (c : rclient) (id : Z) : instr := ICancel (rc_owner c) (rc_account c) id.
Definition rc_cancel_all (c : rclient) (sd : option side) (limit : Z) : instr :=
  ICancelAll (rc_owner c) (rc_account c) sd limit.
(** 586-618 *)
Definition rc_deposit (c : rclient) (ub uq base quote : Z) : instr :=
  IDeposit (rc_owner c) (rc_account c) ub uq base quote.
(** 620-656 *)
Definition rc_settle (c : rclient) (ub uq : Z) (ref : option Z) : instr :=
  ISettle (rc_owner c) (rc_account c) ub uq ref.
(** 658-681: the admin noted in the market, if any; no accounts are passed along. *)
Definition rc_consume (m : market) (limit : Z) : instr :=
  IConsume (c_consume_events_admin (m_cfg m)) limit [].

(** ** Finding or creating an account *)
(** gpa.rs 11-38: the accounts with an owner, over all markets. *)
Definition accounts_of (p : prog) (owner : Z) : list (Z * ooa) :=
  flat_map (fun x => filter (fun ka => a_owner (snd ka) =? owner) (w_accts (fst (snd x)))) (p_mkts p).
(** client.rs 125-131: one more than the largest number in use, or zero. *)
Definition rc_next_number (l : list (Z * ooa)) : Z :=
  match l with [] => 0 | _ => fold_right Z.max 0 (map (fun ka => a_num (snd ka)) l) + 1 end.
(** [createOpenOrdersAccount] with the account at [k] in place of the new account: the program
    insists on the address derived from its own count
    (accounts_ix/create_open_orders_account.rs 25-32). *)
Definition create_at (addr : Z -> Z -> Z) (e : env) (p : prog) (k m owner delegate name_len : Z) : res prog :=
  x <- al_load owner (p_idx p) ;;
  _ <- require (k =? addr owner (ix_counter x + 1)) Constraint ;;
  '(p', _) <- pexec addr e p (PCreateAccount m owner delegate name_len) ;; Ok p'.
(** client.rs 106-151; [named k] says whether the account at [k] has the name looked for. *)
Definition rc_find_or_create (addr : Z -> Z -> Z) (e : env) (p : prog) (named : Z -> bool) (m owner name_len : Z)
  : res (prog * Z) :=
  let l := accounts_of p owner in
  match find (fun ka => named (fst ka)) l with
  | Some (k, _) => Ok (p, k)
  | None =>
      let n := rc_next_number l in
      _ <- massert (n <=? u32_max) ;;
      p' <- create_at addr e p (addr owner n) m owner 0 name_len ;;
      Ok (p', addr owner n)
  end.
(** /repo/ts/client/src/client.ts 425-470: the indexer is created first if there is none; the
    account is the one after those the indexer has counted. *)
Definition ts_create (addr : Z -> Z -> Z) (e : env) (p : prog) (m owner delegate name_len : Z) : res (prog * Z) :=
  match al_get owner (p_idx p) with
  | Some x =>
      let k := addr owner (ix_counter x + 1) in
      p' <- create_at addr e p k m owner delegate name_len ;; Ok (p', k)
  | None =>
      let k := addr owner 1 in
      '(p1, _) <- pexec addr e p (PCreateIndexer owner) ;;
      p' <- create_at addr e p1 k m owner delegate name_len ;; Ok (p', k)
  end.

(** ** Fetching through the account cache (chain_data_fetcher.rs) *)
(** 58-65, 75-79 and 81-104: [fetch_fresh], given the node's answer [w]. *)
Definition fetch_fresh (c : chain_data) (k : Z) (w : write) : res (chain_data * option write) :=
  c' <- update_from_rpc c k w ;; Ok (c', account_and_slot c' k).
(** 116-143 for one address: the node's answers in turn until one is recent enough; [None] if
    there is none before the timeout. *)
Fixpoint refresh_until (c : chain_data) (k min_slot : Z) (answers : list write) : res (option chain_data) :=
  match answers with
  | [] => Ok None
  | w :: r =>
      c' <- update_from_rpc c k w ;;
      if min_slot <=? wr_slot w then Ok (Some c') else refresh_until c' k min_slot r
  end.
