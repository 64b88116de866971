(** Model of how the clients find the open orders accounts of an owner: /repo/ts/client/src/client.ts
    181-199 and 379-420, /repo/ts/client/src/accounts/openOrdersIndexer.ts 40-67 and
    /repo/lib/client/src/gpa.rs 11-39; with the bytes of an indexer.

    Simplified: the node is a function [get] from addresses to the bytes kept there, the same
    throughout; addresses derived from an owner are given; a thrown exception is [None].  That
    decoding fails on another discriminator is left out, as in Bytes.v. *)
From Coq Require Import ZArith List Bool.
From Verif Require Import Base Nodes OrderTree BookSide Heap Market OpenOrders Order Book Instructions Program Bytes Find.
Import ListNotations.
Open Scope Z_scope.

(** state/open_orders_indexer.rs 3-9, as borsh writes it after the discriminator: the list with
    its length in four bytes before it. *)
Definition indexer_account (disc : list Z) (bump : Z) (x : indexer) : list Z :=
  disc ++ le 1 bump ++ le 4 (ix_counter x) ++ le 4 (Z.of_nat (length (ix_addrs x))) ++ concat (map (le 32) (ix_addrs x)).
(** state/open_orders_indexer.rs 12-14 *)
Definition indexer_space (len : Z) : Z := 8 + 1 + 4 + (4 + len * 32).

(** The client's coder on it. *)
Definition ts_indexer (data : list Z) : option (Z * Z * list Z) :=
  match rd 1 (skipn 8 data) with
  | Some (bump, r) =>
      match rd 4 r with
      | Some (counter, r) =>
          match rd 4 r with
          | Some (n, r) =>
              match rd_many (rd 32) (Z.to_nat n) r with
              | Some (l, _) => Some (bump, counter, l)
              | None => None
              end
          | None => None
          end
      | None => None
      end
  | None => None
  end.

(** client.ts 191-199 and 379-387: [findAllOpenOrders], with the address of the owner's indexer. *)
Definition ts_find_all (get : Z -> option (list Z)) (index : Z) : list Z :=
  match get index with
  | Some d => match ts_indexer d with Some (_, _, l) => l | None => [] end
  | None => []
  end.
(** client.ts 181-189 *)
Definition ts_open_orders (get : Z -> option (list Z)) (k : Z) : option (Z * ooa) :=
  match get k with Some d => ts_account d | None => None end.
(** client.ts 404-420: [findOpenOrdersForMarket]. *)
Definition ts_find_for_market (get : Z -> option (list Z)) (index market : Z) : list Z :=
  filter (fun k => match ts_open_orders get k with Some (m, _) => m =? market | None => false end) (ts_find_all get index).

(** gpa.rs 11-39: [fetch_openbook_accounts]; the addresses of what passes both filters, out of all
    accounts of the program. *)
Definition rc_fetch (disc : list Z) (owner : Z) (all : list (Z * list Z)) : list Z :=
  map fst (filter (fun x => memcmp 0 disc (snd x) && memcmp 8 (le 32 owner) (snd x)) all).

(** openOrdersIndexer.ts 40-67: an [OpenOrders] with its market and the market's books. *)
Record loaded : Type := mkLoaded {
  ld_key : Z; ld_account : ooa; ld_market : Z; ld_rest : market_rest; ld_state : market; ld_bids : bookside; ld_asks : bookside }.
Definition ld_book (x : loaded) (s : side) : bookside := match s with Bid => ld_bids x | Ask => ld_asks x end.

(** A node answers [getMultipleAccounts] for 100 addresses at most; anchor's [fetchMultiple] asks
    several times if there are more, [connection.getMultipleAccountsInfo] does not. *)
Definition NODE_LIMIT : nat := 100.
Definition ts_infos (get : Z -> option (list Z)) (keys : list Z) : option (list (option (list Z))) :=
  if (NODE_LIMIT <? length keys)%nat then None else Some (map get keys).
Definition ts_side_info (infos : list (option (list Z))) (i : nat) : option bookside :=
  match nth_error infos i with Some (Some d) => ts_side_of_buffer d | _ => None end.
Definition ts_load_all (get : Z -> option (list Z)) (addrs : list Z) : option (list loaded) :=
  match all_some (ts_open_orders get) addrs with
  | None => None
  | Some oos =>
      match all_some (fun x => match get (fst x) with Some d => ts_market (fst x) d | None => None end) oos with
      | None => None
      | Some mkts =>
          match ts_infos get (concat (map (fun m => [mr_bids (fst m); mr_asks (fst m)]) mkts)) with
          | None => None
          | Some infos =>
              all_some (fun i =>
                match nth_error addrs i, nth_error oos i, nth_error mkts i, ts_side_info infos (2 * i), ts_side_info infos (2 * i + 1) with
                | Some k, Some (mk, a), Some (x, m), Some b, Some c => Some (mkLoaded k a mk x m b c)
                | _, _, _, _, _ => None
                end) (seq 0 (length oos))
          end
      end
  end.
