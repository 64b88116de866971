(** Vocabulary for finding open orders accounts: what the node keeps of the program's state. *)
From Coq Require Import ZArith List Bool.
From Verif Require Import Base Nodes OrderTree BookSide Heap Market OpenOrders Order Book Instructions SpecBook SpecLedger SpecSystem SpecFit
  Program SpecProgram Ts Bytes SpecBytes FindOo.
Import ListNotations.
Open Scope Z_scope.

(** Executions of the whole program on chain: as in SpecFit.v, and addresses given have 32 bytes. *)
Definition machine_pcall (e : env) (i : pinstr) : Prop :=
  e_now e < 2 ^ 63 /\
  match i with
  | PMarket _ i => machine_call e i
  | PCreateMarket m c _ => is_address m /\ keys_fit c
  | PCreateAccount _ owner delegate _ => is_address owner /\ is_address delegate
  | _ => True
  end.
Inductive program_on_chain (addr : Z -> Z -> Z) : prog -> Prop :=
| pon_start t : program_on_chain addr (prog0 t)
| pon_step e p i p' out : program_on_chain addr p -> machine_pcall e i -> pexec addr e p i = Ok (p', out) -> program_on_chain addr p'.
(** The eight bytes an account of each kind begins with. *)
Record kinds : Type := mkKinds { kd_account : list Z; kd_indexer : list Z; kd_market : list Z; kd_side : list Z }.
Record kinds_ok (d : kinds) : Prop := {
  ko_account : length (kd_account d) = 8%nat; ko_indexer : length (kd_indexer d) = 8%nat;
  ko_market : length (kd_market d) = 8%nat; ko_side : length (kd_side d) = 8%nat }.

(** The node has the accounts of the state [p], each at its address (an owner's indexer at
    [place owner]) and as the bytes the program stores; of a closed market nothing is left. *)
Record kept (d : kinds) (place : Z -> Z) (p : prog) (get : Z -> option (list Z)) : Prop := {
  kp_account : forall m k a, account_in p m k a -> exists name bump, length name = 32%nat /\ get k = Some (account_account (kd_account d) m name bump a);
  kp_indexer : forall o x, al_get o (p_idx p) = Some x -> exists bump, get (place o) = Some (indexer_account (kd_indexer d) bump x);
  kp_no_indexer : forall o, al_get o (p_idx p) = None -> get (place o) = None;
  kp_market : forall m s, market_in p m = Some s -> s_closed s = false -> exists x, rest_fits x /\
    get m = Some (market_account (kd_market d) x (w_mkt (s_w s))) /\
    get (mr_bids x) = Some (side_account (kd_side d) (w_book (s_w s) Bid)) /\
    get (mr_asks x) = Some (side_account (kd_side d) (w_book (s_w s) Ask));
  kp_closed : forall m s, market_in p m = Some s -> s_closed s = true -> get m = None;
  kp_address : forall m k a, account_in p m k a -> is_address k }.

(** All accounts of the program, each once; only open orders accounts begin as those do. *)
Record all_accounts (d : kinds) (p : prog) (get : Z -> option (list Z)) (all : list (Z * list Z)) : Prop := {
  aa_once : NoDup (map fst all);
  aa_what : forall k b, In (k, b) all <-> get k = Some b;
  aa_kind : forall k b, get k = Some b -> firstn 8 b = kd_account d -> exists m a, account_in p m k a }.

(** An account loaded with the market and the orders it has in state [p]. *)
Definition as_it_is (p : prog) (x : loaded) : Prop :=
  exists s, market_in p (ld_market x) = Some s /\ acct_get (ld_key x) (w_accts (s_w s)) = Some (ld_account x) /\
    ld_state x = w_mkt (s_w s) /\
    forall sd t, ts_leaves (bs_nodes (ld_book x sd)) sd (bs_root (ld_book x sd) t) = Ok (tree_orders (w_book (s_w s) sd) t).
