(** Specification vocabulary for the whole program: what one market looks like in it, which open
    orders accounts an owner has, and what an indexer should say. *)
From Coq Require Import ZArith List Bool.
From Verif Require Import Base Nodes OrderTree BookSide Heap Market OpenOrders Order Book Instructions Program.
Import ListNotations.
Open Scope Z_scope.

(** Market [m] as a system of its own. *)
Definition market_in (p : prog) (m : Z) : option sys :=
  option_map (fun x => mkSys (fst x) (p_tok p) (snd x)) (al_get m (p_mkts p)).

(** The market whose accounts an instruction is given. *)
Definition market_of (i : pinstr) : option Z :=
  match i with
  | PMarket m _ | PCreateMarket m _ _ | PCreateAccount m _ _ _ | PCloseAccount m _ _ => Some m
  | PToken _ | PCreateIndexer _ | PCloseIndexer _ => None
  end.

(** The amount in the token account [v]. *)
Definition amount_in (t : tokens) (v : Z) : Z := match t v with Some x => t_amount x | None => 0 end.

(** The open orders account at address [k], and its market. *)
Definition account_in (p : prog) (m k : Z) (a : ooa) : Prop :=
  exists s, market_in p m = Some s /\ acct_get k (w_accts (s_w s)) = Some a.
Definition owns (p : prog) (o k : Z) : Prop := exists m a, account_in p m k a /\ a_owner a = o.

(** Different owners or numbers (of 32 bits) give different addresses, none of them zero. *)
Definition addresses_differ (addr : Z -> Z -> Z) : Prop :=
  (forall o n o' n', 0 <= n <= 4294967295 -> 0 <= n' <= 4294967295 -> addr o n = addr o' n' -> o = o' /\ n = n') /\
  (forall o n, 0 <= n <= 4294967295 -> addr o n <> 0).

(** An indexer lists the open accounts of its owner, each once, and at most 256; who has no indexer
    has no account. *)
Record well_indexed (p : prog) : Prop := {
  wi_lists : forall o x, al_get o (p_idx p) = Some x -> forall k, In k (ix_addrs x) <-> owns p o k;
  wi_once : forall o x, al_get o (p_idx p) = Some x -> NoDup (ix_addrs x);
  wi_few : forall o x, al_get o (p_idx p) = Some x -> (length (ix_addrs x) <= 256)%nat;
  wi_none : forall o k, al_get o (p_idx p) = None -> ~ owns p o k;
  (** No two accounts, of whatever markets, are at one address. *)
  wi_place : forall m m' k a a', account_in p m k a -> account_in p m' k a' -> m = m' /\ a = a' }.

(** An account's address tells its owner and its number, which the owner's indexer has counted. *)
Definition numbered_by (addr : Z -> Z -> Z) (p : prog) : Prop :=
  forall m k a, account_in p m k a -> k = addr (a_owner a) (a_num a) /\
    exists x, al_get (a_owner a) (p_idx p) = Some x /\ 1 <= a_num a <= ix_counter x /\ ix_counter x <= 4294967295.

(** Executions in which [o]'s indexer is not closed. *)
Inductive runs_indexed (addr : Z -> Z -> Z) (o : Z) : prog -> prog -> Prop :=
| ri_none p : runs_indexed addr o p p
| ri_step e p i p1 out p2 : pexec addr e p i = Ok (p1, out) -> i <> PCloseIndexer o -> runs_indexed addr o p1 p2 ->
    runs_indexed addr o p p2.
Definition counted (p : prog) (o : Z) : Z := match al_get o (p_idx p) with Some x => ix_counter x | None => 0 end.

Definition vaults_of (s : sys) : list Z := [c_base_vault (m_cfg (w_mkt (s_w s))); c_quote_vault (m_cfg (w_mkt (s_w s)))].

(** Any executions. *)
Inductive runs (addr : Z -> Z -> Z) : prog -> prog -> Prop :=
| rn_none p : runs addr p p
| rn_step e p i p1 out p2 : pexec addr e p i = Ok (p1, out) -> runs addr p1 p2 -> runs addr p p2.
