(** The whole program: many markets over the same token accounts, and the open orders
    indexers, which list an owner's open orders accounts over all markets. *)
From Coq Require Import ZArith List Bool.
From Verif Require Import Base Nodes OrderTree BookSide Heap Market OpenOrders Order Book Instructions.
Import ListNotations.
Open Scope Z_scope.

(** Accounts of one kind by their address. *)
Fixpoint al_get {A} (k : Z) (l : list (Z * A)) : option A :=
  match l with [] => None | (k', a) :: r => if k =? k' then Some a else al_get k r end.
Fixpoint al_set {A} (k : Z) (v : A) (l : list (Z * A)) : list (Z * A) :=
  match l with [] => [] | (k', a) :: r => if k =? k' then (k', v) :: r else (k', a) :: al_set k v r end.
Fixpoint al_del {A} (k : Z) (l : list (Z * A)) : list (Z * A) :=
  match l with [] => [] | (k', a) :: r => if k =? k' then r else (k', a) :: al_del k r end.
Definition al_load {A} (k : Z) (l : list (Z * A)) : res A :=
  match al_get k l with Some a => Ok a | None => Err AccountMissing end.

(** state/open_orders_indexer.rs 3-9 (bump left out). *)
Record indexer : Type := mkIdx { ix_counter : Z; ix_addrs : list Z }.
(** state/open_orders_indexer.rs 16-18 *)
Definition has_active_open_orders_accounts (x : indexer) : bool :=
  match ix_addrs x with [] => false | _ => true end.

(** All accounts of the program: per market its account, books, event heap and open orders
    accounts ([world]) and whether it has been closed; the indexers by their owners, from
    whose keys their addresses are derived; and the token accounts. *)
Record prog : Type := mkProg {
  p_mkts : list (Z * (world * bool));
  p_idx : list (Z * indexer);
  p_tok : tokens }.

Definition p_set_mkt (p : prog) (m : Z) (s : sys) : prog :=
  mkProg (al_set m (s_w s, s_closed s) (p_mkts p)) (p_idx p) (s_tok s).
Definition p_set_idx (p : prog) (o : Z) (x : indexer) : prog :=
  mkProg (p_mkts p) (al_set o x (p_idx p)) (p_tok p).
Definition p_set_tok (p : prog) (t : tokens) : prog := mkProg (p_mkts p) (p_idx p) t.

(** One market as instructions on it see it. *)
Definition load_market (p : prog) (m : Z) : res sys :=
  '(w, cl) <- al_load m (p_mkts p) ;; Ok (mkSys w (p_tok p) cl).

Definition authority_of (w : world) : Z := c_authority (m_cfg (w_mkt w)).
(** The addresses the program signs for: one per market, derived from the market's address. *)
Definition authorities (p : prog) : list Z := map (fun x => authority_of (fst (snd x))) (p_mkts p).
Definition is_authority (p : prog) (u : Z) : bool := existsb (Z.eqb u) (authorities p).

(** Is there an open orders account at address [k]? *)
Definition address_taken (p : prog) (k : Z) : bool :=
  existsb (fun x => match acct_get k (w_accts (fst (snd x))) with Some _ => true | None => false end) (p_mkts p).

(** Who signs an instruction on a market. *)
Definition ix_signer (i : instr) : Z :=
  match i with
  | IPlaceOrder x _ | IPlacePegged x _ | IEditOrder x _ _ _ | IEditPegged x _ _ _ => px_signer x
  | IPlaceMulti x _ _ _ _ _ => mx_signer x
  | IPlaceTake x _ => tx_signer x
  | ICancel u _ _ | ICancelClient u _ _ | ICancelAll u _ _ _ | IPrune u _ _ => u
  | IDeposit u _ _ _ _ _ | IRefill u _ _ _ _ _ | ISettle u _ _ _ _ | ISettleExpired u _ _ _ _ => u
  | ICreateAccount _ u _ _ | ICloseAccount u _ | ISetDelegate u _ _ => u
  | ISweep u _ | ISetExpired u | ICloseMarket u | IConsume u _ _ | IConsumeGiven u _ _ => u
  | IExtTransfer u _ _ _ | IExtGive u _ _ | IExtBurn u _ _ | IExtClose u _ => u
  | IExtMint _ _ | IExtCreate _ _ _ => 0
  end.
(** Actions of the token program, outside of this one. *)
Definition is_token_action (i : instr) : bool :=
  match i with
  | IExtTransfer _ _ _ _ | IExtMint _ _ | IExtCreate _ _ _ | IExtGive _ _ _ | IExtBurn _ _ _ | IExtClose _ _ => true
  | _ => false
  end.
(** Instructions that also need the indexer. *)
Definition uses_indexer (i : instr) : bool :=
  match i with ICreateAccount _ _ _ _ | ICloseAccount _ _ => true | _ => false end.

(** What a token action does to the token accounts (as in [exec_open]). *)
Definition token_action (t : tokens) (i : instr) : res tokens :=
  match i with
  | IExtTransfer auth from to amount => token_transfer t amount from to auth
  | IExtMint to amount =>
      _ <- u64_arg amount ;;
      b <- tok_load t to ;;
      _ <- require (t_amount b + amount <=? u64_max) TokenError ;;
      Ok (upd t to (Some (mkTacc (t_mint b) (t_owner b) (t_amount b + amount))))
  | IExtCreate k mint owner =>
      _ <- require (match t k with None => true | Some _ => false end) TokenError ;;
      Ok (upd t k (Some (mkTacc mint owner 0)))
  | IExtGive auth k owner =>
      a <- tok_load t k ;;
      _ <- require (t_owner a =? auth) TokenError ;;
      Ok (upd t k (Some (mkTacc (t_mint a) owner (t_amount a))))
  | IExtBurn auth k amount =>
      _ <- u64_arg amount ;;
      a <- tok_load t k ;;
      _ <- require (t_owner a =? auth) TokenError ;;
      _ <- require (amount <=? t_amount a) TokenError ;;
      Ok (upd t k (Some (mkTacc (t_mint a) (t_owner a) (t_amount a - amount))))
  | IExtClose auth k =>
      a <- tok_load t k ;;
      _ <- require (t_owner a =? auth) TokenError ;;
      _ <- require (t_amount a =? 0) TokenError ;;
      Ok (upd t k None)
  | _ => Err SomeError
  end.

(** The instructions of lib.rs over many markets.  [PMarket m i] is the instruction [i] given
    the accounts of market [m] (the [has_one] constraints of accounts_ix tie books, heap, vaults and
    open orders account to the market). *)
Inductive pinstr : Type :=
| PMarket (m : Z) (i : instr)
| PToken (i : instr)
| PCreateMarket (m : Z) (c : mcfg) (time_expiry : Z)
| PCreateIndexer (owner : Z)
| PCloseIndexer (owner : Z)
| PCreateAccount (m owner delegate name_len : Z)
| PCloseAccount (m owner k : Z).

(** Removes the first occurrence: the index found by [position], then [Vec::remove]
    (close_open_orders_account.rs 16-21); [None] if there is none. *)
Fixpoint remove_first (k : Z) (l : list Z) : option (list Z) :=
  match l with
  | [] => None
  | x :: r => if x =? k then Some r else match remove_first k r with Some r' => Some (x :: r') | None => None end
  end.

Definition MAX_INDEXED : Z := 256.
Definition NAME_LEN : Z := 32.

(** [addr owner n] is the address of the open orders account derived from its owner and its
    number (accounts_ix/create_open_orders_account.rs 25-32).  No transaction is signed by a market
    authority.  A market's address is used for one market only: creating another market at the
    address of a closed one, which takes its private key, is not modelled.  Payers and rent are not
    modelled either. *)
Definition pexec (addr : Z -> Z -> Z) (e : env) (p : prog) (i : pinstr) : res (prog * output) :=
  match i with
  | PMarket m i =>
      _ <- require (negb (is_token_action i || uses_indexer i)) SomeError ;;
      _ <- require (negb (is_authority p (ix_signer i))) Constraint ;;
      s <- load_market p m ;;
      '(s', out) <- exec e s i ;;
      Ok (p_set_mkt p m s', out)
  | PToken i =>
      _ <- require (negb (is_authority p (ix_signer i))) Constraint ;;
      t <- token_action (p_tok p) i ;;
      Ok (p_set_tok p t, ONone)
  | PCreateMarket m c te =>
      (** instructions/create_market.rs; the authority is derived from the market's address. *)
      _ <- require (match al_get m (p_mkts p) with None => true | Some _ => false end) Constraint ;;
      _ <- require (negb (is_authority p (c_authority c)) && (negb (c_authority c =? 0) && (c_market c =? m))) Constraint ;;
      s <- create_market_ix (e_now e) (p_tok p) c te ;;
      Ok (mkProg ((m, (s_w s, false)) :: p_mkts p) (p_idx p) (s_tok s), ONone)
  | PCreateIndexer owner =>
      (** instructions/create_open_orders_indexer.rs 4-11 *)
      _ <- require (negb (is_authority p owner)) Constraint ;;
      _ <- require (match al_get owner (p_idx p) with None => true | Some _ => false end) Constraint ;;
      Ok (mkProg (p_mkts p) ((owner, mkIdx 0 []) :: p_idx p) (p_tok p), ONone)
  | PCloseIndexer owner =>
      (** instructions/close_open_orders_indexer.rs 5-14 *)
      _ <- require (negb (is_authority p owner)) Constraint ;;
      x <- al_load owner (p_idx p) ;;
      _ <- require (negb (has_active_open_orders_accounts x)) IndexerActiveOO ;;
      Ok (mkProg (p_mkts p) (al_del owner (p_idx p)) (p_tok p), ONone)
  | PCreateAccount m owner delegate name_len =>
      (** instructions/create_open_orders_account.rs 7-28, accounts_ix/create_open_orders_account.rs 5-36 *)
      _ <- require (negb (is_authority p owner)) Constraint ;;
      x <- al_load owner (p_idx p) ;;
      _ <- require (Z.of_nat (length (ix_addrs x)) <? MAX_INDEXED) Constraint ;;
      _ <- massert (ix_counter x + 1 <=? u32_max) ;;
      let n := ix_counter x + 1 in
      let k := addr owner n in
      _ <- require (negb (address_taken p k)) Constraint ;;
      s <- load_market p m ;;
      _ <- require (name_len <=? NAME_LEN) InvalidInputNameLength ;;
      '(s', out) <- exec e s (ICreateAccount k owner delegate n) ;;
      Ok (p_set_idx (p_set_mkt p m s') owner (mkIdx n (ix_addrs x ++ [k])), out)
  | PCloseAccount m owner k =>
      (** instructions/close_open_orders_account.rs 5-24, accounts_ix/close_open_orders_account.rs 5-27;
          [m] is the market noted in the account. *)
      _ <- require (negb (is_authority p owner)) Constraint ;;
      x <- al_load owner (p_idx p) ;;
      _ <- massert (0 <? Z.of_nat (length (ix_addrs x))) ;;
      s <- load_market p m ;;
      '(s', out) <- exec e s (ICloseAccount owner k) ;;
      l <- unwrap (remove_first k (ix_addrs x)) ;;
      Ok (p_set_idx (p_set_mkt p m s') owner (mkIdx (ix_counter x) l), out)
  end.

(** Before the first instruction there are token accounts only. *)
Definition prog0 (t : tokens) : prog := mkProg [] [] t.
Inductive preachable (addr : Z -> Z -> Z) : prog -> Prop :=
| pr_start t : preachable addr (prog0 t)
| pr_step e p i p' out : preachable addr p -> pexec addr e p i = Ok (p', out) -> preachable addr p'.
