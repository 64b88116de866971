(** C90: which markets can be created, and what a new market is.  Vocabulary: SpecCreate.v,
    SpecProgram.v. *)
From Coq Require Import ZArith List Bool Lia.
From Verif Require Import Base Nodes OrderTree BookSide Heap Market OpenOrders Order Book Instructions
  SpecBook SpecOrder SpecLedger SpecEvents SpecSystem SpecControl Program SpecProgram Samples ProgSamples SpecCreate CreateFacts.
Import ListNotations.
Open Scope Z_scope.

(** C90: anybody can create a market exactly on fair terms, at an address that has none, with
    vaults that are new. *)
Theorem C90_creates addr e p m c te : - 2 ^ 63 <= e_now e ->
  (exists p' out, pexec addr e p (PCreateMarket m c te) = Ok (p', out)) <->
  (market_in p m = None /\ c_market c = m /\ c_authority c <> 0 /\ is_authority p (c_authority c) = false /\
   fair_terms (e_now e) c te /\ p_tok p (c_base_vault c) = None /\ p_tok p (c_quote_vault c) = None /\ c_base_vault c <> c_quote_vault c).
Proof. exact (pcreates_iff addr e p m c te). Qed.
Print Assumptions C90_creates.

(** C90: the new market has these terms and nothing has happened on it; the other markets, the
    indexers and all token accounts but its vaults are as before. *)
Theorem C90_created addr e p m c te p' out : pexec addr e p (PCreateMarket m c te) = Ok (p', out) ->
  (exists s, market_in p' m = Some s /\ fresh_market c te s) /\ p_idx p' = p_idx p /\
  (forall m', m' <> m -> option_map s_w (market_in p' m') = option_map s_w (market_in p m')) /\
  forall z, z <> c_base_vault c -> z <> c_quote_vault c -> p_tok p' z = p_tok p z.
Proof. exact (pcreated addr e p m c te p' out). Qed.
Print Assumptions C90_created.

(** C90: the same for one market alone. *)
Theorem C90_alone now t c te : - 2 ^ 63 <= now ->
  ((exists s, create_market_ix now t c te = Ok s) <->
   (fair_terms now c te /\ t (c_base_vault c) = None /\ t (c_quote_vault c) = None /\ c_base_vault c <> c_quote_vault c)) /\
  forall s, create_market_ix now t c te = Ok s -> fresh_market c te s /\ forall z, z <> c_base_vault c -> z <> c_quote_vault c -> s_tok s z = t z.
Proof. intros H. split; [exact (creates_iff now t c te H)|exact (created now t c te)]. Qed.
Print Assumptions C90_alone.

(** A third market at 42 beside 40 and 41: takers pay 0.04 percent and makers get half of it.  Not
    if makers get more than takers pay, at an address in use, or when its expiry has passed. *)
Definition terms90 (maker b : Z) : mcfg := mkCfg 10 100 maker 400 42 250 70 0 0 71 77 b 61 62 251 252.
Example C90_case : preachable addr58 two_markets /\ market_in two_markets 42 = None /\ fair_terms 200 (terms90 (-200) 78) 300 /\
  map (fun x => pok later two_markets x)
    [PCreateMarket 42 (terms90 (-200) 78) 300; PCreateMarket 42 (terms90 (-400) 0) 0; PCreateMarket 42 (terms90 (-401) 78) 300;
     PCreateMarket 41 (terms90 (-200) 78) 300; PCreateMarket 42 (terms90 (-200) 78) 200; PCreateMarket 42 (terms90 (-200) 77) 300] =
    [true; true; false; false; false; false] /\
  book_at (pafter later two_markets (PCreateMarket 42 (terms90 (-200) 78) 300)) 41 = book_at two_markets 41 /\
  book_at two_markets 41 = ([(95, 7)], [(110, 50)]) /\
  pok later (pafter later two_markets (PCreateMarket 42 (terms90 (-200) 78) 300)) (PCreateAccount 42 1 0 3) = true.
Proof.
  split; [exact two_markets_reachable|]. split; [vm_compute; reflexivity|]. split; [split; cbn [terms90 c_taker_fee c_maker_fee c_qls c_bls c_base_mint c_quote_mint c_oracle_a c_oracle_b]; lia|].
  vm_compute. repeat split.
Qed.
