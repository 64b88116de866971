(** Specification vocabulary for new markets. *)
From Coq Require Import ZArith List Bool.
From Verif Require Import Base Nodes OrderTree BookSide Heap Market OpenOrders Order Book Instructions SpecBook SpecSystem.
Import ListNotations.
Open Scope Z_scope.

(** The terms on which a market can be opened at time [now].  Fees are in millionths; a negative
    one for makers is a rebate, paid from the takers' fee; 0 means that there is no expiry, no
    oracle. *)
Record fair_terms (now : Z) (c : mcfg) (expiry : Z) : Prop := {
  ft_taker : 0 <= c_taker_fee c <= 1000000;
  ft_maker : - c_taker_fee c <= c_maker_fee c <= 1000000;
  ft_quote_lot : 1 <= c_qls c < 2 ^ 63;
  ft_base_lot : 1 <= c_bls c < 2 ^ 63;
  ft_expiry : expiry = 0 \/ now < expiry < 2 ^ 63;
  ft_mints : c_base_mint c <> c_quote_mint c;
  ft_oracles : c_oracle_b c <> 0 -> c_oracle_a c <> 0 /\ c_oracle_a c <> c_oracle_b c }.

(** A market on the terms [c] on which nothing has happened: no orders, events or accounts, no
    fees, deposits or volume, and empty vaults that belong to the market. *)
Record fresh_market (c : mcfg) (expiry : Z) (s : sys) : Prop := {
  fm_terms : m_cfg (w_mkt (s_w s)) = c;
  fm_expiry : m_time_expiry (w_mkt (s_w s)) = expiry;
  fm_open : s_closed s = false;
  fm_orders : forall sd, orders (s_w s) sd = [];
  fm_events : waiting (s_w s) = [];
  fm_accounts : forall k, acct_get k (w_accts (s_w s)) = None;
  fm_counters : map (fun f => f (w_mkt (s_w s))) [m_seq; m_fees_accrued; m_fees_to_referrers; m_rebates_accrued; m_fees_available;
    m_maker_volume; m_taker_volume_wo_oo; m_base_total; m_quote_total] = repeat 0 9;
  fm_base_vault : s_tok s (c_base_vault c) = Some (mkTacc (c_base_mint c) (c_authority c) 0);
  fm_quote_vault : s_tok s (c_quote_vault c) = Some (mkTacc (c_quote_mint c) (c_authority c) 0) }.
