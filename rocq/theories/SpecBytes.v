(** Vocabulary for the bytes of accounts: layouts without hidden gaps, values within their types,
    and the fields of a market account that the model of the market does not have. *)
From Coq Require Import ZArith List Bool.
From Verif Require Import Base Nodes OrderTree BookSide Heap Market OpenOrders Order Book Instructions SpecBook SpecLedger SpecSystem SpecFit Bytes.
Import ListNotations.
Open Scope Z_scope.

(** Every field begins where the one before ends, and nothing follows the last. *)
Fixpoint packed (t : ty) : bool :=
  match t with
  | TU _ | TI _ | TKey | TBlob _ _ => true
  | TArr t _ => packed t
  | TRec ts =>
      (fix go (ts' : list ty) (off : Z) : bool :=
         match ts' with
         | [] => off mod (fold_right (fun t a => Z.max (align t) a) 1 ts) =? 0
         | t :: r => packed t && (off mod align t =? 0) && go r (off + size t)
         end) ts 0
  end.

Fixpoint typed (t : ty) (v : val) {struct t} : Prop :=
  match t, v with
  | TU n, VZ z => 0 <= z < 2 ^ (8 * Z.of_nat n)
  | TI n, VZ z => (0 < n)%nat /\ - 2 ^ (8 * Z.of_nat n - 1) <= z < 2 ^ (8 * Z.of_nat n - 1)
  | TKey, VZ z => 0 <= z < 2 ^ 256
  | TBlob n _, VB bs => length bs = n /\ Forall is_u8 bs
  | TArr t n, VL l => length l = n /\ Forall (typed t) l
  | TRec ts, VL l =>
      (fix go (ts : list ty) (l : list val) : Prop :=
         match ts, l with t :: ts', v :: l' => typed t v /\ go ts' l' | [], [] => True | _, _ => False end) ts l
  | _, _ => False
  end.

(** ** The market account *)
Record keys_fit (c : mcfg) : Prop := {
  kf_authority : is_address (c_authority c); kf_collect : is_address (c_collect_fee_admin c); kf_open : is_address (c_open_orders_admin c);
  kf_consume : is_address (c_consume_events_admin c); kf_close : is_address (c_close_market_admin c); kf_a : is_address (c_oracle_a c);
  kf_b : is_address (c_oracle_b c); kf_base : is_address (c_base_mint c); kf_quote : is_address (c_quote_mint c);
  kf_bvault : is_address (c_base_vault c); kf_qvault : is_address (c_quote_vault c) }.
Record rest_fits (x : market_rest) : Prop := {
  rf_bump : is_u8 (mr_bump x); rf_bd : is_u8 (mr_base_decimals x); rf_qd : is_u8 (mr_quote_decimals x);
  rf_name : length (mr_name x) = 16%nat /\ Forall is_u8 (mr_name x);
  rf_bids : is_address (mr_bids x); rf_asks : is_address (mr_asks x); rf_heap : is_address (mr_heap x);
  rf_conf : is_u64 (mr_conf_filter x); rf_stale : is_i64 (mr_max_staleness x); rf_reg : is_i64 (mr_registration x) }.
