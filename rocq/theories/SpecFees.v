(** Specification vocabulary for fees: exact fractions of a million, rounded up or down. *)
From Coq Require Import ZArith List Bool.
From Verif Require Import Base Nodes Market.
Import ListNotations.
Open Scope Z_scope.

(** [amount * rate / 10^6], rounded up and down. *)
Definition fee_up (rate amount : Z) : Z := - ((- (amount * rate)) / 1000000).
Definition fee_down (rate amount : Z) : Z := amount * rate / 1000000.

(** What a maker pays on a fill and gets as a rebate, and what is locked for a bid. *)
Definition maker_pays (m : market) (amount : Z) : Z :=
  if 0 <? maker_fee m then fee_down (maker_fee m) amount else 0.
Definition maker_gets (m : market) (amount : Z) : Z :=
  if 0 <? maker_fee m then 0 else fee_down (- maker_fee m) amount.
Definition maker_locks (m : market) (amount : Z) : Z :=
  if 0 <? maker_fee m then fee_up (maker_fee m) amount else 0.
Definition taker_pays (m : market) (amount : Z) : Z := fee_up (taker_fee m) amount.

(** The market parameters create_market accepts. *)
Record cfg_sound (c : mcfg) : Prop := {
  cs_qls : 1 <= c_qls c <= i64_max;
  cs_bls : 1 <= c_bls c <= i64_max;
  cs_maker : - FEES_SCALE <= c_maker_fee c <= FEES_SCALE;
  cs_taker : 0 <= c_taker_fee c <= FEES_SCALE;
  cs_rebate : 0 <= c_maker_fee c + c_taker_fee c }.
