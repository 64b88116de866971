(** C54: cancelling and placing several orders at once. *)
From Coq Require Import ZArith List Bool.
From Verif Require Import Base Nodes OrderTree BookSide Heap Market OpenOrders Order Book Instructions
  SpecBook SpecLedger SpecEvents SpecSystem SpecControl SpecMulti MultiFacts Samples.
Import ListNotations.
Open Scope Z_scope.

(** C54: whatever amounts the orders ask for, they are cut down to what the user can pay: the
    call is never refused for want of money in the wallet. *)
Theorem C54_refresh_affordable e s x cancel t bids asks limit : reachable s -> e_oracle e <> Err TokenError ->
  can_pay (s_tok s) (mx_signer x) (mx_user_base x) (c_base_vault (m_cfg (w_mkt (s_w s)))) ->
  can_pay (s_tok s) (mx_signer x) (mx_user_quote x) (c_quote_vault (m_cfg (w_mkt (s_w s)))) ->
  exec e s (IPlaceMulti x cancel t bids asks limit) <> Err TokenError.
Proof. exact (refresh_affordable e s x cancel t bids asks limit). Qed.
Print Assumptions C54_refresh_affordable.

(** C54: once all orders were cancelled and new ones placed, the account has no order on the
    book but those the call reports. *)
Theorem C54_refresh_replaces e s x t bids asks limit a s' ids : reachable s ->
  acct_get (mx_acct x) (w_accts (s_w s)) = Some a -> p_bids_base (a_pos a) + p_asks_base (a_pos a) < 2 ^ 63 ->
  exec e s (IPlaceMulti x true t bids asks limit) = Ok (s', OIds ids) -> all_among ids (mx_acct x) (s_w s').
Proof. exact (refresh_replaces e s x t bids asks limit a s' ids). Qed.
Print Assumptions C54_refresh_replaces.

(** User 1 has four orders on the book and replaces them by orders asking for far more than
    the wallet holds: the first bid and the first ask take all of it, the others get nothing. *)
Definition refresh : instr := IPlaceMulti (mkMultiCtx 1 101 0 12 11 []) true POLimit
  [mkMultiArgs 96 1000000000000 0; mkMultiArgs 90 5000 0] [mkMultiArgs 108 1000000000000 0; mkMultiArgs 110 5 0] 10.
Definition after_refresh : sys := after (at_time 160 (Some 100)) sample1 refresh.
Definition resting (s : sys) : list (Z * (Z * Z)) :=
  map (fun x => (lf_owner (snd x), price_qty (snd x))) (orders (s_w s) Bid ++ filter (fun x => match fst x with Fixed => true | _ => false end) (orders (s_w s) Ask)).
Example C54_case : reachable sample1 /\ succeeds (at_time 160 (Some 100)) sample1 refresh = true /\
  can_pay (s_tok sample1) 1 11 51 /\ can_pay (s_tok sample1) 1 12 52 /\
  option_map (fun p => p_bids_base p + p_asks_base p) (pos_of sample1 101) = Some 140 /\
  resting sample1 = [(101, (95, 40)); (101, (94, 50)); (101, (105, 20)); (101, (107, 30))] /\
  resting after_refresh = [(101, (96, 1041458)); (101, (108, 10000000))] /\
  amounts_of sample1 [11; 12] = [Some 999995000; Some 999914982] /\ amounts_of after_refresh [11; 12] = [Some 0; Some 360].
Proof.
  split; [exact sample1_reachable|]. split; [vm_compute; reflexivity|].
  split; [apply can_pay_b_ok; vm_compute; reflexivity|]. split; [apply can_pay_b_ok; vm_compute; reflexivity|].
  split; [vm_compute; reflexivity|]. vm_compute. repeat split.
Qed.
