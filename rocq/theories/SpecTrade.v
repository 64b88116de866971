(** Specification vocabulary for the claim that a trade does not depend on who makes it. *)
From Coq Require Import ZArith List Bool.
From Verif Require Import Base Nodes OrderTree BookSide Heap Market OpenOrders Order Book Instructions
  SpecBook SpecOrder SpecSystem.
Import ListNotations.
Open Scope Z_scope.

(** No order resting on side [s] belongs to the account the order is placed through. *)
Definition stranger (w : world) (s : side) (taker : option Z) : Prop :=
  match taker with
  | None => True
  | Some k => forall t l, In (t, l) (orders w s) -> lf_owner l <> k
  end.

(** Two orders on the same terms: they may differ in the client's number, the time limit and what
    to do about the sender's own orders. *)
Definition alike (o1 o2 : order) : Prop :=
  o_side o1 = o_side o2 /\ o_max_base o1 = o_max_base o2 /\ o_max_quote o1 = o_max_quote o2 /\
  o_params o1 = o_params o2.

(** Two placements traded and posted the same amounts for the same fees. *)
Record same_deal (r1 r2 : order_amounts) : Prop := {
  sd_base : oa_base_taken r1 = oa_base_taken r2;
  sd_quote : oa_quote_taken r1 = oa_quote_taken r2;
  sd_fees : oa_taker_fees r1 = oa_taker_fees r2;
  sd_referrer : oa_referrer r1 = oa_referrer r2;
  sd_posts : oa_order_id r1 = None <-> oa_order_id r2 = None;
  sd_posted_base : oa_posted_base r1 = oa_posted_base r2;
  sd_posted_quote : oa_posted_quote r1 = oa_posted_quote r2;
  sd_maker_fees : oa_maker_fees r1 = oa_maker_fees r2 }.

(** Tokens in account [v]. *)
Definition in_wallet (s : sys) (v : Z) : Z := match s_tok s v with Some x => t_amount x | None => 0 end.
(** Free balances of account [k]. *)
Definition free_base (s : sys) (k : Z) : Z :=
  match acct_get k (w_accts (s_w s)) with Some a => p_base_free (a_pos a) | None => 0 end.
Definition free_quote (s : sys) (k : Z) : Z :=
  match acct_get k (w_accts (s_w s)) with Some a => p_quote_free (a_pos a) | None => 0 end.

(** [v] is a token account of [who]. *)
Definition owns (s : sys) (who v : Z) : Prop := exists x, s_tok s v = Some x /\ t_owner x = who.
(** Referrer fees put aside in account [k]. *)
Definition for_referrer (s : sys) (k : Z) : Z :=
  match acct_get k (w_accts (s_w s)) with Some a => p_rebates (a_pos a) | None => 0 end.

(** What the sender of an order through an account holds: the free balances and, of the tokens
    the order pays with, those in the wallet it is paid from. *)
Definition purse_base (s : sys) (x : place_ctx) (sd : side) : Z :=
  free_base s (px_acct x) + match sd with Ask => in_wallet s (px_user_token x) | Bid => 0 end.
Definition purse_quote (s : sys) (x : place_ctx) (sd : side) : Z :=
  free_quote s (px_acct x) + match sd with Bid => in_wallet s (px_user_token x) | Ask => 0 end.

(** Order types that never leave anything on the book. *)
Definition takes_only (t : place_order_type) : bool :=
  match t with POImmediateOrCancel | POFillOrKill | POMarket => true | _ => false end.
