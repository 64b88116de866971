(** Specification vocabulary for the events the program emits. *)
From Coq Require Import ZArith List Bool Permutation.
From Verif Require Import Base Nodes OrderTree BookSide Heap Market OpenOrders Order Book Instructions Logs
  SpecBook SpecFees SpecOrder SpecLedger SpecEvents SpecSystem.
Import ListNotations.
Open Scope Z_scope.

(** ** Executions and what they emit *)
(** Everything emitted since the market was created. *)
Inductive emitted : sys -> list log -> Prop :=
| em_create now t c te s : create_market_ix now t c te = Ok s -> emitted s []
| em_step e s i s' out L : emitted s L -> exec e s i = Ok (s', out) -> emitted s' (L ++ exec_logs e s i).
(** The calls [l] lead from [s] to [s'] and emit [L]. *)
Inductive emits : sys -> list instr -> list log -> sys -> Prop :=
| es_none s : emits s [] [] s
| es_more e s i s1 out l L s2 : exec e s i = Ok (s1, out) -> emits s1 l L s2 -> emits s (i :: l) (exec_logs e s i ++ L) s2.

(** ** Reading events *)
Definition log_fills (L : list log) : list fill_log := flat_map (fun l => match l with LFill f => [f] | _ => [] end) L.
(** The sequence numbers in the takers' signatures. *)
Definition log_seqs (L : list log) : list Z := flat_map (fun l => match l with LTakerSignature n => [n] | _ => [] end) L.
(** Sums over the summaries of orders by takers that [sel] selects: base and quote traded (without
    fees), and fees. *)
Definition totals (sel : Z -> bool) (g : side -> Z -> Z -> Z -> Z) (L : list log) : Z :=
  sumZ (map (fun l => match l with LTotal s t paid received fees => if sel t then g s paid received fees else 0 | _ => 0 end) L).
Definition total_base (sel : Z -> bool) : list log -> Z :=
  totals sel (fun s paid received fees => match s with Bid => received | Ask => paid end).
Definition total_quote (sel : Z -> bool) : list log -> Z :=
  totals sel (fun s paid received fees => match s with Bid => paid - fees | Ask => received + fees end).
Definition total_fees (sel : Z -> bool) : list log -> Z := totals sel (fun s paid received fees => fees).
Definition anyone (k : Z) : bool := true.

(** The quote a reported fill stands for, and what its maker gets on top. *)
Definition log_quote (m : market) (f : fill_log) : Z := fl_qty f * fl_price f * qls m.
Definition log_rebate (m : market) (f : fill_log) : Z :=
  if fl_maker f =? fl_taker f then 0 else maker_gets m (log_quote m f).
(** The fees it names are those of a fill of this size. *)
Definition log_true (m : market) (f : fill_log) : Prop :=
  fl_maker_fee f = (if fl_maker f =? fl_taker f then 0 else maker_pays m (log_quote m f)) /\
  fl_taker_fee f = (if fl_maker f =? fl_taker f then 0 else taker_pays m (log_quote m f)).
Definition log_sum (g : fill_log -> Z) (F : list fill_log) : Z := sumZ (map g F).
Definition of_taker (sel : Z -> bool) (g : fill_log -> Z) (f : fill_log) : Z := if sel (fl_taker f) then g f else 0.
Definition of_maker (k : Z) (g : fill_log -> Z) (f : fill_log) : Z := if fl_maker f =? k then g f else 0.

(** The quote on which the taker is charged: not for fills against own orders. *)
Definition log_charged (m : market) (f : fill_log) : Z := if fl_maker f =? fl_taker f then 0 else log_quote m f.
(** The summaries of orders. *)
Definition log_totals (L : list log) : list log := filter (fun l => match l with LTotal _ _ _ _ _ => true | _ => false end) L.

(** ** Fills that wait in the queue *)
Definition ev_fills (es : list event) : list fill_event := flat_map (fun e => match e with EFill f => [f] | EOut _ => [] end) es.
Definition waiting_fills (w : world) : list fill_event := ev_fills (waiting w).
(** What is going to be emitted for a fill. *)
Definition fill_taker_fee (m : market) (f : fill_event) : Z :=
  if fill_self f then 0 else taker_pays m (fill_quote m f).
Definition report (m : market) (f : fill_event) : fill_log :=
  mkFillLog (fe_taker_side f) (fe_maker_slot f) (fe_maker_out f) (fe_ts f) (fe_seq f) (fe_maker f)
    (fe_maker_cid f) (fill_fee m f) (fe_maker_ts f) (fe_taker f) (fe_taker_cid f) (fill_taker_fee m f)
    (fe_price f) (fe_qty f).

(** Every fill so far: those reported, and those that wait. *)
Definition all_fills (s : sys) (L : list log) : list fill_log :=
  log_fills L ++ map (report (w_mkt (s_w s))) (waiting_fills (s_w s)).

(** The fills among the happenings of one order. *)
Definition fills_of (o : order) (owner now seq : Z) (acts : list act) : list fill_event :=
  flat_map (fun a => match a with AFill i q => [fill_of o owner now seq i q] | _ => [] end) acts.

(** Calls that place a single order: its side and who takes. *)
Definition order_by (i : instr) : option (side * Z) :=
  match i with
  | IPlaceOrder x g | IEditOrder x _ _ g => Some (pa_side g, px_acct x)
  | IPlacePegged x g | IEditPegged x _ _ g => Some (ga_side g, px_acct x)
  | IPlaceTake x g => Some (ta_side g, tx_signer x)
  | _ => None
  end.
(** An order of [taker] on side [sd] between [w] and [w'] is reported as [L], [F] being its
    fills: every fill is reported now or queued, each is announced, and if there is one then one
    summary gives the sums. *)
Record order_report (w : world) (sd : side) (taker : Z) (L : list log) (F : list fill_log) (w' : world) : Prop := {
  or_fills : let m := w_mkt w in
    Permutation (log_fills L ++ map (report m) (waiting_fills w')) (map (report m) (waiting_fills w) ++ F);
  or_seqs : log_seqs L = map fl_seq F;
  or_taker : Forall (fun f => fl_taker f = taker /\ fl_taker_side f = sd) F;
  or_totals : let m := w_mkt w in
    let base := log_sum (fun f => fl_qty f * bls m) F in
    let quote := log_sum (log_quote m) F in
    let fees := taker_pays m (log_sum (log_charged m) F) in
    log_totals L = match F with
                   | [] => []
                   | _ => match sd with
                          | Bid => [LTotal Bid taker (quote + fees) base fees]
                          | Ask => [LTotal Ask taker base (quote - fees) fees]
                          end
                   end }.

(** The event telling an account's position: field by field what is stored. *)
Definition position_event (a : ooa) : pos_log := {|
  pl_owner := a_owner a; pl_num := a_num a;
  pl_bids_base := p_bids_base (a_pos a); pl_bids_quote := p_bids_quote (a_pos a); pl_asks_base := p_asks_base (a_pos a);
  pl_base_free := p_base_free (a_pos a); pl_quote_free := p_quote_free (a_pos a); pl_locked_fees := p_locked_fees (a_pos a);
  pl_rebates := p_rebates (a_pos a); pl_maker_volume := p_maker_volume (a_pos a); pl_taker_volume := p_taker_volume (a_pos a) |}.
(** What delivering the events [es] one after the other is reported as. *)
Fixpoint delivery_logs (w : world) (es : list event) : list log :=
  match es with
  | [] => []
  | e :: r =>
      match e with
      | EFill f =>
          LFill (report (w_mkt w) f) ::
          match acct_get (fe_maker f) (w_accts (delivered w e)) with
          | Some a => [LPosition (position_event a)]
          | None => []
          end
      | EOut _ => []
      end ++ delivery_logs (delivered w e) r
  end.
