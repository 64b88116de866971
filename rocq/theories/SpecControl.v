(** Specification vocabulary for who may do what with an open orders account. *)
From Coq Require Import ZArith List Bool.
From Verif Require Import Base Nodes OrderTree BookSide Heap Market OpenOrders Order Book Instructions.
Import ListNotations.
Open Scope Z_scope.

(** The open orders account an instruction names as the one to act for. *)
Definition acts_for (i : instr) (k : Z) : Prop :=
  match i with
  | IPlaceOrder x _ | IPlacePegged x _ | IEditOrder x _ _ _ | IEditPegged x _ _ _ => k = px_acct x
  | IPlaceMulti x _ _ _ _ _ => k = mx_acct x
  | ICancel _ k' _ | ICancelClient _ k' _ | ICancelAll _ k' _ _ | IPrune _ k' _
  | IDeposit _ k' _ _ _ _ | IRefill _ k' _ _ _ _ | ISettle _ k' _ _ _ | ISettleExpired _ k' _ _ _
  | ICreateAccount k' _ _ _ | ICloseAccount _ k' | ISetDelegate _ k' _ => k = k'
  | IPlaceTake _ _ | IConsume _ _ _ | IConsumeGiven _ _ _ | ISweep _ _ | ISetExpired _ | ICloseMarket _
  | IExtTransfer _ _ _ _ | IExtMint _ _ | IExtCreate _ _ _ | IExtGive _ _ _ | IExtBurn _ _ _ | IExtClose _ _ => False
  end.

(** The user who signed. *)
Definition signer_of (i : instr) : Z :=
  match i with
  | IPlaceOrder x _ | IPlacePegged x _ | IEditOrder x _ _ _ | IEditPegged x _ _ _ => px_signer x
  | IPlaceMulti x _ _ _ _ _ => mx_signer x
  | IPlaceTake x _ => tx_signer x
  | ICancel u _ _ | ICancelClient u _ _ | ICancelAll u _ _ _ | IPrune u _ _ => u
  | IDeposit u _ _ _ _ _ | IRefill u _ _ _ _ _ | ISettle u _ _ _ _ | ISettleExpired u _ _ _ _ => u
  | ICreateAccount _ u _ _ | ICloseAccount u _ | ISetDelegate u _ _ => u
  | ISweep u _ | ISetExpired u | ICloseMarket u | IConsume u _ _ | IConsumeGiven u _ _ => u
  | IExtTransfer u _ _ _ | IExtGive u _ _ | IExtBurn u _ _ | IExtClose u _ => u
  | IExtMint _ _ | IExtCreate _ _ _ => 0
  end.

(** [u] is the owner of the account or its delegate. *)
Definition controls (u : Z) (a : ooa) : Prop :=
  u = a_owner a \/ (a_delegate a <> 0 /\ u = a_delegate a).

(** [u] is the market's closing admin and the market has expired. *)
Definition winds_down (u now : Z) (m : market) : Prop :=
  c_close_market_admin (m_cfg m) <> 0 /\ u = c_close_market_admin (m_cfg m) /\
  m_time_expiry m <> 0 /\ m_time_expiry m < now.

(** Whose signature the instruction [i], acting for the account [a], needs. *)
Definition permitted (e : env) (s : sys) (i : instr) (a : ooa) : Prop :=
  match i with
  | IPlaceOrder _ _ | IPlacePegged _ _ | IEditOrder _ _ _ _ | IEditPegged _ _ _ _ | IPlaceMulti _ _ _ _ _ _
  | ICancel _ _ _ | ICancelClient _ _ _ | ICancelAll _ _ _ _ | ISettle _ _ _ _ _ => controls (signer_of i) a
  | ICloseAccount _ _ | ISetDelegate _ _ _ => signer_of i = a_owner a
  | IPrune _ _ _ | ISettleExpired _ _ _ _ _ => winds_down (signer_of i) (e_now e) (w_mkt (s_w s))
  | IDeposit _ _ _ _ _ _ | IRefill _ _ _ _ _ _ => True
  | _ => False
  end.

(** An account before and after an instruction that did not act for it: its resting orders
    may have traded or been returned, nothing else. *)
Record only_traded (a a' : ooa) : Prop := {
  ot_owner : a_owner a' = a_owner a;
  ot_delegate : a_delegate a' = a_delegate a;
  ot_num : a_num a' = a_num a /\ a_version a' = a_version a;
  ot_base : p_base_free (a_pos a) <= p_base_free (a_pos a');
  ot_quote : p_quote_free (a_pos a) <= p_quote_free (a_pos a');
  ot_rebates : p_rebates (a_pos a) <= p_rebates (a_pos a');
  ot_maker : p_maker_volume (a_pos a) <= p_maker_volume (a_pos a');
  ot_taker : p_taker_volume (a_pos a') = p_taker_volume (a_pos a);
  ot_penalty : p_penalty (a_pos a') = p_penalty (a_pos a);
  ot_slots : forall i, order_at a' i = order_at a i \/ (order_at a' i = Ok open_order0 /\ exists oo, order_at a i = Ok oo /\ oo_free oo = false) }.

(** An account credited with [b] base and [q] quote. *)
Definition credited (a : ooa) (b q : Z) : ooa :=
  a_set_pos a (p_set_quote_free (p_set_base_free (a_pos a) (p_base_free (a_pos a) + b)) (p_quote_free (a_pos a) + q)).

(** ** Token movements *)
(** What the transfers [(amount, from, to)] add to the balance of [v]. *)
Definition net (l : list (Z * Z * Z)) (v : Z) : Z :=
  sumZ (map (fun x => (if v =? snd x then fst (fst x) else 0) - (if v =? snd (fst x) then fst (fst x) else 0)) l).
(** [t'] is [t] after the transfers [l] and nothing else. *)
Definition transferred (l : list (Z * Z * Z)) (t t' : tokens) : Prop :=
  forall v, t' v = option_map (fun x => mkTacc (t_mint x) (t_owner x) (t_amount x + net l v)) (t v).

(** No token account disappears or changes hands, and only those of [owners] lose anything. *)
Definition guarded (owners : list Z) (t t' : tokens) : Prop := forall v,
  match t v with
  | None => t' v = None
  | Some x => exists n, t' v = Some (mkTacc (t_mint x) (t_owner x) n) /\ (n < t_amount x -> In (t_owner x) owners)
  end.
(** The token account [k] is of that mint and has room for [n] more. *)
Definition can_take (t : tokens) (k mint n : Z) : Prop :=
  exists x, t k = Some x /\ t_mint x = mint /\ t_amount x + n <= 18446744073709551615.

(** A deposit of [b] base and [q] quote from the token accounts [ub] and [uq]. *)
Record deposited (s : sys) (k ub uq b q : Z) (a : ooa) (s' : sys) : Prop := {
  dp_tokens : transferred [(b, ub, c_base_vault (m_cfg (w_mkt (s_w s)))); (q, uq, c_quote_vault (m_cfg (w_mkt (s_w s))))] (s_tok s) (s_tok s');
  dp_base_total : m_base_total (w_mkt (s_w s')) = m_base_total (w_mkt (s_w s)) + b;
  dp_quote_total : m_quote_total (w_mkt (s_w s')) = m_quote_total (w_mkt (s_w s)) + q;
  dp_acct : acct_get k (w_accts (s_w s')) = Some (credited a b q);
  dp_others : forall k', k' <> k -> acct_get k' (w_accts (s_w s')) = acct_get k' (w_accts (s_w s));
  dp_rest : w_bids (s_w s') = w_bids (s_w s) /\ w_asks (s_w s') = w_asks (s_w s) /\ w_heap (s_w s') = w_heap (s_w s) }.

(** Instructions that pay out of the market's vaults. *)
Definition pays_out (i : instr) : bool :=
  match i with ISettle _ _ _ _ _ | ISettleExpired _ _ _ _ _ | ISweep _ _ | IPlaceTake _ _ => true | _ => false end.

(** Whose token accounts an instruction may take from: the signer's and, if it pays out, the
    market's. *)
(** What the token program lets people do with their accounts besides moving tokens: open one, hand one over,
    close one. *)
Definition reshapes (i : instr) : bool :=
  match i with IExtCreate _ _ _ | IExtGive _ _ _ | IExtClose _ _ => true | _ => false end.
Definition payers (s : sys) (i : instr) : list Z :=
  signer_of i :: if pays_out i then [c_authority (m_cfg (w_mkt (s_w s)))] else [].

(** ** Settling *)
Definition settles (i : instr) (k ub uq : Z) (ref : option Z) : Prop :=
  (exists u, i = ISettle u k ub uq ref) \/ (exists u, i = ISettleExpired u k ub uq ref).
(** Maker fees still locked although the account has no bids. *)
Definition leftover (m : market) (p : position) : Z :=
  if (0 <? maker_fee m) && (p_bids_base p =? 0) then p_locked_fees p else 0.

Record settlement (s : sys) (k ub uq : Z) (ref : option Z) (a : ooa) (s' : sys) : Prop := {
  st_tokens : let m := w_mkt (s_w s) in let p := a_pos a in
    transferred ((p_base_free p, c_base_vault (m_cfg m), ub) :: (p_quote_free p, c_quote_vault (m_cfg m), uq) ::
      match ref with Some r => [(p_rebates p + leftover m p, c_quote_vault (m_cfg m), r)] | None => [] end) (s_tok s) (s_tok s');
  st_fees : m_fees_available (w_mkt (s_w s')) = m_fees_available (w_mkt (s_w s)) +
    match ref with Some _ => 0 | None => p_rebates (a_pos a) + leftover (w_mkt (s_w s)) (a_pos a) end;
  st_base_total : m_base_total (w_mkt (s_w s')) = m_base_total (w_mkt (s_w s)) - p_base_free (a_pos a);
  st_quote_total : m_quote_total (w_mkt (s_w s')) = m_quote_total (w_mkt (s_w s)) - p_quote_free (a_pos a) -
    match ref with Some _ => p_rebates (a_pos a) + leftover (w_mkt (s_w s)) (a_pos a) | None => 0 end;
  st_acct : acct_get k (w_accts (s_w s')) = Some (a_set_pos a (let p := a_pos a in
    mkPos (p_bids_base p) (p_asks_base p) 0 0 (p_locked_fees p - leftover (w_mkt (s_w s)) p) 0 0
      (p_maker_volume p) (p_taker_volume p) (p_bids_quote p)));
  st_others : forall k', k' <> k -> acct_get k' (w_accts (s_w s')) = acct_get k' (w_accts (s_w s));
  st_rest : w_bids (s_w s') = w_bids (s_w s) /\ w_asks (s_w s') = w_asks (s_w s) /\ w_heap (s_w s') = w_heap (s_w s) }.

(** ** Expiry *)
Definition expired (now : Z) (m : market) : Prop := m_time_expiry m <> 0 /\ m_time_expiry m < now.
(** [s'] at time [now'] follows [s] at time [now]; the clock never goes back. *)
Inductive later (now : Z) (s : sys) : Z -> sys -> Prop :=
| later_now : later now s now s
| later_step n1 s1 e i s2 out : later now s n1 s1 -> n1 <= e_now e -> exec e s1 i = Ok (s2, out) ->
    later now s (e_now e) s2.

(** The account owes and is owed nothing: no balance, no order. *)
Definition empty_handed (a : ooa) : Prop :=
  let p := a_pos a in
  p_bids_base p = 0 /\ p_asks_base p = 0 /\ p_base_free p = 0 /\ p_quote_free p = 0 /\ p_locked_fees p = 0 /\
  p_rebates p = 0 /\ p_bids_quote p = 0 /\ forall i oo, order_at a i = Ok oo -> oo_free oo = true.

(** ** Order ids *)
(** The ids an instruction reports. *)
Definition reported (out : output) : list Z :=
  match out with OIds l => flat_map (fun x => match x with Some id => [id] | None => [] end) l | _ => [] end.
(** [executed s ids s']: some instructions lead from [s] to [s'] and report [ids]. *)
Inductive executed (s : sys) : list Z -> sys -> Prop :=
| ex_none : executed s [] s
| ex_more ids s1 e i s2 out : executed s ids s1 -> exec e s1 i = Ok (s2, out) -> executed s (ids ++ reported out) s2.
