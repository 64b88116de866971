(** C61: an owner can always leave a market with everything their account is due. *)
From Coq Require Import ZArith List Bool Permutation.
From Verif Require Import Base Nodes OrderTree BookSide Heap Market OpenOrders Order Book Instructions
  SpecBook SpecFees SpecLedger SpecEvents SpecSystem SpecControl SpecWind SpecExit ExitFacts Samples.
Import ListNotations.
Open Scope Z_scope.

(** C61: whatever state the market is in, expired or not, the owner of an account cancels all
    orders, has the account's own waiting events delivered, settles and closes the account.
    All these calls succeed one after the other.  The owner's token accounts receive exactly
    what was free, what the orders had locked and what the waiting events bring, and the
    account is gone. *)
Theorem C61_owner_can_leave e s k a ub uq : reachable s -> s_closed s = false ->
  acct_get k (w_accts (s_w s)) = Some a -> can_leave s a ub uq ->
  exists slots s', executes e s (leaving (w_mkt (s_w s)) (a_owner a) k ub uq slots) s' /\
    Permutation slots (map snd (filter (fun x => ev_owner (fst x) =? k) (queue_of (s_w s)))) /\
    transferred [(base_due k a (s_w s), c_base_vault (m_cfg (w_mkt (s_w s))), ub);
                 (quote_due k a (s_w s), c_quote_vault (m_cfg (w_mkt (s_w s))), uq)] (s_tok s) (s_tok s') /\
    acct_get k (w_accts (s_w s')) = None.
Proof. exact (owner_leaves e s k a ub uq). Qed.
Print Assumptions C61_owner_can_leave.

(** An owner with bids and asks on the book and two fills waiting: the calls run, pay what
    the account was due, and leave nothing of it. *)
Definition left_state : sys := fold_left (fun s i => after (at_time 200 None) s i) (leaving (w_mkt (s_w sample5)) 1 101 11 12 [0; 2]) sample5.
Example C61_case : exists leaver, reachable sample5 /\ s_closed sample5 = false /\ acct_get 101 (w_accts (s_w sample5)) = Some leaver /\
  can_leave sample5 leaver 11 12 /\ length (filter (fun o => lf_owner (snd o) =? 101) (orders (s_w sample5) Bid)) = 2%nat /\
  map snd (filter (fun x => ev_owner (fst x) =? 101) (queue_of (s_w sample5))) = [0; 2] /\
  base_due 101 leaver (s_w sample5) = 3000 /\ quote_due 101 leaver (s_w sample5) = 106014 /\
  amounts_of sample5 [11; 12] = [Some 999995000; Some 999914982] /\
  amounts_of left_state [11; 12] = [Some 999998000; Some 1000020996] /\
  acct_get 101 (w_accts (s_w left_state)) = None.
Proof.
  eexists. split; [exact sample5_reachable|]. split; [vm_compute; reflexivity|]. split; [vm_compute; reflexivity|].
  split; [constructor; [vm_compute; reflexivity|vm_compute; congruence| |]; eexists _, _; (split; [vm_compute; reflexivity|]; split; [vm_compute; reflexivity|]); repeat split; vm_compute; congruence|].
  vm_compute. repeat split.
Qed.
