(** C88: depositing SOL through the TypeScript client.
    Model: TsNative.v.  [sol] are the lamports of the account's owner, [native] the mint of wrapped
    SOL and [w] a key the client makes up, which the caller cannot name. *)
From Coq Require Import ZArith List Bool Lia.
From Verif Require Import Base Nodes OrderTree BookSide Heap Market OpenOrders Order Book Instructions
  SpecBook SpecFees SpecOrder SpecLedger SpecSystem Samples TsKeep TsNative TsNativeFacts.
Import ListNotations.
Open Scope Z_scope.

(** C88: it goes through when the owner has the SOL and, besides, the tokens that [depositIx]
    takes.  Missing: the SOL alone does not do (C88_refuted). *)
Theorem C88_goes_partial sigs e s sol w native k a ub uq b q s1 : reachable s -> ub <> w -> uq <> w -> s_tok s w = None -> b + 10 ^ 7 <= sol ->
  keep_send sigs e s (ts_deposit k a ub uq b q) = Ok (s1, ONone) ->
  exists s', ts_deposit_native sigs e s sol w native k a ub uq b q = Ok (s', sol).
Proof. exact (native_goes sigs e s sol w native k a ub uq b q s1). Qed.
Print Assumptions C88_goes_partial.

(** C88: whenever it goes through the owner has all SOL back, no wrapped SOL is left over, and the
    deposit is the one of [depositIx] from the account named. *)
Theorem C88_is_deposit sigs e s sol w native k a ub uq b q s' sol' : reachable s -> ub <> w -> uq <> w ->
  ts_deposit_native sigs e s sol w native k a ub uq b q = Ok (s', sol') ->
  sol' = sol /\ exists s1, keep_send sigs e s (ts_deposit k a ub uq b q) = Ok (s1, ONone) /\
    s_w s' = s_w s1 /\ s_closed s' = s_closed s1 /\ forall z, s_tok s' z = s_tok s1 z.
Proof. exact (native_is_deposit sigs e s sol w native k a ub uq b q s' sol'). Qed.
Print Assumptions C88_is_deposit.

(** C88: however much SOL they have, nobody deposits more than the account named holds. *)
Theorem C88_needs_tokens sigs e s sol w native k a ub uq b q x : reachable s -> ub <> w -> uq <> w ->
  s_tok s ub = Some x -> t_amount x < b -> 0 < b ->
  exists er, ts_deposit_native sigs e s sol w native k a ub uq b q = Err er.
Proof. exact (native_needs_tokens sigs e s sol w native k a ub uq b q x). Qed.
Print Assumptions C88_needs_tokens.

(** C88, refuted: the base token is wrapped SOL, the owner has more SOL than they deposit, and a
    deposit from an account into which that SOL was wrapped goes through; [depositNativeIx] fails. *)
Theorem C88_refuted : exists e s sol k a ub uq b x, reachable s /\ acct_get k (w_accts (s_w s)) = Some a /\
  s_tok s ub = Some x /\ t_owner x = a_owner a /\ b + 10 ^ 7 <= sol /\
  (exists t sol1 s1, open_wrapped (s_tok s) sol 999 (c_base_mint (m_cfg (w_mkt (s_w s)))) (a_owner a) (b + 10 ^ 7) = Ok (t, sol1) /\
    keep_send [a_owner a] e (s_set_tok s t) (ts_deposit k a 999 uq b 0) = Ok (s1, ONone)) /\
  forall w, w <> ub -> w <> uq ->
    exists er, ts_deposit_native [a_owner a] e s sol w (c_base_mint (m_cfg (w_mkt (s_w s)))) k a ub uq b 0 = Err er.
Proof.
  eexists (at_time 170 None), sample4, 20000000000, 103, _, 31, 32, 10000000000, _.
  split; [exact sample4_reachable|]. split; [vm_compute; reflexivity|]. split; [vm_compute; reflexivity|]. split; [vm_compute; reflexivity|].
  split; [vm_compute; discriminate|]. split.
  - eexists _, _, _. split; [vm_compute; reflexivity|]. vm_compute. reflexivity.
  - intros w N1 N2. eapply native_needs_tokens; [exact sample4_reachable|congruence|congruence|vm_compute; reflexivity|vm_compute; reflexivity|reflexivity].
Qed.
Print Assumptions C88_refuted.

(** User 3 has the base tokens and, besides, the SOL: 500 are deposited from account 31. *)
Definition native_out (r : res (sys * Z)) : option (Z * option Z * option Z) :=
  match r with Ok (s, sol) => Some (sol, option_map t_amount (s_tok s 31), option_map t_amount (s_tok s 999)) | Err _ => None end.
Example C88_case : exists a, reachable sample4 /\ acct_get 103 (w_accts (s_w sample4)) = Some a /\ a_owner a = 3 /\ s_tok sample4 999 = None /\
  native_out (ts_deposit_native [3] (at_time 170 None) sample4 20000000 999 61 103 a 31 32 500 700) =
    Some (20000000, option_map (fun x => t_amount x - 500) (s_tok sample4 31), None) /\
  native_out (ts_deposit_native [3] (at_time 170 None) sample4 10000400 999 61 103 a 31 32 500 700) = None.
Proof. eexists. split; [exact sample4_reachable|]. split; [vm_compute; reflexivity|]. vm_compute. repeat split. Qed.
