(** Property C45: the client's cache of accounts. *)
From Coq Require Import ZArith List Bool Lia.
From Verif Require Import Base ChainData SpecChain ChainFacts ChainInv ChainTrack ChainProofs ChainEnds.
Import ListNotations.
Open Scope Z_scope.

(** C45, for all sequences of calls: an answer is a write that was received for the account
    and that the cache considers live, and among the live writes received for slots above the
    newest rooted slot there is none for a larger slot and none received later for the same
    slot.  Without an answer there is no live write for a slot above the newest rooted slot.
    Missing: slots at or below the newest rooted one, and that the cache's notion of live is
    the right one (next theorem). *)
Theorem C45_answer_partial h c k : fed h c ->
  match account_and_slot c k with
  | Some w => is_account_write_live c w = true /\ In w (writes_of k h) /\
      exists l1 l2, writes_of k h = l1 ++ w :: l2 /\
      (forall x, In x l1 -> is_account_write_live c x = true -> cd_rooted c < wr_slot x -> wr_slot x <= wr_slot w) /\
      (forall x, In x l2 -> is_account_write_live c x = true -> cd_rooted c < wr_slot x -> wr_slot x < wr_slot w)
  | None => forall w, In w (writes_of k h) -> cd_rooted c < wr_slot w -> is_account_write_live c w = false
  end.
Proof. exact (answers_all h c k). Qed.
Print Assumptions C45_answer_partial.

(** C45, when notifications are orderly (SpecChain): the answer for an account is exactly the
    newest write received for it in a slot of the best chain or above its head, whatever was
    pruned in between; and if there is none, then no write received for it is in such a slot.
    Missing: other orders of notifications, for which it is wrong (the refutations below). *)
Theorem C45_newest_on_best_chain_partial h c k : fed h c -> orderly h ->
  match account_and_slot c k with
  | Some w => newest (fun x => counts h (wr_slot x)) (writes_of k h) w
  | None => forall w, In w (writes_of k h) -> ~ counts h (wr_slot w)
  end.
Proof. exact (answers h c k). Qed.
Print Assumptions C45_newest_on_best_chain_partial.

(** Slots 1-2-4-6 form the best chain, 3 and 5 are forks; slots 1 and 2 are rooted. *)
Definition bank (s p : Z) : slot_data := mkSlot s (Some p) Processed 0.
Definition report (s : Z) (st : slot_status) : slot_data := mkSlot s None st 0.
Definition stream : list event :=
  [ESlot (bank 1 0); EWrite 7 (mkWrite 1 100); EWrite 8 (mkWrite 1 200); ESlot (bank 2 1); EWrite 7 (mkWrite 2 101);
   ESlot (bank 3 1); EWrite 7 (mkWrite 3 666); ESlot (report 2 Confirmed); ESlot (report 1 Rooted);
   ESlot (bank 4 2); EWrite 7 (mkWrite 4 102); EWrite 7 (mkWrite 4 103); ESlot (bank 5 3); EWrite 8 (mkWrite 5 667);
   ESlot (bank 6 4); ESlot (report 2 Rooted); EWrite 9 (mkWrite 2 300); ERpc 9 (mkWrite 6 301); ESlot (report 4 Confirmed);
   EWrite 8 (mkWrite 2 201)].
Definition is_ok {A} (x : res A) : bool := match x with Ok _ => true | Err _ => false end.
Definition played (l : list event) : list news * chain_data :=
  match play l chain_new with Ok x => x | Err _ => ([], chain_new) end.
Lemma played_fed l : is_ok (play l chain_new) = true -> fed (fst (played l)) (snd (played l)).
Proof.
  intros H. unfold played. destruct (play l chain_new) as [[m c]|e] eqn:E; [|discriminate]. exact (play_fed l [] chain_new m c fed_new E).
Qed.
Lemma played_orderly l : orderly_b [] (fst (played l)) = true -> orderly (fst (played l)).
Proof. exact (orderly_b_ok (fst (played l)) [] ord_nil). Qed.
Example C45_newest_on_best_chain_case :
  fed (fst (played stream)) (snd (played stream)) /\ orderly (fst (played stream)) /\
  cd_rooted (snd (played stream)) = 2 /\ cd_best (snd (played stream)) = 6 /\
  map (account_and_slot (snd (played stream))) [7; 8; 9; 10] =
    [Some (mkWrite 4 103); Some (mkWrite 2 201); Some (mkWrite 6 301); None] /\
  account_writes_count (snd (played stream)) = 9%nat.
Proof.
  split; [apply played_fed; vm_compute; reflexivity|]. split; [apply played_orderly; vm_compute; reflexivity|].
  vm_compute. repeat split; reflexivity.
Qed.

(** C45: the snapshot has one entry for each account with an answer, and it is the answer. *)
Theorem C45_snapshot h c : fed h c ->
  NoDup (map fst (accounts_snapshot c)) /\
  forall k w, In (k, w) (accounts_snapshot c) <-> account_and_slot c k = Some w.
Proof. intros H. split; [exact (snapshot_once h c H)|intros k w; exact (snapshot_agrees h c k w H)]. Qed.
Print Assumptions C45_snapshot.
Example C45_snapshot_case :
  accounts_snapshot (snd (played stream)) = [(7, mkWrite 4 103); (8, mkWrite 2 201); (9, mkWrite 6 301)].
Proof. vm_compute. reflexivity. Qed.

(** C45: if every notification so far names parents with smaller numbers, updates return. *)
Theorem C45_update_returns h c d : fed h c -> forward (h ++ [NSlot d]) -> 0 <= sd_slot d < 2 ^ 64 - 1 ->
  exists c', update_slot c d = Ok c'.
Proof. exact (update_returns h c d). Qed.
Print Assumptions C45_update_returns.
Example C45_update_returns_case :
  fed (fst (played stream)) (snd (played stream)) /\ forward (fst (played stream) ++ [NSlot (bank 9 6)]) /\
  is_ok (update_slot (snd (played stream)) (bank 9 6)) = true.
Proof.
  split; [apply played_fed; vm_compute; reflexivity|]. split; [|vm_compute; reflexivity].
  assert (G : forallb (fun n => match n with NSlot d => match sd_parent d with Some p => p <? sd_slot d | None => true end | _ => true end)
    (fst (played stream) ++ [NSlot (bank 9 6)]) = true) by (vm_compute; reflexivity).
  intros d p I E. rewrite forallb_forall in G. specialize (G _ I). cbn beta iota in G. rewrite E in G. apply Z.ltb_lt. exact G.
Qed.

(** Otherwise the loop over the parents may not end: one notification whose parent is the
    slot itself is enough. *)
Theorem C45_update_loops_refuted : exists d, update_slot chain_new d = Err OutOfFuel /\
  forall fuel, mark fuel (fst (record_slot (cd_slots chain_new) d)) (sd_slot d) (sd_slot d) = Err OutOfFuel.
Proof.
  exists (mkSlot 1 (Some 1) Processed 0). split; [reflexivity|]. intros fuel. cbn [record_slot fst cd_slots chain_new map_get map_set sd_slot].
  assert (G : forall ch, mark fuel [(1, mkSlot 1 (Some 1) Processed ch)] 1 1 = Err OutOfFuel).
  { induction fuel as [|fuel IH]; intros ch; [reflexivity|]. exact (IH 1). }
  apply G.
Qed.
Print Assumptions C45_update_loops_refuted.

(** Refuted for all sequences: a write that arrives late, for a slot of an abandoned fork
    below the newest rooted slot, becomes the answer instead of the rooted write. *)
Definition late_fork : list event :=
  [ESlot (bank 1 0); EWrite 7 (mkWrite 1 100); ESlot (bank 2 1); ESlot (bank 3 1); ESlot (bank 4 3); ESlot (report 3 Rooted); EWrite 7 (mkWrite 2 666)].
Theorem C45_late_fork_refuted : exists h c k w w', fed h c /\ account_and_slot c k = Some w /\ ~ counts h (wr_slot w) /\
  In w' (writes_of k h) /\ counts h (wr_slot w') /\ notified h (wr_slot w) /\ notified h (wr_slot w').
Proof.
  exists (fst (played late_fork)), (snd (played late_fork)), 7, (mkWrite 2 666), (mkWrite 1 100).
  split; [apply played_fed; vm_compute; reflexivity|]. split; [vm_compute; reflexivity|].
  assert (N : forall h a b, notified_b h a = true -> on_best h b = true -> notified h a /\ ancestor h (head_in h) b).
  { intros h a b H1 H2. split; [apply notified_b_spec; exact H1|exact (ancestor_b_ok _ _ _ _ H2)]. }
  split.
  - assert (Na : ~ ancestor (fst (played late_fork)) (head_in (fst (played late_fork))) 2).
    { intros A. vm_compute in A.
      repeat (inversion A; subst; clear A; match goal with H : parent_in _ _ = Some _, G : ancestor _ _ _ |- _ => vm_compute in H; inversion H; subst; clear H; rename G into A end). }
    intros [[_ [C|C]]|[C _]]; [exact (Na C)|vm_compute in C; discriminate|exact (Na C)].
  - split; [vm_compute; left; reflexivity|]. destruct (N (fst (played late_fork)) 1 1 ltac:(vm_compute; reflexivity) ltac:(vm_compute; reflexivity)) as [N1 N2].
    split; [left; auto|]. split; [|exact N1]. apply notified_b_spec. vm_compute. reflexivity.
Qed.
Print Assumptions C45_late_fork_refuted.

(** Refuted: a slot announced after its child is not put on the best chain, so its write is
    not answered although the slot is the parent of the head. *)
Definition late_slot : list event := [ESlot (bank 2 1); ESlot (bank 1 0); EWrite 7 (mkWrite 1 100)].
Theorem C45_late_slot_refuted : exists h c k w, fed h c /\ forward h /\ account_and_slot c k = None /\
  In w (writes_of k h) /\ counts h (wr_slot w) /\ notified h (wr_slot w).
Proof.
  exists (fst (played late_slot)), (snd (played late_slot)), 7, (mkWrite 1 100).
  split; [apply played_fed; vm_compute; reflexivity|]. split.
  { vm_compute. intros d p [E|[E|[E|[]]]] H; try discriminate; injection E as <-; injection H as <-; reflexivity. }
  split; [vm_compute; reflexivity|]. split; [vm_compute; left; reflexivity|].
  assert (N1 : notified (fst (played late_slot)) 1) by (apply notified_b_spec; vm_compute; reflexivity).
  split; [left|exact N1]. split; [exact N1|left]. apply (ancestor_b_ok 3). vm_compute. reflexivity.
Qed.
Print Assumptions C45_late_slot_refuted.

(** Refuted: if a slot is reported as rooted before its parent was announced for it, the
    parents are not put on the best chain and their writes are deleted. *)
Definition rooted_head : list event :=
  [ESlot (bank 1 0); EWrite 7 (mkWrite 1 100); ESlot (bank 2 1); EWrite 7 (mkWrite 2 101); ESlot (mkSlot 3 (Some 2) Rooted 0)].
Theorem C45_rooted_head_refuted : exists h c k w, fed h c /\ forward h /\ account_and_slot c k = None /\
  In w (writes_of k h) /\ counts h (wr_slot w) /\ notified h (wr_slot w).
Proof.
  exists (fst (played rooted_head)), (snd (played rooted_head)), 7, (mkWrite 2 101).
  split; [apply played_fed; vm_compute; reflexivity|]. split.
  { vm_compute. intros d p [E|[E|[E|[E|[E|[]]]]]] H; try discriminate; injection E as <-; injection H as <-; reflexivity. }
  split; [vm_compute; reflexivity|]. split; [vm_compute; right; left; reflexivity|].
  assert (N1 : notified (fst (played rooted_head)) 2) by (apply notified_b_spec; vm_compute; reflexivity).
  split; [left|exact N1]. split; [exact N1|left]. apply (ancestor_b_ok 3). vm_compute. reflexivity.
Qed.
Print Assumptions C45_rooted_head_refuted.

(** Refuted: an answer from an RPC node for a slot above the head makes the cache invent the
    old head as its parent.  The parent announced afterwards is ignored, and writes of that
    parent are not answered. *)
Definition rpc_parent : list event :=
  [ESlot (bank 1 0); ERpc 9 (mkWrite 3 300); ESlot (bank 2 1); EWrite 7 (mkWrite 2 101); ESlot (bank 3 2)].
Theorem C45_rpc_parent_refuted : exists h c k w d, fed h c /\ forward h /\ account_and_slot c k = None /\ In w (writes_of k h) /\
  In (NSlot d) h /\ sd_slot d = head_in h /\ sd_parent d = Some (wr_slot w) /\ notified h (wr_slot w).
Proof.
  exists (fst (played rpc_parent)), (snd (played rpc_parent)), 7, (mkWrite 2 101), (bank 3 2).
  split; [apply played_fed; vm_compute; reflexivity|]. split.
  { vm_compute. intros d p [E|[E|[E|[E|[E|[E|[]]]]]]] H; try discriminate; injection E as <-; injection H as <-; reflexivity. }
  split; [vm_compute; reflexivity|]. split; [vm_compute; left; reflexivity|]. split; [vm_compute; tauto|]. split; [vm_compute; reflexivity|].
  split; [reflexivity|]. apply notified_b_spec. vm_compute. reflexivity.
Qed.
Print Assumptions C45_rpc_parent_refuted.

(** Refuted: a second write for the same slot does not replace the first in the cache's list
    (it is added behind it, so the answer is right but both are kept). *)
Theorem C45_overwrite_refuted : exists c k w1 w2, wr_slot w1 = wr_slot w2 /\
  account_writes_count (update_account (update_account c k w1) k w2) = S (account_writes_count (update_account c k w1)).
Proof. exists chain_new, 7, (mkWrite 1 100), (mkWrite 1 101). split; reflexivity. Qed.
Print Assumptions C45_overwrite_refuted.
