(** The client's cache of accounts: updates return, snapshots, and checking examples. *)
From Coq Require Import ZArith List Bool Lia ZifyBool.
From Verif Require Import Base BaseFacts ChainData SpecChain ChainFacts ChainInv ChainTrack ChainProofs.
Import ListNotations.
Open Scope Z_scope.

(** ** Updates return *)
Lemma forward_falls h c : fed h c -> forward h -> falls (cd_slots c).
Proof.
  intros H. induction H as [|h c d c' Hf IH E|h c k w Hf IH] using fed_steps; intros Hw.
  - intros s v p C. discriminate.
  - assert (IH' : falls (cd_slots c)) by (apply IH; intros e p I; apply Hw; apply in_or_app; left; exact I).
    apply update_slot_inv in E. cbv zeta in E. destruct E as (_ & _ & m2 & Em & Es & _).
    assert (F1 : falls (fst (record_slot (cd_slots c) d))).
    { intros s v p Hv Hp. rewrite record_get in Hv. destruct (Z.eqb_spec (sd_slot d) s) as [<-|]; [|exact (IH' _ _ _ Hv Hp)].
      assert (Hd : forall q, sd_parent d = Some q -> q < sd_slot d) by (intros q; apply Hw; apply in_or_app; right; left; reflexivity).
      injection Hv as <-. destruct (map_get (sd_slot d) (cd_slots c)) as [v0|] eqn:E0; [|exact (Hd _ Hp)].
      cbn [sd_parent] in Hp. destruct (sd_parent v0) as [q|] eqn:Eq; [injection Hp as <-; exact (IH' _ _ _ E0 Eq)|exact (Hd _ Hp)]. }
    assert (F2 : falls m2).
    { destruct (_ || _); [|injection Em as <-; exact F1]. apply mark_spec in Em as [A _].
      intros s v p Hv Hp. specialize (A s). rewrite Hv in A. destruct (map_get s (fst (record_slot (cd_slots c) d))) as [v0|] eqn:E0; [|contradiction].
      destruct A as [A _]. apply (F1 _ _ p E0). congruence. }
    rewrite Es. destruct (_ && _); [|exact F2]. intros s v p Hv Hp. rewrite (map_get_filter (fun k => cd_rooted c' <=? k) s m2) in Hv.
    destruct (_ <=? _); [|discriminate]. exact (F2 _ _ _ Hv Hp).
  - apply IH. intros e p I. apply Hw. apply in_or_app. left. exact I.
Qed.

Lemma fed_rooted_pos h c : fed h c -> 0 <= cd_rooted c.
Proof.
  intros H. induction H as [|h c d c' Hf IH E|h c k w Hf IH] using fed_steps; [cbn; lia| |exact IH].
  apply update_slot_inv in E. cbv zeta in E. destruct E as (-> & _). destruct (_ && _) eqn:B; lia.
Qed.

Lemma update_returns h c d : fed h c -> forward (h ++ [NSlot d]) -> 0 <= sd_slot d < 2 ^ 64 - 1 -> exists c', update_slot c d = Ok c'.
Proof.
  intros Hf Hw Hs. pose proof (fed_rooted_pos _ _ Hf) as R0.
  assert (F0 : falls (cd_slots c)) by (apply (forward_falls h); [exact Hf|]; intros e p I; apply Hw; apply in_or_app; left; exact I).
  assert (F1 : falls (fst (record_slot (cd_slots c) d))).
  { intros s v p Hv Hp. rewrite record_get in Hv. destruct (Z.eqb_spec (sd_slot d) s) as [<-|]; [|exact (F0 _ _ _ Hv Hp)].
    assert (Hd : forall q, sd_parent d = Some q -> q < sd_slot d) by (intros q; apply Hw; apply in_or_app; right; left; reflexivity).
    injection Hv as <-. destruct (map_get (sd_slot d) (cd_slots c)) as [v0|] eqn:E0; [|exact (Hd _ Hp)].
    cbn [sd_parent] in Hp. destruct (sd_parent v0) as [q|] eqn:Eq; [injection Hp as <-; exact (F0 _ _ _ E0 Eq)|exact (Hd _ Hp)]. }
  unfold update_slot. destruct (record_slot (cd_slots c) d) as [sl pu] eqn:Er. cbn [fst] in F1. cbv zeta.
  assert (G : forall new best, exists slots, (if new || pu then mark (S (length sl)) sl best best else Ok sl) = Ok slots).
  { intros new best. destruct (new || pu); [apply mark_returns; exact F1|eauto]. }
  destruct (G (match sd_parent d with Some _ => cd_best c <? sd_slot d | None => false end)
              (if match sd_parent d with Some _ => cd_best c <? sd_slot d | None => false end then sd_slot d else cd_best c)) as [slots ->].
  cbn [bind]. destruct ((cd_rooted c <? sd_slot d) && is_rooted (sd_status d)); [|eauto].
  set (best := if match sd_parent d with Some _ => cd_best c <? sd_slot d | None => false end then sd_slot d else cd_best c).
  assert (P : forall m, exists m', prune_accounts slots (sd_slot d) best m = Ok m').
  { induction m as [|[k l] m [m' IH]]; cbn [prune_accounts]; [eauto|]. unfold prune_writes.
    replace (chk_u64 (sd_slot d + 1)) with (@Ok Z (sd_slot d + 1))
      by (unfold chk_u64, chk, in_u64, in_range; replace ((0 <=? sd_slot d + 1) && (sd_slot d + 1 <=? u64_max)) with true by (unfold u64_max; lia); reflexivity).
    cbn [bind]. rewrite IH. cbn [bind]. eauto. }
  destruct (P (cd_accounts c)) as [m' ->]. cbn [bind]. eauto.
Qed.

(** ** Snapshots *)
Lemma snapshot_agrees h c k w : fed h c -> (In (k, w) (accounts_snapshot c) <-> account_and_slot c k = Some w).
Proof.
  intros Hf. pose proof (proj1 (fed_holds _ _ Hf)) as Hn. unfold accounts_snapshot, account_and_slot.
  induction (cd_accounts c) as [|[j l] m IH]; cbn [flat_map map_get]; [split; [intros []|discriminate]|].
  cbn [map fst] in Hn. inversion Hn as [|x y Hx Hy]; subst. specialize (IH Hy). rewrite in_app_iff. cbn [fst snd].
  assert (Hin : In (k, w) (flat_map (fun x => match find (is_account_write_live c) (rev (snd x)) with Some w => [(fst x, w)] | None => [] end) m) -> In k (map fst m)).
  { intros I. apply in_flat_map in I as ([j' l'] & I & I2). cbn [fst snd] in I2. destruct (find _ (rev l')) as [w'|]; [|destruct I2].
    destruct I2 as [I2|[]]. injection I2 as -> ->. exact (in_map fst _ _ I). }
  destruct (Z.eqb_spec j k) as [->|Hjk].
  - destruct (find (is_account_write_live c) (rev l)) as [w'|]; split.
    + intros [[E|[]]|I]; [congruence|contradiction (Hx (Hin I))].
    + intros E. injection E as ->. left. left. reflexivity.
    + intros [[]|I]. contradiction (Hx (Hin I)).
    + discriminate.
  - rewrite <- IH. split; [|auto]. intros [I|I]; [|exact I]. destruct (find _ (rev l)); [|destruct I]. destruct I as [I|[]]. congruence.
Qed.

Lemma snapshot_once h c : fed h c -> NoDup (map fst (accounts_snapshot c)).
Proof.
  intros Hf. pose proof (proj1 (fed_holds _ _ Hf)) as Hn. unfold accounts_snapshot.
  induction (cd_accounts c) as [|[j l] m IH]; cbn [flat_map map]; [constructor|].
  cbn [map fst] in Hn. inversion Hn as [|x y Hx Hy]; subst. specialize (IH Hy). cbn [fst snd].
  destruct (find _ (rev l)) as [w|]; [|exact IH]. cbn [app map fst]. constructor; [|exact IH].
  intros I. apply Hx. apply in_map_iff in I as ([k' w'] & E & I). cbn [fst] in E. subst k'.
  apply in_flat_map in I as ([j' l'] & I & I2). cbn [fst snd] in I2. destruct (find _ (rev l')) as [w2|]; [|destruct I2].
  destruct I2 as [I2|[]]. injection I2 as -> ->. exact (in_map fst _ _ I).
Qed.

(** ** Answers above the newest root, whatever the notifications *)
Lemma answers_all h c k : fed h c ->
  match account_and_slot c k with
  | Some w => is_account_write_live c w = true /\ In w (writes_of k h) /\
      exists l1 l2, writes_of k h = l1 ++ w :: l2 /\
      (forall x, In x l1 -> is_account_write_live c x = true -> cd_rooted c < wr_slot x -> wr_slot x <= wr_slot w) /\
      (forall x, In x l2 -> is_account_write_live c x = true -> cd_rooted c < wr_slot x -> wr_slot x < wr_slot w)
  | None => forall w, In w (writes_of k h) -> cd_rooted c < wr_slot w -> is_account_write_live c w = false
  end.
Proof.
  intros Hf. pose proof (proj2 (fed_holds _ _ Hf) k) as HC. unfold account_and_slot.
  destruct (map_get k (cd_accounts c)) as [l|]; [|rewrite HC; intros w []]. destruct HC as (K & -> & HK).
  pose proof (find_stored (is_account_write_live c) K) as Hfs.
  destruct (find (is_account_write_live c) (rev (stored K))) as [w|].
  - destruct Hfs as (Pw & K1 & K2 & EK & H1 & H2). pose proof (kept_split _ _ _ _ _ _ HK EK) as (L1 & L2 & EL & HK1 & HK2).
    split; [exact Pw|]. split; [rewrite EL; apply in_or_app; right; left; reflexivity|]. exists L1, L2. split; [exact EL|]. split; intros x Ix Px Lx.
    + destruct (kept_or_dropped _ _ _ _ HK1 Ix) as [I|D]; [exact (H1 x I Px)|lia].
    + destruct (kept_or_dropped _ _ _ _ HK2 Ix) as [I|D]; [exact (H2 x I Px)|lia].
  - intros w Iw Lw. destruct (kept_or_dropped _ _ _ _ HK Iw) as [I|D]; [exact (Hfs w I)|lia].
Qed.

(** ** Examples *)
Fixpoint play (l : list event) (c : chain_data) : res (list news * chain_data) :=
  match l with
  | [] => Ok ([], c)
  | e :: r =>
      '(n, c') <- match e with
                  | ESlot d => c' <- update_slot c d ;; Ok ([NSlot d], c')
                  | EWrite k w => Ok ([NWrite k w], update_account c k w)
                  | ERpc k w => c' <- update_from_rpc c k w ;; Ok (rpc_stub c w ++ [NWrite k w], c')
                  end ;;
      '(m, c'') <- play r c' ;;
      Ok (n ++ m, c'')
  end.
Lemma play_fed l : forall h c m c', fed h c -> play l c = Ok (m, c') -> fed (h ++ m) c'.
Proof.
  induction l as [|e l IH]; intros h c m c' Hf H; cbn [play] in H; [injection H as <- <-; rewrite app_nil_r; exact Hf|].
  apply bind_ok in H as ([n c1] & E1 & H). apply bind_ok in H as ([m1 c2] & E2 & H). injection H as <- <-. rewrite app_assoc. apply (IH (h ++ n) c1); [|exact E2].
  destruct e as [d|k w|k w].
  - apply bind_ok in E1 as (c3 & E3 & E1). injection E1 as <- <-. eapply fed_slot; eassumption.
  - injection E1 as <- <-. apply fed_account. exact Hf.
  - apply bind_ok in E1 as (c3 & E3 & E1). injection E1 as <- <-. eapply fed_rpc; eassumption.
Qed.

Definition notified_b (h : list news) (s : Z) : bool := existsb (fun n => match n with NSlot d => sd_slot d =? s | _ => false end) h.
Definition roots (h : list news) : list Z :=
  flat_map (fun n => match n with NSlot d => if is_rooted (sd_status d) then [sd_slot d] else [] | _ => [] end) h.
Fixpoint ancestor_b (fuel : nat) (h : list news) (a b : Z) : bool :=
  (a =? b) || match fuel with
              | O => false
              | S f => match parent_in h a with Some p => ancestor_b f h p b | None => false end
              end.
Definition on_best (h : list news) (s : Z) : bool := ancestor_b (length h) h (head_in h) s.
Definition orderly_slot_b (h : list news) (d : slot_data) : bool :=
  (1 <=? sd_slot d) && (sd_chain d =? 0) &&
  match sd_parent d with Some p => p <? sd_slot d | None => true end &&
  (notified_b h (sd_slot d) ||
   forallb (fun n => match n with NSlot e => match sd_parent e with Some p => negb (p =? sd_slot d) | None => true end | _ => true end) h) &&
  (negb (is_rooted (sd_status d)) ||
   (notified_b h (sd_slot d) &&
    forallb (fun n => match n with NWrite _ w => negb (wr_slot w <=? sd_slot d) || notified_b h (wr_slot w) || on_best h (wr_slot w) | _ => true end) h)) &&
  forallb (fun r => negb (sd_slot d <? r) || is_rooted (sd_status d)) (roots h) &&
  (match sd_parent d with None => true | _ => false end || match parent_in h (sd_slot d) with Some _ => true | None => false end ||
   (negb (is_rooted (sd_status d)) && forallb (fun r => r <? sd_slot d) (roots h))) &&
  forallb (on_best (h ++ [NSlot d])) (roots (h ++ [NSlot d])).
Definition orderly_write_b (h : list news) (w : write) : bool :=
  (1 <=? wr_slot w) && forallb (fun r => negb (wr_slot w <=? r) || on_best h (wr_slot w)) (roots h).
Fixpoint orderly_b (h l : list news) : bool :=
  match l with
  | [] => true
  | NSlot d :: r => orderly_slot_b h d && orderly_b (h ++ [NSlot d]) r
  | NWrite k w :: r => orderly_write_b h w && orderly_b (h ++ [NWrite k w]) r
  end.

Lemma notified_b_spec h s : notified_b h s = true <-> notified h s.
Proof.
  unfold notified_b, notified. rewrite existsb_exists. split.
  - intros ([d|] & I & E); [|discriminate]. exists d. split; [exact I|lia].
  - intros (d & I & E). exists (NSlot d). split; [exact I|]. lia.
Qed.
Lemma roots_spec h s : In s (roots h) <-> rooted h s.
Proof.
  unfold roots, rooted. rewrite in_flat_map. split.
  - intros ([d|] & I & E); [|destruct E]. destruct (is_rooted (sd_status d)) eqn:Er; [|destruct E]. destruct E as [<-|[]]. exists d. apply is_rooted_spec in Er. auto.
  - intros (d & I & <- & Er). exists (NSlot d). split; [exact I|]. rewrite Er. left. reflexivity.
Qed.
Lemma ancestor_b_ok fuel : forall h a b, ancestor_b fuel h a b = true -> ancestor h a b.
Proof.
  induction fuel as [|fuel IH]; intros h a b H; cbn [ancestor_b] in H; apply orb_true_iff in H as [H|H]; try (apply Z.eqb_eq in H as ->; constructor); [discriminate|].
  destruct (parent_in h a) as [p|] eqn:E; [|discriminate]. econstructor; [exact E|apply IH; exact H].
Qed.
Lemma parent_in_some h s p : parent_in h s = Some p -> exists d, In (NSlot d) h /\ sd_parent d = Some p.
Proof.
  induction h as [|[d|] h IH]; cbn [parent_in]; [discriminate| |].
  - assert (G : parent_in h s = Some p -> exists e, In (NSlot e) (NSlot d :: h) /\ sd_parent e = Some p).
    { intros H. destruct (IH H) as (e & I & E). exists e. split; [right; exact I|exact E]. }
    destruct (sd_slot d =? s); [|exact G]. destruct (sd_parent d) as [q|] eqn:E; [|exact G]. intros H. injection H as ->. exists d. split; [left; reflexivity|exact E].
  - intros H. destruct (IH H) as (e & I & E). exists e. split; [right; exact I|exact E].
Qed.
Lemma orderly_b_ok l : forall h, orderly h -> orderly_b h l = true -> orderly (h ++ l).
Proof.
  induction l as [|n l IH]; intros h Ho H; [rewrite app_nil_r; exact Ho|].
  replace (h ++ n :: l) with ((h ++ [n]) ++ l) by (rewrite <- app_assoc; reflexivity).
  cbn [orderly_b] in H. destruct n as [d|k w]; apply andb_true_iff in H as [H Hr]; apply IH; try exact Hr.
  - apply ord_slot; [exact Ho|]. unfold orderly_slot_b in H. repeat apply andb_true_iff in H as [H ?]. rename H into B1, H6 into B2, H5 into B3, H4 into B4, H3 into B5, H2 into B6, H1 into B7, H0 into B8.
    unfold orderly_slot. repeat match goal with |- _ /\ _ => split end.
    + lia.
    + lia.
    + intros p E. rewrite E in B3. lia.
    + intros Hn s E. apply orb_true_iff in B4 as [B4|B4]; [apply notified_b_spec in B4; contradiction|].
      apply parent_in_some in E as (e & I & E). rewrite forallb_forall in B4. specialize (B4 _ I). cbn beta iota in B4. rewrite E in B4. lia.
    + intros Er. apply orb_true_iff in B5 as [B5|B5]; [rewrite Er in B5; discriminate|]. apply andb_true_iff in B5 as [B5 B5'].
      split; [apply notified_b_spec; exact B5|]. intros k w I L. rewrite forallb_forall in B5'. specialize (B5' _ I). cbn beta iota in B5'.
      apply orb_true_iff in B5' as [B5'|B5']; [apply orb_true_iff in B5' as [B5'|B5']; [lia|left; apply notified_b_spec; exact B5']|right].
      exact (ancestor_b_ok _ _ _ _ B5').
    + intros r Hrt L. apply roots_spec in Hrt. rewrite forallb_forall in B6. specialize (B6 _ Hrt). cbn beta in B6.
      apply orb_true_iff in B6 as [B6|B6]; [lia|apply is_rooted_spec; exact B6].
    + intros Hp Hpi. rewrite Hpi in B7. destruct (sd_parent d); [|congruence]. cbn [orb] in B7. apply andb_true_iff in B7 as [B7 B7'].
      split; [intros Er; rewrite Er in B7; discriminate|]. intros r Hrt. apply roots_spec in Hrt. rewrite forallb_forall in B7'. specialize (B7' _ Hrt). cbn beta in B7'. lia.
    + intros r Hrt. apply roots_spec in Hrt. rewrite forallb_forall in B8. exact (ancestor_b_ok _ _ _ _ (B8 _ Hrt)).
  - apply ord_write; [exact Ho|]. unfold orderly_write_b in H. apply andb_true_iff in H as [B1 B2]. split; [lia|].
    intros r Hrt L. apply roots_spec in Hrt. rewrite forallb_forall in B2. specialize (B2 _ Hrt). cbn beta in B2.
    apply orb_true_iff in B2 as [B2|B2]; [lia|]. exact (ancestor_b_ok _ _ _ _ B2).
Qed.
