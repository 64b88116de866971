(** Invariants of the client's cache of accounts. *)
From Coq Require Import ZArith List Bool Lia ZifyBool.
From Verif Require Import Base BaseFacts ChainData SpecChain ChainFacts.
Import ListNotations.
Open Scope Z_scope.

Lemma fed_steps (P : list news -> chain_data -> Prop) :
  P [] chain_new ->
  (forall h c d c', fed h c -> P h c -> update_slot c d = Ok c' -> P (h ++ [NSlot d]) c') ->
  (forall h c k w, fed h c -> P h c -> P (h ++ [NWrite k w]) (update_account c k w)) ->
  forall h c, fed h c -> P h c.
Proof.
  intros H0 H1 H2 h c H. induction H as [|h c d c' Hf IH E|h c k w Hf IH|h c k w c' Hf IH E]; [exact H0|eapply H1; eassumption|apply H2; assumption|].
  unfold update_from_rpc in E. unfold rpc_stub. destruct (cd_best c <? wr_slot w).
  - apply bind_ok in E as (c1 & E1 & E). injection E as <-. rewrite app_assoc. apply H2; [eapply fed_slot; eassumption|].
    eapply H1; eassumption.
  - cbn [bind] in E. injection E as <-. cbn [app]. apply H2; assumption.
Qed.

(** ** Kept and dropped writes *)
Inductive kept (D : write -> Prop) : list write -> list write -> Prop :=
| kept_nil : kept D [] []
| kept_keep w K L : kept D K L -> kept D (w :: K) (w :: L)
| kept_drop w K L : D w -> kept D K L -> kept D K (w :: L).

Lemma kept_weaken (D D' : write -> Prop) K L : kept D K L -> (forall w, In w L -> D w -> D' w) -> kept D' K L.
Proof.
  induction 1; intros H1; [constructor|constructor 2|constructor 3].
  - apply IHkept. intros x Hx. apply H1. right. exact Hx.
  - apply H1; [left; reflexivity|assumption].
  - apply IHkept. intros x Hx. apply H1. right. exact Hx.
Qed.
Lemma kept_snoc D K L w : kept D K L -> kept D (K ++ [w]) (L ++ [w]).
Proof. induction 1; cbn [app]; [repeat constructor|constructor 2|constructor 3]; auto. Qed.
Lemma kept_filter D p K L : kept D K L -> (forall w, In w K -> p w = false -> D w) -> kept D (filter p K) L.
Proof.
  induction 1 as [|w K L H IH|w K L Hw H IH]; intros HD; cbn [filter]; [constructor| |constructor 3; auto].
  assert (IH' : kept D (filter p K) L) by (apply IH; intros x Hx; apply HD; right; exact Hx).
  destruct (p w) eqn:E; [constructor 2; exact IH'|constructor 3; [apply HD; [left; reflexivity|exact E]|exact IH']].
Qed.
Lemma kept_in D K L w : kept D K L -> In w K -> In w L.
Proof. induction 1; cbn [In]; intuition. Qed.
Lemma kept_or_dropped D K L w : kept D K L -> In w L -> In w K \/ D w.
Proof. induction 1; cbn [In]; [tauto| |]; intros [->|Hi]; auto; destruct (IHkept Hi); auto. Qed.
Lemma kept_split D K L K1 w K2 : kept D K L -> K = K1 ++ w :: K2 ->
  exists L1 L2, L = L1 ++ w :: L2 /\ kept D K1 L1 /\ kept D K2 L2.
Proof.
  intros H. revert K1. induction H as [|x K L H IH|x K L Hx H IH]; intros K1 E.
  - destruct K1; discriminate.
  - destruct K1 as [|y K1]; cbn [app] in E; injection E as -> E.
    + subst. exists [], L. split; [reflexivity|]. split; [constructor|exact H].
    + destruct (IH _ E) as (L1 & L2 & -> & H1 & H2). exists (y :: L1), L2. split; [reflexivity|]. split; [constructor; exact H1|exact H2].
  - destruct (IH _ E) as (L1 & L2 & -> & H1 & H2). exists (x :: L1), L2. split; [reflexivity|]. split; [constructor 3; assumption|exact H2].
Qed.

Lemma newest_kept D (P Q : write -> Prop) K L w : kept D K L -> newest P K w ->
  (forall x, In x K -> (P x <-> Q x)) -> (forall x, In x L -> D x -> Q x -> wr_slot x < wr_slot w) -> newest Q L w.
Proof.
  intros Hk (Pw & K1 & K2 & E & H1 & H2) HPQ HD. pose proof (kept_split _ _ _ _ _ _ Hk E) as (L1 & L2 & EL & Hk1 & Hk2).
  assert (Iw : In w K) by (rewrite E; apply in_or_app; right; left; reflexivity).
  split; [apply HPQ; assumption|]. exists L1, L2. split; [exact EL|]. split; intros x Hx Qx.
  - destruct (kept_or_dropped _ _ _ _ Hk1 Hx) as [Hi|Hd].
    + apply H1; [exact Hi|]. apply HPQ; [rewrite E; apply in_or_app; left; exact Hi|exact Qx].
    + assert (In x L) by (rewrite EL; apply in_or_app; left; exact Hx). specialize (HD x H Hd Qx). lia.
  - destruct (kept_or_dropped _ _ _ _ Hk2 Hx) as [Hi|Hd].
    + apply H2; [exact Hi|]. apply HPQ; [rewrite E; apply in_or_app; right; right; exact Hi|exact Qx].
    + apply HD; [|exact Hd|exact Qx]. rewrite EL. apply in_or_app. right. right. exact Hx.
Qed.

Lemma writes_of_snoc k h n : writes_of k (h ++ [n]) =
  writes_of k h ++ match n with NWrite k' w => if k' =? k then [w] else [] | NSlot _ => [] end.
Proof. unfold writes_of. rewrite flat_map_app. cbn [flat_map]. rewrite app_nil_r. reflexivity. Qed.

(** ** One notification *)
Lemma prune_accounts_get slots r b m m' : prune_accounts slots r b m = Ok m' -> map fst m' = map fst m /\
  forall k, match map_get k m with
            | None => map_get k m' = None
            | Some l => map_get k m' = Some (filter (fun w => (wr_slot w =? match newest_rooted_write slots r b l with Some n => n | None => r + 1 end) || (r <? wr_slot w)) l)
            end.
Proof.
  revert m'. induction m as [|[k l] m IH]; intros m' H; cbn [prune_accounts] in H.
  - injection H as <-. split; reflexivity.
  - apply bind_ok in H as (l' & E1 & H). apply bind_ok in H as (r' & E2 & H). injection H as <-.
    unfold prune_writes in E1. apply bind_ok in E1 as (d & Ed & E1). apply chk_u64_ok in Ed as [-> _].
    cbv zeta in E1. injection E1 as <-. destruct (IH _ E2) as [IH1 IH2]. split; [cbn [map fst]; rewrite IH1; reflexivity|].
    intros j. cbn [map_get]. destruct (k =? j); [reflexivity|apply IH2].
Qed.

(** The pieces of [update_slot]. *)
Lemma update_slot_inv c d c' : update_slot c d = Ok c' ->
  let new_root := (cd_rooted c <? sd_slot d) && is_rooted (sd_status d) in
  let new_best := match sd_parent d with Some _ => cd_best c <? sd_slot d | None => false end in
  cd_rooted c' = (if new_root then sd_slot d else cd_rooted c) /\
  cd_best c' = (if new_best then sd_slot d else cd_best c) /\
  exists slots, (if new_best || snd (record_slot (cd_slots c) d)
                 then mark (S (length (fst (record_slot (cd_slots c) d)))) (fst (record_slot (cd_slots c) d)) (cd_best c') (cd_best c')
                 else Ok (fst (record_slot (cd_slots c) d))) = Ok slots /\
  cd_slots c' = (if new_root then filter (fun x => cd_rooted c' <=? fst x) slots else slots) /\
  (if new_root then prune_accounts slots (cd_rooted c') (cd_best c') (cd_accounts c) = Ok (cd_accounts c')
   else cd_accounts c' = cd_accounts c).
Proof.
  intros H. cbv zeta. unfold update_slot in H. destruct (record_slot (cd_slots c) d) as [sl pu]. cbn [fst snd].
  cbv zeta in H. apply bind_ok in H as (slots & Em & H).
  destruct ((cd_rooted c <? sd_slot d) && is_rooted (sd_status d)).
  - apply bind_ok in H as (acc & Ep & H). injection H as <-. cbn [cd_rooted cd_best cd_slots cd_accounts].
    split; [reflexivity|]. split; [reflexivity|]. exists slots. split; [exact Em|]. split; [reflexivity|exact Ep].
  - injection H as <-. cbn [cd_rooted cd_best cd_slots cd_accounts].
    split; [reflexivity|]. split; [reflexivity|]. exists slots. split; [exact Em|]. split; reflexivity.
Qed.

(** ** What holds for all notifications *)
Definition holds_writes (h : list news) (c : chain_data) : Prop :=
  NoDup (map fst (cd_accounts c)) /\
  forall k, match map_get k (cd_accounts c) with
            | None => writes_of k h = []
            | Some l => exists K, l = stored K /\ kept (fun w => wr_slot w <= cd_rooted c) K (writes_of k h)
            end.

Lemma fed_holds h c : fed h c -> holds_writes h c.
Proof.
  intros H. induction H as [|h c d c' Hf IH E|h c k w Hf IH] using fed_steps.
  - split; [constructor|reflexivity].
  - destruct IH as [Hn IH]. apply update_slot_inv in E. cbv zeta in E. destruct E as (E1 & _ & slots & _ & _ & E2).
    assert (Hr : cd_rooted c <= cd_rooted c') by (rewrite E1; destruct (_ && _) eqn:B; lia).
    destruct ((cd_rooted c <? sd_slot d) && is_rooted (sd_status d)).
    + apply prune_accounts_get in E2 as [E2 E3]. split; [rewrite E2; exact Hn|]. intros k. specialize (IH k). specialize (E3 k).
      rewrite writes_of_snoc, app_nil_r. destruct (map_get k (cd_accounts c)) as [l|]; rewrite E3; [|exact IH].
      destruct IH as (K & -> & HK).
      eexists. split; [apply filter_stored|]. apply kept_filter.
      * eapply kept_weaken; [exact HK|]. intros x _ Hx. cbn beta in *. lia.
      * intros x Hx Hp. cbn beta. lia.
    + unfold holds_writes. rewrite E2. split; [exact Hn|]. intros k. specialize (IH k). rewrite writes_of_snoc, app_nil_r.
      destruct (map_get k (cd_accounts c)) as [l|]; [|exact IH]. destruct IH as (K & -> & HK). exists K. split; [reflexivity|].
      eapply kept_weaken; [exact HK|]. intros x _ Hx. cbn beta in *. lia.
  - destruct IH as [Hn IH]. split; [cbn [update_account cd_accounts]; apply map_set_keys; exact Hn|].
    intros j. unfold update_account. cbn [cd_accounts cd_rooted]. rewrite map_get_set, writes_of_snoc.
    pose proof (IH k) as IHk. specialize (IH j). destruct (Z.eqb_spec k j) as [->|Hj].
    + destruct (map_get j (cd_accounts c)) as [l|].
      * destruct IHk as (K & -> & HK). exists (K ++ [w]). split; [rewrite stored_snoc; apply insert_write_is; apply stored_ascending|].
        apply kept_snoc. exact HK.
      * exists [w]. split; [reflexivity|]. rewrite IHk. cbn [app]. repeat constructor.
    + rewrite app_nil_r. exact IH.
Qed.

(** ** Chains *)
Lemma parent_in_snoc h n s : parent_in (h ++ [n]) s =
  match parent_in h s with
  | Some p => Some p
  | None => match n with NSlot d => if sd_slot d =? s then sd_parent d else None | NWrite _ _ => None end
  end.
Proof.
  induction h as [|[d|k w] h IH]; cbn [app parent_in].
  - destruct n as [d|]; [|reflexivity]. destruct (sd_slot d =? s); [destruct (sd_parent d); reflexivity|reflexivity].
  - rewrite IH. destruct (sd_slot d =? s); [destruct (sd_parent d); reflexivity|reflexivity].
  - exact IH.
Qed.
Lemma head_in_snoc h n : head_in (h ++ [n]) =
  match n with
  | NSlot d => match sd_parent d with Some _ => if head_in h <? sd_slot d then sd_slot d else head_in h | None => head_in h end
  | NWrite _ _ => head_in h
  end.
Proof.
  assert (P : forall h, 0 <= head_in h) by (induction h0 as [|[d|] h0 IH]; cbn [head_in]; [lia|destruct (sd_parent d); lia|exact IH]).
  induction h as [|[d|k w] h IH]; cbn [app head_in].
  - destruct n as [d|]; [|reflexivity]. destruct (sd_parent d); [|reflexivity]. destruct (Z.ltb_spec 0 (sd_slot d)); lia.
  - rewrite IH. destruct n as [e|]; [|reflexivity]. destruct (sd_parent d), (sd_parent e); try reflexivity.
    destruct (Z.ltb_spec (head_in h) (sd_slot e)), (Z.ltb_spec (Z.max (sd_slot d) (head_in h)) (sd_slot e)); lia.
  - exact IH.
Qed.
Lemma head_in_pos h : 0 <= head_in h.
Proof. induction h as [|[d|] h IH]; cbn [head_in]; [lia|destruct (sd_parent d); lia|exact IH]. Qed.
Lemma head_in_max h s p : parent_in h s = Some p -> s <= head_in h.
Proof.
  induction h as [|[d|k w] h IH]; cbn [parent_in head_in]; [discriminate| |exact IH].
  destruct (Z.eqb_spec (sd_slot d) s) as [->|]; destruct (sd_parent d); intros H; try lia; specialize (IH H); lia.
Qed.
Lemma head_in_linked h : head_in h = 0 \/ exists p, parent_in h (head_in h) = Some p.
Proof.
  induction h as [|n h IH] using rev_ind; [left; reflexivity|]. rewrite head_in_snoc. destruct n as [d|].
  - destruct (sd_parent d) as [p|] eqn:Ep; [destruct (Z.ltb_spec (head_in h) (sd_slot d))|].
    + right. rewrite parent_in_snoc. destruct (parent_in h (sd_slot d)) as [q|]; [eauto|]. rewrite Z.eqb_refl. eauto.
    + destruct IH as [IH|[q IH]]; [left; exact IH|right]. exists q. rewrite parent_in_snoc, IH. reflexivity.
    + destruct IH as [IH|[q IH]]; [left; exact IH|right]. exists q. rewrite parent_in_snoc, IH. reflexivity.
  - destruct IH as [IH|[q IH]]; [left; exact IH|right]. exists q. rewrite parent_in_snoc, IH. reflexivity.
Qed.
Lemma parent_notified h s p : parent_in h s = Some p -> notified h s.
Proof.
  induction h as [|[d|k w] h IH]; cbn [parent_in]; [discriminate| |].
  - intros H. destruct (Z.eqb_spec (sd_slot d) s) as [E|E].
    + exists d. split; [left; reflexivity|exact E].
    + destruct (IH H) as (d' & Hd & Hs). exists d'. split; [right; exact Hd|exact Hs].
  - intros H. destruct (IH H) as (d' & Hd & Hs). exists d'. split; [right; exact Hd|exact Hs].
Qed.
Lemma notified_snoc h n s : notified (h ++ [n]) s <-> notified h s \/ exists d, n = NSlot d /\ sd_slot d = s.
Proof.
  unfold notified. split.
  - intros (d & Hd & Hs). apply in_app_or in Hd as [Hd|[->|[]]]; eauto.
  - intros [(d & Hd & Hs)|(d & -> & Hs)]; exists d; (split; [apply in_or_app|exact Hs]); [left; exact Hd|right; left; reflexivity].
Qed.
Lemma rooted_snoc h n s : rooted (h ++ [n]) s <-> rooted h s \/ exists d, n = NSlot d /\ sd_slot d = s /\ sd_status d = Rooted.
Proof.
  unfold rooted. split.
  - intros (d & Hd & Hs). apply in_app_or in Hd as [Hd|[->|[]]]; eauto.
  - intros [(d & Hd & Hs)|(d & -> & Hs)]; exists d; (split; [apply in_or_app|exact Hs]); [left; exact Hd|right; left; reflexivity].
Qed.

Definition falling (h : list news) : Prop := forall s p, parent_in h s = Some p -> p < s.
Lemma ancestor_le h s t : falling h -> ancestor h s t -> t <= s.
Proof. intros Hf. induction 1 as [|s p t H _ IH]; [lia|]. apply Hf in H. lia. Qed.
Lemma ancestor_trans h a b c : ancestor h a b -> ancestor h b c -> ancestor h a c.
Proof. induction 1; [auto|]. intros Hc. econstructor; eauto. Qed.
Lemma ancestor_line h a b c : falling h -> ancestor h a b -> ancestor h a c -> c <= b -> ancestor h b c.
Proof.
  intros Hf Hab. revert c. induction Hab as [s|s p t H Hp IH]; intros c Hc Hle; [exact Hc|].
  inversion Hc as [|s' q c' H' Hq]; subst.
  - exfalso. pose proof (ancestor_le _ _ _ Hf Hp). apply Hf in H. lia.
  - rewrite H in H'. injection H' as <-. exact (IH _ Hq Hle).
Qed.
Lemma ancestor_mono h n a b : ancestor h a b -> ancestor (h ++ [n]) a b.
Proof. induction 1 as [|s p t H _ IH]; [constructor|]. econstructor; [|exact IH]. rewrite parent_in_snoc, H. reflexivity. Qed.
Lemma ancestor_same h h' a b : (forall s, parent_in h' s = parent_in h s) -> ancestor h a b <-> ancestor h' a b.
Proof.
  intros E. split; (induction 1 as [|s p t H _ IH]; [constructor|]; econstructor; [|exact IH]); [rewrite E|rewrite <- E]; exact H.
Qed.

Lemma orderly_inv h n : orderly (h ++ [n]) -> orderly h /\
  match n with NSlot d => orderly_slot h d | NWrite _ w => orderly_write h w end.
Proof.
  intros H. inversion H as [E|h' d Ho Hs E|h' k w Ho Hw E].
  - destruct h; discriminate.
  - apply app_inj_tail in E as [-> <-]. auto.
  - apply app_inj_tail in E as [-> <-]. auto.
Qed.
Lemma orderly_falling h : orderly h -> falling h.
Proof.
  induction h as [|n h IH] using rev_ind; intros Ho s p H; [discriminate|]. apply orderly_inv in Ho as [Ho Hn].
  rewrite parent_in_snoc in H. destruct (parent_in h s) as [q|] eqn:E; [injection H as <-; exact (IH Ho s q E)|].
  destruct n as [d|]; [|discriminate]. destruct Hn as (_ & _ & Hp & _). destruct (Z.eqb_spec (sd_slot d) s) as [<-|]; [auto|discriminate].
Qed.
Lemma ancestor_write h k w a b : ancestor (h ++ [NWrite k w]) a b <-> ancestor h a b.
Proof. symmetry. apply ancestor_same. intros s. rewrite parent_in_snoc. destruct (parent_in h s); reflexivity. Qed.
Lemma orderly_roots h : orderly h -> forall r, rooted h r -> ancestor h (head_in h) r.
Proof.
  induction h as [|n h IH] using rev_ind; intros Ho r Hr; [destruct Hr as (d & [] & _)|]. apply orderly_inv in Ho as [Ho Hn].
  destruct n as [d|k w].
  - destruct Hn as (_ & _ & _ & _ & _ & _ & _ & Hn). auto.
  - rewrite head_in_snoc, ancestor_write. apply IH; [exact Ho|]. apply rooted_snoc in Hr as [Hr|(d & E & _)]; [exact Hr|discriminate].
Qed.

(** Membership of the best chain is settled at and below a rooted slot. *)
Lemma settled h n r s : orderly (h ++ [n]) -> rooted h r -> s <= r ->
  ancestor (h ++ [n]) (head_in (h ++ [n])) s <-> ancestor h (head_in h) s.
Proof.
  intros Ho Hr Hs. pose proof (orderly_falling _ Ho) as Hf'. pose proof (orderly_roots _ Ho) as Hr'.
  apply orderly_inv in Ho as [Ho Hn]. pose proof (orderly_falling _ Ho) as Hf. pose proof (orderly_roots _ Ho _ Hr) as Hr0.
  specialize (Hr' r (proj2 (rooted_snoc _ _ _) (or_introl Hr))). split; intros H.
  - eapply ancestor_trans; [exact Hr0|]. pose proof (ancestor_line _ _ _ _ Hf' Hr' H Hs) as G.
    assert (G' : forall t u, ancestor (h ++ [n]) t u -> t <= r -> ancestor h t u).
    { intros t u A. induction A as [t|t p u E _ IH]; intros L; [constructor|].
      assert (E' : parent_in h t = Some p).
      { rewrite parent_in_snoc in E. destruct (parent_in h t) as [q|] eqn:E0; [exact E|]. exfalso.
        destruct n as [d|]; [|discriminate]. destruct (Z.eqb_spec (sd_slot d) t) as [<-|]; [|discriminate].
        destruct Hn as (_ & _ & _ & _ & _ & _ & Hn & _). destruct (Hn ltac:(congruence) E0) as [_ Hn']. specialize (Hn' r Hr). lia. }
      econstructor; [exact E'|]. apply IH. apply Hf in E'. lia. }
    apply G'; [exact G|lia].
  - eapply ancestor_trans; [exact Hr'|]. apply ancestor_mono. exact (ancestor_line _ _ _ _ Hf Hr0 H Hs).
Qed.
