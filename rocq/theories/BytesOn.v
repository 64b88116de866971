(** Decoding the accounts of a market in a reachable state. *)
From Coq Require Import ZArith List Bool Lia ZifyBool.
From Verif Require Import Base Nodes OrderTree BookSide Heap Market OpenOrders Order Book Instructions
  BaseFacts BitFacts HeapFacts TreeRep TreeFacts TreeOps TreeIter BookSideFacts SpecBook SpecFees SpecOrder OrderFacts SpecLedger SpecSystem
  Ledger LedgerOrder LedgerInv SystemFacts LifeFacts ConsumeFacts SpecFit FitIx Ts TsFacts Find Bytes SpecBytes BytesFacts BytesDec.
Import ListNotations.
Open Scope Z_scope.

(** ** The nodes of a tree *)
Lemma slices_nth b h : 0 <= h < 1024 ->
  nth_error (slices b) (Z.to_nat h) = Some (hd 0 (node_bytes (a_nodes (bs_nodes b) h)), node_bytes (a_nodes (bs_nodes b) h)).
Proof.
  intros H. unfold slices. rewrite nth_error_map. rewrite (nth_error_nth' _ 0%nat) by (rewrite seq_length; lia). cbn [option_map].
  rewrite seq_nth by lia. rewrite Nat.add_0_l, Z2Nat.id by lia. reflexivity.
Qed.
Lemma seen_node b h : 0 <= h < 1024 -> node_fits (a_nodes (bs_nodes b) h) ->
  a_nodes (bs_nodes (side_seen b)) h = node_seen (a_nodes (bs_nodes b) h).
Proof. intros H F. cbn [side_seen bs_nodes a_nodes]. unfold ts_nodes. rewrite slices_nth by exact H. apply node_decodes. exact F. Qed.

Lemma expiry_u64 l : leaf_fits l -> is_u64 (leaf_expiry l).
Proof.
  intros H. pose proof (lt_ts _ H) as H1. pose proof (lt_tif _ H) as H2. unfold is_u16 in H2. unfold leaf_expiry, is_u64, u64_max.
  destruct (lf_tif l =? 0); lia.
Qed.
Lemma texp_u64 t : (forall x, In x (tleaves t) -> leaf_fits (snd x)) -> is_u64 (texp t).
Proof.
  induction t as [h l|h p k t0 IH0 t1 IH1]; cbn [tleaves texp]; intros H.
  - apply expiry_u64. apply (H (h, l)). left. reflexivity.
  - assert (A : is_u64 (texp t0)) by (apply IH0; intros x Hx; apply H, in_or_app; auto).
    assert (B : is_u64 (texp t1)) by (apply IH1; intros x Hx; apply H, in_or_app; auto). unfold is_u64 in *. lia.
Qed.
Lemma in_bounds_range h : in_bounds h = true -> 0 <= h < 1024.
Proof. unfold in_bounds, MAX_NODES. lia. Qed.
Lemma seen_repr b t : TreeIter.readable (bs_nodes b) t -> wft t -> (forall x, In x (tleaves t) -> leaf_fits (snd x)) -> TreeIter.readable (bs_nodes (side_seen b)) t.
Proof.
  intros Hr W L. split; [|exact (proj2 Hr)].
  induction t as [h l|h p k t0 IH0 t1 IH1].
  - cbn [repr]. pose proof (proj1 Hr) as E. cbn [repr] in E. pose proof (proj2 Hr h (or_introl eq_refl)) as B. apply in_bounds_range in B.
    assert (F : leaf_fits l) by (apply (L (h, l)); left; reflexivity). rewrite seen_node; [rewrite E; reflexivity|exact B|rewrite E; exact F].
  - destruct (readable_node _ _ _ _ _ _ Hr) as (E & B & R0 & R1). cbn [repr]. cbn [wft] in W. destruct W as (W1 & W2 & W3 & W4 & _).
    cbn [tleaves] in L. apply in_bounds_range in B.
    assert (L0 : forall x, In x (tleaves t0) -> leaf_fits (snd x)) by (intros x Hx; apply L, in_or_app; auto).
    assert (L1 : forall x, In x (tleaves t1) -> leaf_fits (snd x)) by (intros x Hx; apply L, in_or_app; auto).
    split; [|split; [apply IH0; assumption|apply IH1; assumption]].
    rewrite seen_node; [rewrite E; reflexivity|exact B|]. rewrite E. cbn [node_fits]. unfold tinner.
    pose proof (in_bounds_range _ (proj2 R0 _ (thandle_in t0))). pose proof (in_bounds_range _ (proj2 R1 _ (thandle_in t1))).
    constructor; cbn [in_prefix in_key in_c0 in_c1 in_e0 in_e1]; try (apply texp_u64; assumption); unfold is_u32; try lia. exact W2.
Qed.
Lemma seen_leaves s b T t : fits s b T -> (forall l, In l (oleaves (T t)) -> leaf_fits l) ->
  ts_leaves (bs_nodes (side_seen b)) s (bs_root (side_seen b) t) = Ok (tree_orders b t).
Proof.
  intros HF HL. rewrite (proj1 (fits_orders _ _ _ t HF)). destruct (ft_ok _ _ _ HF) as (F & Hb). pose proof (Hb t) as Hk.
  assert (Er : bs_root (side_seen b) t = mkRoot (u32 (r_node (bs_root b t))) (u32 (r_count (bs_root b t)))) by (destruct t; reflexivity).
  rewrite Er. unfold ts_leaves. cbn [r_count r_node]. pose proof (tk_root _ _ _ _ _ Hk) as Hroot. unfold oleaves in *. destruct (T t) as [tr|].
  - destruct (tree_ok_facts _ _ _ _ _ Hk) as (Ha & _ & W & _ & _ & _ & Hlen). destruct Hroot as [Hn Hc]. rewrite Hn, Hc.
    pose proof (tree_ok_readable _ _ _ _ _ Hk) as Hr. pose proof (in_bounds_range _ (proj2 Hr _ (thandle_in tr))) as Hh.
    unfold u32. rewrite !Z.mod_small by lia. pose proof (thandles_leaves_count tr) as Hl.
    destruct (Z.eqb_spec (Z.of_nat (length (tleaves tr))) 0) as [E|_]; [lia|].
    change [thandle tr] with (map thandle [tr]). rewrite walk_spec.
    + cbn [map concat oitems]. rewrite app_nil_r, dir_map. reflexivity.
    + intros t' [<-|[]]. apply seen_repr; [exact Hr|exact W|]. intros x Hx. apply HL. cbn [oitems]. apply in_map. exact Hx.
    + rewrite hcount_cons. change (hcount []) with 0%nat. rewrite tree_fuel_eq. pose proof (alloc_len _ _ _ Ha) as Hal. rewrite app_length in Hal. lia.
  - cbn [root_rep] in Hroot. rewrite Hroot. destruct s; reflexivity.
Qed.

Theorem side_decodes s sd disc : run_on_chain s -> length disc = 8%nat ->
  exists b, ts_side_of_buffer (side_account disc (w_book (s_w s) sd)) = Some b /\
    ts_side_of_anchor (side_account disc (w_book (s_w s) sd)) = Some b /\
    a_side (bs_nodes b) = sd /\
    (forall t, ts_leaves (bs_nodes b) sd (bs_root b t) = Ok (tree_orders (w_book (s_w s) sd) t)) /\
    forall clock, ts_fixed_items b sd clock = ts_fixed_items (w_book (s_w s) sd) sd clock /\
      ts_items b sd clock = ts_items (w_book (s_w s) sd) sd clock.
Proof.
  intros Hr Hd. exists (side_seen (w_book (s_w s) sd)). split; [exact (buffer_read _ _ Hd)|]. split; [exact (anchor_read _ _ Hd)|].
  destruct (reachable_fits s sd (chain_reachable _ Hr)) as (T & HF). pose proof (af_orders _ (chain_fits _ Hr)) as AF.
  assert (L : forall t, ts_leaves (bs_nodes (side_seen (w_book (s_w s) sd))) sd (bs_root (side_seen (w_book (s_w s) sd)) t) = Ok (tree_orders (w_book (s_w s) sd) t)).
  { intros t. apply (seen_leaves sd _ T t HF). intros l Hl. apply (AF sd t). apply (in_orders _ _ _ _ _ _ HF eq_refl). exact Hl. }
  split; [exact (ft_side _ _ _ HF)|]. split; [exact L|]. intros clock. pose proof (side_leaves _ _ _ HF) as L'.
  assert (E : ts_fixed_items (side_seen (w_book (s_w s) sd)) sd clock = ts_fixed_items (w_book (s_w s) sd) sd clock).
  { unfold ts_fixed_items. change (bs_fixed ?x) with (bs_root x Fixed). rewrite L, L'. reflexivity. }
  split; [exact E|]. unfold ts_items. rewrite E. unfold ts_pegged_items. change (bs_pegged ?x) with (bs_root x OraclePegged). rewrite L, L'. reflexivity.
Qed.

(** ** Events *)
Lemma fill_shaped f : shaped rust_FillEvent (fill_val f).
Proof. shape. Qed.
Lemma out_shaped o : shaped rust_OutEvent (out_val o).
Proof. shape. Qed.
Lemma event_flat e : exists rest, event_bytes e = match e with EFill _ => 0 | EOut _ => 1 end :: rest /\ length (event_bytes e) = 144%nat /\ Forall is_byte (event_bytes e).
Proof.
  destruct e as [f|o]; cbn [event_bytes].
  - pose proof (flat_length rust_FillEvent _ eq_refl (fill_shaped f)) as L. pose proof (plain_range rust_FillEvent (fill_val f) eq_refl) as R.
    rewrite bytes_flat by (reflexivity || apply fill_shaped). eexists. split; [unfold rust_FillEvent, fill_val; rewrite flat_rec; reflexivity|]. split; [|exact R].
    change (size rust_FillEvent) with 144 in L. lia.
  - pose proof (flat_length rust_OutEvent _ eq_refl (out_shaped o)) as L. pose proof (plain_range rust_OutEvent (out_val o) eq_refl) as R.
    rewrite bytes_flat by (reflexivity || apply out_shaped). eexists. split; [unfold rust_OutEvent, out_val; rewrite flat_rec; reflexivity|]. split; [|exact R].
    change (size rust_OutEvent) with 144 in L. lia.
Qed.
Lemma code_back s : side_of_code (side_code s) = s.
Proof. destruct s; reflexivity. Qed.
Lemma flag_back b : negb (b2z b =? 0) = b.
Proof. destruct b; reflexivity. Qed.
Lemma event_decodes e : event_fits e -> ts_event (hd 0 (event_bytes e)) (event_bytes e) = Some e.
Proof.
  destruct (event_flat e) as (rest & E & _). assert (Eh : hd 0 (event_bytes e) = match e with EFill _ => 0 | EOut _ => 1 end) by (rewrite E; reflexivity). rewrite Eh.
  clear E Eh rest. destruct e as [f|o]; cbn [event_fits event_bytes]; intros H; unfold ts_event.
  - change (0 =? 0) with true. cbv iota. change idl_FillEvent with rust_FillEvent. rewrite decode_ok by (reflexivity || apply fill_shaped).
    destruct H as [H1 H2 H3 H4 H5 H6 H7 H8 H9 H10 H11]. unfold rust_FillEvent, fill_val. rewrite norm_rec. cbn [norms].
    rewrite !nU, !nK, !nI8; try assumption; try (unfold is_i64; lia); try (change (256 ^ Z.of_nat 1) with 256; lia).
    all: try (change (256 ^ Z.of_nat 1) with 256; destruct (fe_taker_side f), (fe_maker_out f); unfold side_code, b2z; lia).
    rewrite code_back, flag_back. destruct f; reflexivity.
  - change (1 =? 0) with false. change (1 =? 1) with true. cbv iota. change idl_OutEvent with rust_OutEvent. rewrite decode_ok by (reflexivity || apply out_shaped).
    destruct H as [H1 H2 H3 H4 H5]. unfold rust_OutEvent, out_val. rewrite norm_rec. cbn [norms].
    rewrite !nU, !nK, !nI8; try assumption; try (unfold is_i64; lia); try (change (256 ^ Z.of_nat 1) with 256; lia).
    all: try (change (256 ^ Z.of_nat 1) with 256; destruct (oe_side o); unfold side_code; lia).
    rewrite code_back. destruct o; reflexivity.
Qed.

(** ** The heap *)
Definition u16 (z : Z) : Z := z mod 2 ^ 16.
Definition hnodes (h : heap) : list (Z * (Z * list Z)) :=
  map (fun i => let n := h_nodes h (Z.of_nat i) in (u16 (hn_next n), (hd 0 (event_bytes (hn_event n)), event_bytes (hn_event n)))) (seq 0 600).
Definition hnode_idl (n : hnode) : val := VL [VZ (hn_next n); VZ (hn_prev n); pad 4; any_val (event_bytes (hn_event n))].
Lemma event_nonempty e : event_bytes e <> [].
Proof. destruct (event_flat e) as (rest & -> & _). discriminate. Qed.
Lemma event_range e : Forall is_byte (event_bytes e).
Proof. destruct (event_flat e) as (rest & _ & _ & H). exact H. Qed.
Lemma event_length e : length (event_bytes e) = 144%nat.
Proof. destruct (event_flat e) as (rest & _ & H & _). exact H. Qed.
Lemma hnode_shaped n : shaped rust_EventNode (hnode_val n).
Proof. shape. apply event_length. Qed.
Lemma hnode_idl_shaped n : shaped idl_EventNode (hnode_idl n).
Proof.
  apply shaped_rec. cbn [shapeds]. split; [exact I|]. split; [exact I|]. split; [apply shaped_pad|]. split; [|exact I]. apply (any_shaped 143), event_length.
Qed.
Lemma hnode_flat n : flat idl_EventNode (hnode_idl n) = flat rust_EventNode (hnode_val n).
Proof.
  unfold idl_EventNode, rust_EventNode, hnode_idl, hnode_val. rewrite !flat_rec. cbn [flats]. unfold idl_AnyEvent.
  rewrite any_flat; [reflexivity|apply event_nonempty|apply event_range].
Qed.
Lemma hnode_read n : ts_hnode (norm idl_EventNode (hnode_idl n)) = (u16 (hn_next n), (hd 0 (event_bytes (hn_event n)), event_bytes (hn_event n))).
Proof.
  unfold idl_EventNode, hnode_idl. rewrite norm_rec. cbn [norms]. unfold idl_AnyEvent. rewrite any_norm; [|apply event_nonempty|apply event_range].
  unfold ts_hnode. rewrite slice_any by apply event_nonempty. reflexivity.
Qed.
Definition heap_idl (h : heap) : val :=
  VL [VL [VZ (h_free h); VZ (h_used h); VZ (h_count h); VZ 0; VZ (h_seq h)];
      VL (map (fun i => hnode_idl (h_nodes h (Z.of_nat i))) (seq 0 600)); pad 64].
Lemma seq_shaped t (f : nat -> val) n : (forall i, shaped t (f i)) -> shaped (TArr t n) (VL (map f (seq 0 n))).
Proof.
  intros H. cbn [shaped]. rewrite map_length, seq_length. split; [reflexivity|]. apply Forall_forall. intros x Hx. apply in_map_iff in Hx as (i & <- & _). apply H.
Qed.
Lemma heap_shaped h : shaped rust_EventHeap (heap_val h).
Proof.
  apply shaped_rec. cbn [shapeds]. split; [shape|]. split; [apply (seq_shaped rust_EventNode (fun i => hnode_val (h_nodes h (Z.of_nat i)))); intros; apply hnode_shaped|].
  split; [apply shaped_pad|exact I].
Qed.
Lemma heap_idl_shaped h : shaped idl_EventHeap (heap_idl h).
Proof.
  apply shaped_rec. cbn [shapeds]. split; [shape|]. split; [apply (seq_shaped idl_EventNode (fun i => hnode_idl (h_nodes h (Z.of_nat i)))); intros; apply hnode_idl_shaped|].
  split; [apply shaped_pad|exact I].
Qed.
Lemma arr_flat t n l : flat (TArr t n) (VL l) = concat (map (flat t) l).
Proof. reflexivity. Qed.
Lemma arr_norm t n l : norm (TArr t n) (VL l) = VL (map (norm t) l).
Proof. reflexivity. Qed.
Lemma heap_flat h : flat idl_EventHeap (heap_idl h) = bytes rust_EventHeap (heap_val h).
Proof.
  rewrite bytes_flat by (reflexivity || apply heap_shaped). unfold idl_EventHeap, rust_EventHeap, heap_idl, heap_val. rewrite !flat_rec. cbn [flats].
  rewrite !(arr_flat idl_EventNode), !(arr_flat rust_EventNode), !map_map. f_equal. f_equal. f_equal. apply map_ext. intros i. apply hnode_flat.
Qed.
Lemma heap_read disc h : length disc = 8%nat ->
  ts_parsed_events (heap_account disc h) = ts_parsed_loop (Z.to_nat (u16 (h_count h))) (hnodes h) (u16 (h_used h)).
Proof.
  intros Hd. unfold ts_parsed_events, heap_account. rewrite (skip_app disc _ 8 0) by lia. rewrite skipn_O, <- heap_flat. unfold ts_decode.
  rewrite <- (app_nil_r (flat idl_EventHeap (heap_idl h))), read_flat by apply heap_idl_shaped. cbn [option_map fst].
  unfold idl_EventHeap, heap_idl. rewrite norm_rec. cbn [norms]. unfold idl_EventHeapHeader. rewrite norm_rec. cbn [norms]. rewrite arr_norm, !map_map.
  replace (map (fun x => ts_hnode (norm idl_EventNode (hnode_idl (h_nodes h (Z.of_nat x))))) (seq 0 600)) with (hnodes h); [reflexivity|].
  unfold hnodes. apply map_ext. intros i. symmetry. apply hnode_read.
Qed.
Lemma hnodes_nth h i : 0 <= i < 600 ->
  nth_error (hnodes h) (Z.to_nat i) = Some (u16 (hn_next (h_nodes h i)), (hd 0 (event_bytes (hn_event (h_nodes h i))), event_bytes (hn_event (h_nodes h i)))).
Proof.
  intros H. unfold hnodes. rewrite nth_error_map. rewrite (nth_error_nth' _ 0%nat) by (rewrite seq_length; lia). cbn [option_map].
  rewrite seq_nth by lia. rewrite Nat.add_0_l, Z2Nat.id by lia. reflexivity.
Qed.
Lemma parsed_ring h n : 0 <= n < 2 ^ 16 -> forall L p, dl (h_nodes h) p (map snd L) n -> (forall s, In s (map snd L) -> 0 <= s < 600) ->
  (forall e s, In (e, s) L -> hn_event (h_nodes h s) = e /\ event_fits e) ->
  ts_parsed_loop (length L) (hnodes h) (hd n (map snd L)) = Some (map fst L).
Proof.
  intros Hn. induction L as [|[e s] L IH]; intros p Hdl Hrg Hev; [reflexivity|]. cbn [length ts_parsed_loop map hd snd fst] in *.
  destruct Hdl as (_ & Hnx & Hdl). pose proof (Hrg s (or_introl eq_refl)) as Hs. rewrite hnodes_nth by exact Hs. rewrite Hnx.
  destruct (Hev e s (or_introl eq_refl)) as [-> He].
  assert (Hr : u16 (hd n (map snd L)) = hd n (map snd L)).
  { unfold u16. apply Z.mod_small. destruct L as [|[e' s'] L]; [exact Hn|]. cbn [map hd snd]. pose proof (Hrg s' (or_intror (or_introl eq_refl))). lia. }
  rewrite Hr. rewrite (IH s Hdl); [|intros s' Hs'; apply Hrg; right; exact Hs'|intros e' s' H'; apply Hev; right; exact H'].
  rewrite event_decodes by exact He. reflexivity.
Qed.
Lemma heap_decodes s disc : run_on_chain s -> length disc = 8%nat -> ts_parsed_events (heap_account disc (w_heap (s_w s))) = Some (waiting (s_w s)).
Proof.
  intros Hr Hd. rewrite heap_read by exact Hd. pose proof (af_events _ (chain_fits _ Hr)) as AE.
  destruct (reachable_queue _ (chain_reachable _ Hr)) as (cl & ct & P & _ & (F & HR) & _). set (h := w_heap (s_w s)) in *.
  unfold waiting in *. set (L := queue_of (s_w s)) in *.
  pose proof (heap_rep_len _ _ _ HR) as Hl. rewrite (hr_count _ _ _ HR), (hr_used _ _ _ HR).
  assert (Rg : forall x, In x (map snd L) -> 0 <= x < 600) by (intros x Hx; apply (hr_range _ _ _ HR), in_or_app; auto).
  assert (Hh : 0 <= hd NO_NODE (map snd L) < 2 ^ 16).
  { destruct L as [|[e x] L']; [cbn; unfold NO_NODE; lia|]. cbn [map hd snd]. pose proof (Rg x (or_introl eq_refl)). lia. }
  unfold u16. rewrite !Z.mod_small by lia. rewrite Nat2Z.id.
  destruct L as [|x L'] eqn:EL; [reflexivity|].
  pose proof (parsed_ring h (hd NO_NODE (map snd (x :: L'))) Hh (x :: L') _ (hr_ring _ _ _ HR) Rg) as G. cbn [map hd] in G |- *. apply G.
  intros e z Hz. split; [exact (hr_ev _ _ _ HR e z Hz)|]. apply AE. change e with (fst (e, z)). exact (in_map fst _ _ Hz).
Qed.

(** ** Accounts *)
Lemma slot_shaped oo : shaped rust_OpenOrder (slot_val oo).
Proof. shape. Qed.
Lemma position_shaped p : shaped rust_Position (position_val p).
Proof. shape. Qed.
Lemma slot_decodes oo : slot_fits oo -> slot_of (norm rust_OpenOrder (slot_val oo)) = Some oo.
Proof.
  intros [H1 H2 H3]. unfold rust_OpenOrder, slot_val. rewrite norm_rec. cbn [norms]. rewrite !nU, nI8; try assumption; try (unfold is_i64; lia).
  all: try (change (256 ^ Z.of_nat 1) with 256; destruct (oo_free oo), (oo_side oo), (oo_tree oo); unfold slot_code, b2z; lia).
  unfold slot_of. rewrite flag_back. destruct oo as [i c p f sd t]; destruct sd, t; reflexivity.
Qed.
Lemma position_decodes p : position_fits p -> position_of (norm rust_Position (position_val p)) = Some p.
Proof.
  intros [H1 H2 H3 H4 H5 H6 H7 H8 H9 H10]. unfold rust_Position, position_val. rewrite norm_rec. cbn [norms].
  rewrite !nU, !nI8; try assumption; try (unfold is_i64; lia). destruct p; reflexivity.
Qed.
Lemma account_shaped market name bump a : length name = 32%nat -> length (a_orders a) = 24%nat ->
  shaped rust_OpenOrdersAccount (account_val market name bump a).
Proof.
  intros Hn Ho. apply shaped_rec. cbn [shapeds]. repeat (split; [exact I|]). split; [rewrite <- Hn; apply shaped_bytes|]. split; [shape|].
  repeat (split; [exact I|]). split; [apply shaped_pad|]. split; [apply position_shaped|]. split; [|exact I]. cbn [shaped]. rewrite map_length. split; [exact Ho|].
  apply Forall_forall. intros x Hx. apply in_map_iff in Hx as (oo & <- & _). apply slot_shaped.
Qed.
Lemma slots_decode l : Forall slot_fits l -> all_some slot_of (map (norm rust_OpenOrder) (map slot_val l)) = Some l.
Proof. induction 1 as [|oo l H _ IH]; [reflexivity|]. cbn [map all_some]. rewrite slot_decodes, IH by exact H. reflexivity. Qed.
Lemma account_reads disc market name bump a : length disc = 8%nat -> length name = 32%nat -> is_address market -> account_fits a ->
  ts_account (account_account disc market name bump a) = Some (market, a).
Proof.
  intros Hd Hn Hm [H1 H2 H3 H4 H5 [H6 H7]]. unfold ts_account, account_account. rewrite (skip_app disc _ 8 0) by lia. rewrite skipn_O.
  change idl_OpenOrdersAccount with rust_OpenOrdersAccount. rewrite decode_ok by (reflexivity || (apply account_shaped; assumption)).
  unfold rust_OpenOrdersAccount, account_val. rewrite norm_rec. cbn [norms]. rewrite arr_norm, (norm_rec [TKey]). cbn [norms].
  rewrite !nK, !(nU 4), !(nU 1 (a_version a)) by assumption. rewrite position_decodes, slots_decode by assumption. destruct a; reflexivity.
Qed.
Lemma account_decodes s k a disc market name bump : run_on_chain s -> acct_get k (w_accts (s_w s)) = Some a ->
  length disc = 8%nat -> length name = 32%nat -> is_address market -> ts_account (account_account disc market name bump a) = Some (market, a).
Proof. intros Hr Ha Hd Hn Hm. apply account_reads; try assumption. exact (af_accounts _ (chain_fits _ Hr) _ _ Ha). Qed.

(** ** The market *)
Lemma market_shaped x m : length (mr_name x) = 16%nat -> shaped rust_Market (market_val x m).
Proof.
  intros Hn. apply shaped_rec. cbn [shapeds].
  repeat match goal with
  | |- True => exact I
  | |- _ /\ _ => split
  | |- shaped (TArr (TU 1) _) (pad _) => apply shaped_pad
  | |- shaped (TArr (TU 1) 16) _ => rewrite <- Hn; apply shaped_bytes
  | |- shaped (TRec _) _ => apply shaped_rec; cbn [shapeds]
  | |- shaped rust_OracleConfig _ => apply shaped_rec; cbn [shapeds]
  | |- shaped (TU _) _ => exact I
  | |- shaped (TI _) _ => exact I
  | |- shaped TKey _ => exact I
  end.
Qed.
Lemma market_reads disc x m : length disc = 8%nat -> rest_fits x -> keys_fit (m_cfg m) -> cfg_sound (m_cfg m) -> market_fits m ->
  ts_market (c_market (m_cfg m)) (market_account disc x m) = Some (x, m).
Proof.
  intros Hd [X1 X2 X3 [X4 X4'] X5 X6 X7 X8 X9 X10] [K1 K2 K3 K4 K5 K6 K7 K8 K9 K10 K11] [C1 C2 C3 C4 _] [M1 M2 M3 M4 M5 M6 M7 M8 M9 M10].
  unfold ts_market, market_account. rewrite (skip_app disc _ 8 0) by lia. rewrite skipn_O. change idl_Market with rust_Market.
  rewrite decode_ok by (reflexivity || (apply market_shaped; assumption)). unfold rust_Market, market_val. rewrite norm_rec. cbn [norms].
  unfold rust_OracleConfig. rewrite !norm_rec. cbn [norms]. rewrite (norm_bytes 16) by exact X4'.
  unfold i64_max, FEES_SCALE in *.
  rewrite !nU, !nK, !nI8; try assumption; try (unfold is_i64; lia).
  rewrite map_map, map_id. destruct x, m as [c]; destruct c; reflexivity.
Qed.
Theorem market_decodes s disc x : run_on_chain s -> length disc = 8%nat -> rest_fits x -> keys_fit (m_cfg (w_mkt (s_w s))) ->
  ts_market (c_market (m_cfg (w_mkt (s_w s)))) (market_account disc x (w_mkt (s_w s))) = Some (x, w_mkt (s_w s)).
Proof.
  intros Hr Hd Hx Hk. apply market_reads; try assumption; [|exact (af_market _ (chain_fits _ Hr))].
  destruct (reachable_inv _ (chain_reachable _ Hr)) as (cl & ct & P & HI). exact (mk_cfg _ (ld_mkt _ _ _ (iv_led _ _ _ _ _ _ HI))).
Qed.

(** ** Finding a market by its mints *)
Lemma market_length disc x m : length disc = 8%nat -> length (mr_name x) = 16%nat -> length (market_account disc x m) = 848%nat.
Proof.
  intros Hd Hn. unfold market_account. rewrite app_length, Hd. rewrite bytes_flat by (reflexivity || (apply market_shaped; assumption)).
  pose proof (flat_length rust_Market _ eq_refl (market_shaped x m Hn)) as L. change (size rust_Market) with 840 in L. lia.
Qed.
Theorem never_found disc x m base quote : length disc = 8%nat -> length (mr_name x) = 16%nat ->
  ts_found_by_mints base quote (market_account disc x m) = false.
Proof.
  intros Hd Hn. unfold ts_found_by_mints. apply andb_false_intro2. unfold memcmp. rewrite (market_length _ _ _ Hd Hn), le_length. reflexivity.
Qed.

(** Where the mints are. *)
Lemma flats_app ts1 : forall l1 ts2 l2, length ts1 = length l1 -> flats (ts1 ++ ts2) (l1 ++ l2) = flats ts1 l1 ++ flats ts2 l2.
Proof. induction ts1 as [|t ts1 IH]; intros [|v l1] ts2 l2 H; try discriminate H; [reflexivity|]. cbn [app flats]. rewrite IH by (injection H; auto). apply app_assoc. Qed.
Lemma le_inj n : forall a b, 0 <= a < 256 ^ Z.of_nat n -> 0 <= b < 256 ^ Z.of_nat n -> le n a = le n b -> a = b.
Proof.
  intros a b Ha Hb E. pose proof (rd_le n a []) as Ra. pose proof (rd_le n b []) as Rb. rewrite E in Ra. rewrite Ra in Rb. injection Rb as Rb.
  rewrite !Z.mod_small in Rb by assumption. exact Rb.
Qed.
Lemma memcmp_here p z x off w : length p = off -> is_address z -> is_address w -> memcmp off (le 32 w) (p ++ le 32 z ++ x) = true <-> z = w.
Proof.
  intros <- Hz Hw. unfold memcmp. rewrite !app_length, !le_length. replace (_ <? _)%nat with false by (symmetry; apply Nat.ltb_ge; lia).
  rewrite (skip_app p _ (length p) 0) by lia. rewrite skipn_O, firstn_app, le_length. replace (32 - 32)%nat with 0%nat by lia. rewrite firstn_O, app_nil_r.
  rewrite firstn_all2 by (rewrite le_length; lia). destruct (list_eq_dec Z.eq_dec (le 32 w) (le 32 z)) as [E|N].
  - split; [|reflexivity]. intros _. symmetry. apply (le_inj 32); [exact Hw|exact Hz|exact E].
  - split; [discriminate|]. intros ->. congruence.
Qed.
Theorem mints_at disc x m base quote : length disc = 8%nat -> length (mr_name x) = 16%nat -> keys_fit (m_cfg m) -> is_address base -> is_address quote ->
  (memcmp 576 (le 32 base) (market_account disc x m) = true <-> c_base_mint (m_cfg m) = base) /\
  (memcmp 608 (le 32 quote) (market_account disc x m) = true <-> c_quote_mint (m_cfg m) = quote).
Proof.
  intros Hd Hn Hk Hb Hq. unfold market_account. pose proof (market_shaped x m Hn) as Sh. rewrite bytes_flat by (reflexivity || assumption).
  unfold rust_Market, market_val in *. rewrite flat_rec. rewrite shaped_rec in Sh.
  match goal with |- context [flats ?ts ?l] =>
    let ts1 := eval cbn [firstn] in (firstn 29 ts) in let ts2 := eval cbn [skipn] in (skipn 29 ts) in
    let l1 := eval cbn [firstn] in (firstn 29 l) in let l2 := eval cbn [skipn] in (skipn 29 l) in
    change (flats ts l) with (flats (ts1 ++ ts2) (l1 ++ l2)); rewrite (flats_app ts1 l1 ts2 l2) by reflexivity;
    assert (L : length (disc ++ flats ts1 l1) = 576%nat);
    [ assert (S1 : shaped (TRec ts1) (VL l1)) by (apply shaped_rec; cbn [shapeds] in Sh |- *; repeat (split; [apply Sh|]); exact I);
      pose proof (flat_length (TRec ts1) (VL l1) eq_refl S1) as L0; rewrite flat_rec in L0; rewrite app_length, Hd;
      match type of L0 with _ = ?s => let v := eval vm_compute in s in change s with v in L0 end; lia
    | set (p := flats ts1 l1) in *; clearbody p ]
  end.
  cbn [flats flat].
  split.
  - rewrite app_assoc. apply memcmp_here; [exact L|exact (kf_base _ Hk)|exact Hb].
  - rewrite app_assoc, (app_assoc _ (le 32 (c_base_mint (m_cfg m)))). apply memcmp_here; [|exact (kf_quote _ Hk)|exact Hq].
    rewrite app_length, L, le_length. reflexivity.
Qed.
