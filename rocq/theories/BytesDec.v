(** Facts about decoding the program's accounts. *)
From Coq Require Import ZArith List Bool Lia ZifyBool.
From Verif Require Import Base Nodes OrderTree BookSide Heap Market OpenOrders Order Book Instructions
  BaseFacts HeapFacts TreeRep TreeOps TreeIter BookSideFacts SpecBook SpecFees SpecOrder OrderFacts SpecLedger SpecSystem
  SpecFit Ts TsFacts Bytes SpecBytes BytesFacts.
Import ListNotations.
Open Scope Z_scope.

(** ** Numbers *)
Lemma nU n z : 0 <= z < 256 ^ Z.of_nat n -> norm (TU n) (VZ z) = VZ z.
Proof. intros H. cbn [norm]. rewrite Z.mod_small by exact H. reflexivity. Qed.
Lemma nK z : is_address z -> norm TKey (VZ z) = VZ z.
Proof. intros H. cbn [norm]. rewrite Z.mod_small; [reflexivity|exact H]. Qed.
Lemma nI n z : (0 < n)%nat -> - 2 ^ (8 * Z.of_nat n - 1) <= z < 2 ^ (8 * Z.of_nat n - 1) -> norm (TI n) (VZ z) = VZ z.
Proof. intros Hn H. cbn [norm]. rewrite signed_back by assumption. reflexivity. Qed.
Lemma nI8 z : is_i64 z -> norm (TI 8) (VZ z) = VZ z.
Proof. intros H. apply nI; [lia|exact H]. Qed.

(** ** All bytes are bytes *)
Fixpoint plain (t : ty) : bool :=
  match t with TBlob _ _ => false | TArr t _ => plain t | TRec ts => forallb plain ts | _ => true end.
Lemma plain_range t : forall v, plain t = true -> Forall is_byte (flat t v).
Proof.
  induction t as [n|n| |n a|t n IH|ts IH] using ty_rect'; intros v P; destruct v as [z|bs|l]; try discriminate P; try apply Forall_nil.
  - apply le_bytes.
  - apply le_bytes.
  - apply (le_bytes 32).
  - cbn [flat]. apply Forall_concat. apply Forall_forall. intros x Hx. apply in_map_iff in Hx as (v & <- & _). apply IH. exact P.
  - rewrite flat_rec. cbn [plain] in P. revert l. induction IH as [|t ts Ht Hts IHts]; intros [|v l]; try apply Forall_nil.
    cbn [forallb] in P. apply andb_prop in P as [P1 P2]. cbn [flats]. apply Forall_app. split; [apply Ht, P1|apply IHts, P2].
Qed.

Ltac shape := apply shaped_rec; cbn [shapeds]; repeat split; try apply shaped_pad.

(** ** Nodes *)
Lemma leaf_shaped l : shaped rust_LeafNode (leaf_val l).
Proof. shape. Qed.
Lemma inner_shaped i : shaped rust_InnerNode (inner_val i).
Proof. shape; repeat (apply Forall_cons; [exact I|]); apply Forall_nil. Qed.
Lemma free_shaped tag next : shaped rust_FreeNode (free_val tag next).
Proof. shape. Qed.
Lemma zeros_length n : length (zeros n) = Z.to_nat n.
Proof. apply repeat_length. Qed.
Lemma node_flat n : exists rest tag, node_bytes n = tag :: rest /\ length rest = 87%nat /\ Forall is_byte (node_bytes n) /\
  match n with NUninit => tag = 0 | NInner _ => tag = 1 | NLeaf _ => tag = 2 | NFree _ => tag = 3 | NLastFree _ => tag = 4 end.
Proof.
  assert (G : forall t tag vs, shaped (TRec (TU 1 :: t)) (VL (VZ tag :: vs)) ->
    packed (TRec (TU 1 :: t)) = true -> plain (TRec (TU 1 :: t)) = true -> size (TRec (TU 1 :: t)) = 88 -> 0 <= tag < 256 -> exists rest, bytes (TRec (TU 1 :: t)) (VL (VZ tag :: vs)) = tag :: rest /\ length rest = 87%nat /\
      Forall is_byte (bytes (TRec (TU 1 :: t)) (VL (VZ tag :: vs)))).
  { intros t tag vs Sh P Pl Sz Ht. rewrite bytes_flat by assumption. pose proof (flat_length _ _ P Sh) as L. pose proof (plain_range _ (VL (VZ tag :: vs)) Pl) as R.
    rewrite flat_rec in *. cbn [flats flat le app] in *. rewrite Z.mod_small in * by exact Ht. eexists. split; [reflexivity|]. split; [|exact R].
    rewrite Sz in L. cbn [length] in L. lia. }
  destruct n as [|i|l|next|next]; cbn [node_bytes].
  - exists (repeat 0 87), 0. split; [reflexivity|]. split; [reflexivity|]. split; [|reflexivity]. apply Forall_forall. intros x Hx. apply repeat_spec in Hx. subst x. unfold is_byte. lia.
  - destruct (G _ 1 _ (inner_shaped i) eq_refl eq_refl eq_refl ltac:(lia)) as (rest & E & L & R). exists rest, 1. auto.
  - destruct (G _ 2 _ (leaf_shaped l) eq_refl eq_refl eq_refl ltac:(lia)) as (rest & E & L & R). exists rest, 2. auto.
  - destruct (G _ 3 _ (free_shaped 3 next) eq_refl eq_refl eq_refl ltac:(lia)) as (rest & E & L & R). exists rest, 3. auto.
  - destruct (G _ 4 _ (free_shaped 4 next) eq_refl eq_refl eq_refl ltac:(lia)) as (rest & E & L & R). exists rest, 4. auto.
Qed.
Lemma node_length n : length (node_bytes n) = 88%nat.
Proof. destruct (node_flat n) as (rest & tag & -> & L & _). cbn [length]. lia. Qed.

Lemma decode_ok t v : packed t = true -> shaped t v -> ts_decode t (bytes t v) = Some (norm t v).
Proof. intros P S. unfold ts_decode. rewrite bytes_flat by assumption. rewrite <- (app_nil_r (flat t v)), read_flat by exact S. reflexivity. Qed.

Lemma leaf_decodes l : leaf_fits l -> ts_leaf (node_bytes (NLeaf l)) = Some l.
Proof.
  intros [H1 H2 H3 H4 H5 H6 H7 H8]. unfold ts_leaf. cbn [node_bytes]. change idl_LeafNode with rust_LeafNode.
  rewrite decode_ok by (reflexivity || apply leaf_shaped). unfold rust_LeafNode, leaf_val. rewrite norm_rec. cbn [norms]. rewrite ?norm_pad.
  unfold is_u16, is_u128, is_u64 in *.
  rewrite !nU, nK, !nI8; try assumption; try (unfold is_i64; lia); try (change (256 ^ Z.of_nat 1) with 256; lia); try (change (256 ^ Z.of_nat 8) with (2 ^ 64); lia).
  destruct l; reflexivity.
Qed.
Record inner_fits (i : inner) : Prop := {
  if_prefix : is_u32 (in_prefix i); if_key : is_u128 (in_key i); if_c0 : is_u32 (in_c0 i); if_c1 : is_u32 (in_c1 i);
  if_e0 : is_u64 (in_e0 i); if_e1 : is_u64 (in_e1 i) }.
Lemma inner_decodes i : inner_fits i -> ts_inner (node_bytes (NInner i)) = Some i.
Proof.
  intros [H1 H2 H3 H4 H5 H6]. unfold ts_inner. cbn [node_bytes]. change idl_InnerNode with rust_InnerNode.
  rewrite decode_ok by (reflexivity || apply inner_shaped). unfold rust_InnerNode, inner_val. rewrite norm_rec. cbn [norms]. rewrite ?norm_pad.
  change (norm (TArr (TU 4) 2) (VL [VZ (in_c0 i); VZ (in_c1 i)])) with (VL [norm (TU 4) (VZ (in_c0 i)); norm (TU 4) (VZ (in_c1 i))]).
  change (norm (TArr (TU 8) 2) (VL [VZ (in_e0 i); VZ (in_e1 i)])) with (VL [norm (TU 8) (VZ (in_e0 i)); norm (TU 8) (VZ (in_e1 i))]).
  rewrite !nU by assumption. destruct i; reflexivity.
Qed.
Definition node_fits (n : node) : Prop := match n with NInner i => inner_fits i | NLeaf l => leaf_fits l | _ => True end.
Definition node_seen (n : node) : node := match n with NInner _ | NLeaf _ => n | _ => NUninit end.
Lemma node_decodes n : node_fits n -> ts_node (hd 0 (node_bytes n)) (node_bytes n) = node_seen n.
Proof.
  intros H. destruct (node_flat n) as (rest & tag & E & _ & _ & T). assert (E1 : hd 0 (node_bytes n) = tag) by (rewrite E; reflexivity). rewrite E1. unfold ts_node.
  destruct n as [|i|l|next|next]; subst tag; cbn [node_seen]; try reflexivity.
  - change (1 =? 1) with true. cbv iota. rewrite inner_decodes by exact H. reflexivity.
  - change (2 =? 1) with false. change (2 =? 2) with true. cbv iota. rewrite leaf_decodes by exact H. reflexivity.
Qed.

(** ** A book side *)
Definition slices (b : bookside) : list (Z * list Z) :=
  map (fun i => let bs := node_bytes (a_nodes (bs_nodes b) (Z.of_nat i)) in (hd 0 bs, bs)) (seq 0 1024).
Definition u32 (z : Z) : Z := z mod 2 ^ 32.
(** What is decoded: numbers reduced to their fields, and the nodes. *)
Definition side_seen (b : bookside) : bookside :=
  mkBookside (mkRoot (u32 (r_node (bs_fixed b))) (u32 (r_count (bs_fixed b)))) (mkRoot (u32 (r_node (bs_pegged b))) (u32 (r_count (bs_pegged b))))
    (mkArena (a_side (bs_nodes b)) (u32 (a_bump (bs_nodes b))) (u32 (a_flen (bs_nodes b))) (u32 (a_fhead (bs_nodes b))) (ts_nodes (slices b))).

Definition node_list (b : bookside) : list Z := concat (map (fun i => node_bytes (a_nodes (bs_nodes b) (Z.of_nat i))) (seq 0 1024)).
Definition root_flat (r : root) : list Z := le 4 (r_node r) ++ le 4 (r_count r).
Definition gap (n : nat) : list Z := flat (TArr (TU 1) n) (pad n).
Lemma gap_length n : length (gap n) = n.
Proof. pose proof (flat_length (TArr (TU 1) n) (pad n) eq_refl (shaped_pad n)) as H. fold (gap n) in H. cbn [size] in H. lia. Qed.
Definition no_roots : list Z := flat (TArr rust_OrderTreeRoot 4) (VL (repeat (root_val (mkRoot 0 0)) 4)).
Lemma nodes_shaped (f : nat -> node) n : shaped (TArr (TBlob 88 8) n) (VL (map (fun i => VB (node_bytes (f i))) (seq 0 n))).
Proof.
  cbn [shaped]. rewrite map_length, seq_length. split; [reflexivity|]. apply Forall_forall. intros x Hx. apply in_map_iff in Hx as (i & <- & _).
  apply node_length.
Qed.
Lemma root_shaped r : shaped rust_OrderTreeRoot (root_val r).
Proof. shape. Qed.
Lemma side_shaped b : shaped rust_BookSide (side_val b).
Proof.
  shape.
  - repeat (apply Forall_cons; [apply root_shaped|]). apply Forall_nil.
  - cbn [repeat]. repeat (apply Forall_cons; [apply root_shaped|]). apply Forall_nil.
  - exact (proj2 (nodes_shaped _ 1024)).
Qed.
Lemma nodes_flat (f : nat -> node) n l : flat (TArr (TBlob 88 8) n) (VL (map (fun i => VB (node_bytes (f i))) l)) = concat (map (fun i => node_bytes (f i)) l).
Proof. cbn [flat]. rewrite map_map. reflexivity. Qed.
Lemma side_flat b : bytes rust_BookSide (side_val b) =
  root_flat (bs_fixed b) ++ root_flat (bs_pegged b) ++ no_roots ++ gap 256 ++
  le 1 (side_code (a_side (bs_nodes b))) ++ gap 3 ++ le 4 (a_bump (bs_nodes b)) ++ le 4 (a_flen (bs_nodes b)) ++ le 4 (a_fhead (bs_nodes b)) ++
  gap 512 ++ node_list b.
Proof.
  rewrite bytes_flat by (reflexivity || apply side_shaped). unfold rust_BookSide, side_val. rewrite flat_rec. cbn [flats]. unfold rust_OrderTreeNodes. rewrite flat_rec.
  cbn [flats]. fold (gap 256) (gap 3) (gap 512) no_roots. rewrite nodes_flat. fold (node_list b).
  change (flat (TArr rust_OrderTreeRoot 2) (VL [root_val (bs_fixed b); root_val (bs_pegged b)])) with
    (((le 4 (r_node (bs_fixed b)) ++ le 4 (r_count (bs_fixed b)) ++ []) ++ (le 4 (r_node (bs_pegged b)) ++ le 4 (r_count (bs_pegged b)) ++ []) ++ [])).
  unfold root_flat. cbn [flat]. rewrite ?app_nil_r, <- ?app_assoc. reflexivity.
Qed.

Lemma skip_app {A} (p x : list A) off k : off = (length p + k)%nat -> skipn off (p ++ x) = skipn k x.
Proof. intros ->. rewrite skipn_app. rewrite skipn_all2 by lia. replace (length p + k - length p)%nat with k by lia. reflexivity. Qed.
Lemma rd_at_skip p x off n k : off = (length p + k)%nat -> rd_at off n (p ++ x) = rd_at k n x.
Proof. intros H. unfold rd_at. rewrite (skip_app p x off k H). reflexivity. Qed.
Lemma rd_at_here n z x : rd_at 0 n (le n z ++ x) = Some (z mod 256 ^ Z.of_nat n).
Proof. unfold rd_at. cbn [skipn]. rewrite rd_le. reflexivity. Qed.
Lemma slice_ok n r : ts_slice (node_bytes n ++ r) = Some ((hd 0 (node_bytes n), node_bytes n), r).
Proof.
  unfold ts_slice. pose proof (rd_bytes_app (node_bytes n) r) as E. rewrite node_length in E. rewrite E.
  destruct (node_flat n) as (rest & tag & -> & _). reflexivity.
Qed.
Lemma side_of_code_ok s : side_of_code (side_code s mod 256 ^ Z.of_nat 1) = s.
Proof. destruct s; reflexivity. Qed.

Section Buffer.
Context (disc : list Z) (b : bookside) (Hd : length disc = 8%nat).
Let a := bs_nodes b.
Lemma buffer_read : ts_side_of_buffer (side_account disc b) = Some (side_seen b).
Proof using Hd.
  unfold side_account. rewrite side_flat. unfold root_flat. rewrite <- !app_assoc.
  assert (Lr : length no_roots = 32%nat) by reflexivity.
  unfold ts_side_of_buffer.
  assert (R1 : forall x z, rd_at 8 4 (disc ++ le 4 z ++ x) = Some (u32 z)) by (intros; rewrite (rd_at_skip disc _ 8 4 0) by lia; apply rd_at_here).
  rewrite R1. clear R1.
  assert (R2 : forall x z1 z, rd_at 12 4 (disc ++ le 4 z1 ++ le 4 z ++ x) = Some (u32 z)).
  { intros. rewrite (rd_at_skip disc _ 12 4 4) by lia. rewrite (rd_at_skip (le 4 z1) _ 4 4 0) by (rewrite le_length; lia). apply rd_at_here. }
  rewrite R2. clear R2.
  assert (R3 : forall x z1 z2 z, rd_at 16 4 (disc ++ le 4 z1 ++ le 4 z2 ++ le 4 z ++ x) = Some (u32 z)).
  { intros. rewrite (rd_at_skip disc _ 16 4 8) by lia. rewrite (rd_at_skip (le 4 z1) _ 8 4 4) by (rewrite le_length; lia).
    rewrite (rd_at_skip (le 4 z2) _ 4 4 0) by (rewrite le_length; lia). apply rd_at_here. }
  rewrite R3. clear R3.
  assert (R4 : forall x z1 z2 z3 z, rd_at 20 4 (disc ++ le 4 z1 ++ le 4 z2 ++ le 4 z3 ++ le 4 z ++ x) = Some (u32 z)).
  { intros. rewrite (rd_at_skip disc _ 20 4 12) by lia. rewrite (rd_at_skip (le 4 z1) _ 12 4 8) by (rewrite le_length; lia).
    rewrite (rd_at_skip (le 4 z2) _ 8 4 4) by (rewrite le_length; lia). rewrite (rd_at_skip (le 4 z3) _ 4 4 0) by (rewrite le_length; lia). apply rd_at_here. }
  rewrite R4. clear R4.
  set (z1 := r_node (bs_fixed b)). set (z2 := r_count (bs_fixed b)). set (z3 := r_node (bs_pegged b)). set (z4 := r_count (bs_pegged b)).
  set (p := disc ++ le 4 z1 ++ le 4 z2 ++ le 4 z3 ++ le 4 z4 ++ no_roots ++ gap 256).
  assert (Lp : length p = 312%nat) by (unfold p; rewrite !app_length, !le_length, gap_length, Lr, Hd; reflexivity).
  match goal with |- context [rd_at 312 1 ?d] => assert (Ed : d = p ++ le 1 (side_code (a_side (bs_nodes b))) ++ gap 3 ++ le 4 (a_bump (bs_nodes b)) ++
      le 4 (a_flen (bs_nodes b)) ++ le 4 (a_fhead (bs_nodes b)) ++ gap 512 ++ node_list b) by (unfold p; rewrite <- !app_assoc; reflexivity) end.
  rewrite Ed. clear Ed. clearbody p.
  rewrite (rd_at_skip p _ 312 1 0) by (rewrite Lp; reflexivity). rewrite rd_at_here.
  rewrite (rd_at_skip p _ 316 4 4) by (rewrite Lp; reflexivity). rewrite (rd_at_skip (le 1 _) _ 4 4 3) by (rewrite le_length; reflexivity).
  rewrite (rd_at_skip (gap 3) _ 3 4 0) by (rewrite gap_length; reflexivity). rewrite rd_at_here.
  rewrite (rd_at_skip p _ 320 4 8) by (rewrite Lp; reflexivity). rewrite (rd_at_skip (le 1 _) _ 8 4 7) by (rewrite le_length; reflexivity).
  rewrite (rd_at_skip (gap 3) _ 7 4 4) by (rewrite gap_length; reflexivity). rewrite (rd_at_skip (le 4 _) _ 4 4 0) by (rewrite le_length; reflexivity). rewrite rd_at_here.
  rewrite (rd_at_skip p _ 324 4 12) by (rewrite Lp; reflexivity). rewrite (rd_at_skip (le 1 _) _ 12 4 11) by (rewrite le_length; reflexivity).
  rewrite (rd_at_skip (gap 3) _ 11 4 8) by (rewrite gap_length; reflexivity). rewrite (rd_at_skip (le 4 _) _ 8 4 4) by (rewrite le_length; reflexivity).
  rewrite (rd_at_skip (le 4 _) _ 4 4 0) by (rewrite le_length; reflexivity). rewrite rd_at_here.
  rewrite (skip_app p _ 840 528) by (rewrite Lp; reflexivity). rewrite (skip_app (le 1 _) _ 528 527) by (rewrite le_length; reflexivity).
  rewrite (skip_app (gap 3) _ 527 524) by (rewrite gap_length; reflexivity). rewrite (skip_app (le 4 _) _ 524 520) by (rewrite le_length; reflexivity).
  rewrite (skip_app (le 4 _) _ 520 516) by (rewrite le_length; reflexivity). rewrite (skip_app (le 4 _) _ 516 512) by (rewrite le_length; reflexivity).
  rewrite (skip_app (gap 512) _ 512 0) by (rewrite gap_length; reflexivity). rewrite skipn_O. unfold node_list.
  pose proof (rd_many_ok ts_slice (fun i => let bs := node_bytes (a_nodes (bs_nodes b) (Z.of_nat i)) in (hd 0 bs, bs))
    (fun i => node_bytes (a_nodes (bs_nodes b) (Z.of_nat i))) (seq 0 1024) (fun x r _ => slice_ok _ r) []) as E.
  rewrite seq_length, app_nil_r in E. rewrite E. clear E. fold (slices b). rewrite side_of_code_ok. reflexivity.
Qed.

(** Through anchor's coder: the same nodes. *)
Definition any_val (bs : list Z) : val := VL [VZ (hd 0 bs); VL (map VZ (tl bs))].
Lemma any_flat n bs : bs <> [] -> Forall is_byte bs -> flat (TRec [TU 1; TArr (TU 1) n]) (any_val bs) = bs.
Proof.
  intros N H. destruct H as [|x l Hx Hl]; [contradiction|]. unfold any_val. rewrite flat_rec. cbn [flats hd tl]. rewrite flat_bytes by exact Hl. rewrite app_nil_r.
  cbn [flat le app]. rewrite Z.mod_small by exact Hx. reflexivity.
Qed.
Lemma any_shaped n bs : length bs = S n -> shaped (TRec [TU 1; TArr (TU 1) n]) (any_val bs).
Proof.
  intros L. destruct bs as [|x l]; [discriminate L|]. injection L as <-. unfold any_val. cbn [hd tl]. apply shaped_rec. cbn [shapeds].
  split; [exact I|]. split; [|exact I]. apply shaped_bytes.
Qed.
Lemma any_norm n bs : bs <> [] -> Forall is_byte bs -> norm (TRec [TU 1; TArr (TU 1) n]) (any_val bs) = any_val bs.
Proof.
  intros N H. destruct H as [|x l Hx Hl]; [contradiction|]. unfold any_val. rewrite norm_rec. cbn [norms hd tl]. rewrite norm_bytes by exact Hl.
  rewrite nU by exact Hx. reflexivity.
Qed.
Lemma slice_any bs : bs <> [] -> slice_of (any_val bs) = (hd 0 bs, bs).
Proof. destruct bs as [|x l]; [contradiction|]. intros _. unfold any_val, slice_of. cbn [hd tl]. rewrite map_map, map_id. reflexivity. Qed.

Definition side_idl : val :=
  VL [VL [root_val (bs_fixed b); root_val (bs_pegged b)]; VL (repeat (root_val (mkRoot 0 0)) 4); pad 256;
      VL [VZ (side_code (a_side a)); pad 3; VZ (a_bump a); VZ (a_flen a); VZ (a_fhead a); pad 512;
          VL (map (fun i => any_val (node_bytes (a_nodes a (Z.of_nat i)))) (seq 0 1024))]].
Lemma node_nonempty n : node_bytes n <> [].
Proof. destruct (node_flat n) as (rest & tag & -> & _). discriminate. Qed.
Lemma node_range n : Forall is_byte (node_bytes n).
Proof. destruct (node_flat n) as (rest & tag & _ & _ & H & _). exact H. Qed.
Lemma side_idl_shaped : shaped idl_BookSide side_idl.
Proof.
  shape.
  - repeat (apply Forall_cons; [apply root_shaped|]). apply Forall_nil.
  - cbn [repeat]. repeat (apply Forall_cons; [apply root_shaped|]). apply Forall_nil.
  - apply Forall_forall. intros x Hx. apply in_map_iff in Hx as (i & <- & _). apply any_shaped, node_length.
Qed.
Lemma any_nodes_flat (f : nat -> node) n l :
  flat (TArr idl_AnyNode n) (VL (map (fun i => any_val (node_bytes (f i))) l)) = concat (map (fun i => node_bytes (f i)) l).
Proof.
  cbn [flat]. rewrite map_map. f_equal. apply map_ext. intros i. apply (any_flat 87); [apply node_nonempty|apply node_range].
Qed.
Lemma side_idl_flat : flat idl_BookSide side_idl = bytes rust_BookSide (side_val b).
Proof.
  rewrite bytes_flat by (reflexivity || apply side_shaped). unfold rust_BookSide, side_val, idl_BookSide, side_idl. rewrite !flat_rec. cbn [flats].
  unfold rust_OrderTreeNodes, idl_OrderTreeNodes. rewrite !flat_rec. cbn [flats]. rewrite nodes_flat, any_nodes_flat. reflexivity.
Qed.
Lemma any_nodes_norm (f : nat -> node) n l :
  norm (TArr idl_AnyNode n) (VL (map (fun i => any_val (node_bytes (f i))) l)) = VL (map (fun i => any_val (node_bytes (f i))) l).
Proof.
  cbn [norm]. rewrite map_map. f_equal. apply map_ext. intros i. apply (any_norm 87); [apply node_nonempty|apply node_range].
Qed.
Lemma anchor_read : ts_side_of_anchor (side_account disc b) = Some (side_seen b).
Proof using Hd.
  unfold ts_side_of_anchor, side_account. rewrite (skip_app disc _ 8 0) by lia. rewrite skipn_O, <- side_idl_flat. unfold ts_decode.
  rewrite <- (app_nil_r (flat idl_BookSide side_idl)), read_flat by exact side_idl_shaped. cbn [option_map fst].
  unfold idl_BookSide, side_idl. rewrite norm_rec. cbn [norms]. rewrite ?norm_pad. unfold idl_OrderTreeNodes. rewrite norm_rec. cbn [norms]. rewrite ?norm_pad, any_nodes_norm.
  change (norm (TArr idl_OrderTreeRoot 2) (VL [root_val (bs_fixed b); root_val (bs_pegged b)])) with
    (VL [VL [VZ (u32 (r_node (bs_fixed b))); VZ (u32 (r_count (bs_fixed b)))]; VL [VZ (u32 (r_node (bs_pegged b))); VZ (u32 (r_count (bs_pegged b)))]]).
  cbv beta iota. rewrite map_map.
  replace (map (fun x => slice_of (any_val (node_bytes (a_nodes a (Z.of_nat x))))) (seq 0 1024)) with (slices b).
  2:{ unfold slices. apply map_ext. intros i. rewrite slice_any by apply node_nonempty. reflexivity. }
  cbn [norm]. rewrite side_of_code_ok. reflexivity.
Qed.
End Buffer.
