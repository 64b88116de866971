(** Properties C01-C09: order ids, order trees and book sides.
    Vocabulary: SpecBook.v.  Each theorem is followed by a concrete case. *)
From Coq Require Import ZArith List Bool Permutation Sorted.
From Verif Require Import Base Nodes OrderTree BookSide SpecBook BookSpecProofs SpecIter IterFacts.
Import ListNotations.
Open Scope Z_scope.

(** C01: comparing two ids compares price first, then age. *)
Theorem C01_limit_ids_order s p1 n1 d1 p2 n2 d2 :
  is_i64 p1 -> is_i64 p2 -> is_u64 n1 -> is_u64 n2 ->
  fixed_price_data p1 = Ok d1 -> fixed_price_data p2 = Ok d2 ->
  (better_id s (new_node_key s d1 n1) (new_node_key s d2 n2) <-> better_order s p1 n1 p2 n2).
Proof. exact (fixed_key_order s p1 n1 d1 p2 n2 d2). Qed.
Print Assumptions C01_limit_ids_order.

Theorem C01_pegged_ids_order s oracle o1 n1 o2 n2 :
  is_i64 o1 -> is_i64 o2 -> is_u64 n1 -> is_u64 n2 ->
  (better_id s (new_node_key s (oracle_pegged_price_data o1) n1)
               (new_node_key s (oracle_pegged_price_data o2) n2)
   <-> better_order s (oracle + o1) n1 (oracle + o2) n2).
Proof. exact (pegged_key_order s oracle o1 n1 o2 n2). Qed.
Print Assumptions C01_pegged_ids_order.

Example C01_case : fixed_price_data 100 = Ok 100 /\
  better_id Bid (new_node_key Bid 100 4) (new_node_key Bid 100 9) /\
  better_id Ask (new_node_key Ask (oracle_pegged_price_data (-3)) 9)
                (new_node_key Ask (oracle_pegged_price_data 2) 4).
Proof. vm_compute. auto. Qed.

(** C02: the price data stored in an id decodes to the price or offset it came from. *)
Theorem C02_limit_price_round_trip s p n : is_i64 p -> is_u64 n -> 1 <= p ->
  exists d, fixed_price_data p = Ok d /\
    forall l, lf_key l = new_node_key s d n -> fixed_price_lots (leaf_price_data l) = Ok p.
Proof. exact (fixed_round_trip s p n). Qed.
Print Assumptions C02_limit_price_round_trip.

Theorem C02_low_price_rejected p : p < 1 -> exists e, fixed_price_data p = Err e.
Proof. exact (fixed_reject p). Qed.
Print Assumptions C02_low_price_rejected.

Theorem C02_peg_offset_round_trip s off n : is_i64 off -> is_u64 n ->
  forall l, lf_key l = new_node_key s (oracle_pegged_price_data off) n ->
    oracle_pegged_price_offset (leaf_price_data l) = off.
Proof. exact (pegged_round_trip s off n). Qed.
Print Assumptions C02_peg_offset_round_trip.

Theorem C02_peg_data_monotone o1 o2 : is_i64 o1 -> is_i64 o2 ->
  (o1 < o2 <-> oracle_pegged_price_data o1 < oracle_pegged_price_data o2).
Proof. exact (pegged_mono o1 o2). Qed.
Print Assumptions C02_peg_data_monotone.

Example C02_case : is_i64 (- 2 ^ 63) /\
  oracle_pegged_price_offset (leaf_price_data (sample Bid OraclePegged (- 2 ^ 63) 77 1)) = - 2 ^ 63 /\
  fixed_price_lots (leaf_price_data (sample Bid Fixed (2 ^ 63 - 1) 77 1)) = Ok (2 ^ 63 - 1).
Proof. repeat split; vm_compute; congruence. Qed.

(** C03: whatever the history of insertions and removals, the two trees answer as two finite
    maps from ids to orders and list their contents best first. *)
Theorem C03_tree_is_sorted_map s ops bs outs :
  Forall op_ok ops -> book_run (bookside_init s) ops = (bs, outs) ->
  spec_outs spec_empty ops outs /\
  forall t, exists L, lists bs t L /\
    StronglySorted (fun x y => better_id s (lf_key x) (lf_key y)) L /\
    forall k l, spec_run spec_empty ops outs t k = Some l <-> In l L /\ lf_key l = k.
Proof. exact (tree_is_sorted_map s ops bs outs). Qed.
Print Assumptions C03_tree_is_sorted_map.

Definition C03_ops : list book_op :=
  [OpInsert Fixed (sample Bid Fixed 10 1 5); OpInsert Fixed (sample Bid Fixed 12 2 6);
   OpInsert OraclePegged (sample Bid OraclePegged (-4) 3 7); OpInsert Fixed (sample Bid Fixed 12 2 8);
   OpRemove Fixed (lf_key (sample Bid Fixed 10 1 5)); OpRemove Fixed 3].
Example C03_case : Forall op_ok C03_ops /\
  snd (book_run (bookside_init Bid) C03_ops) =
    [RInserted None; RInserted None; RInserted None; RInserted (Some (sample Bid Fixed 12 2 6));
     RRemoved (Some (sample Bid Fixed 10 1 5)); RRemoved None].
Proof. split; [repeat constructor; vm_compute; discriminate|vm_compute; reflexivity]. Qed.

(** C04: every node of the pool is in exactly one place; the free list is intact and its
    length exact. *)
Theorem C04_pool_partition s bs : book_reach s bs -> exists F,
  free_chain (bs_nodes bs) (a_fhead (bs_nodes bs)) F /\
  a_flen (bs_nodes bs) = Z.of_nat (length F) /\
  forall h, 0 <= h < 1024 ->
    one_of (tree_node bs Fixed h) (tree_node bs OraclePegged h) (In h F) (a_bump (bs_nodes bs) <= h).
Proof. exact (pool_partition s bs). Qed.
Print Assumptions C04_pool_partition.

Theorem C04_insert_succeeds s bs t l :
  book_reach s bs -> is_u128 (lf_key l) -> is_full (bs_nodes bs) = false ->
  exists bs' h old, bs_insert_leaf bs t l = Ok (bs', h, old).
Proof. exact (insert_succeeds s bs t l). Qed.
Print Assumptions C04_insert_succeeds.

Example C04_case : book_reach Ask skip_book /\ is_full (bs_nodes skip_book) = false /\
  a_bump (bs_nodes skip_book) = 5.
Proof. split; [exact skip_book_reach|vm_compute; auto]. Qed.

(** C05: dropping one expired order. *)
Theorem C05_expired_found s bs t now : book_reach s bs -> is_u64 now ->
  exists bs' old, bs_remove_one_expired bs t now = Ok (bs', old) /\
    match old with
    | Some x => exists u L L', lists bs u L /\ lists bs' u L' /\ without x L L' /\
        (forall M, lists bs (other u) M -> lists bs' (other u) M) /\
        gone_before now x /\
        (forall l, In l L -> lf_tif l <> 0 -> lf_ts x + lf_tif x <= lf_ts l + lf_tif l) /\
        (u = other t -> forall M l, lists bs t M -> In l M -> ~ gone_before now l)
    | None => (forall u L, lists bs u L -> lists bs' u L) /\
        (forall u L l, lists bs u L -> In l L -> ~ gone_before now l)
    end.
Proof. exact (expired_found s bs t now). Qed.
Print Assumptions C05_expired_found.

Definition with_tif (l : leaf) (ts tif : Z) : leaf :=
  mkLeaf (lf_slot l) tif (lf_key l) (lf_owner l) (lf_qty l) ts (lf_peg_limit l) (lf_client_id l).
Definition C05_book : bookside :=
  fst (book_run (bookside_init Bid)
    [OpInsert Fixed (with_tif (sample Bid Fixed 10 1 5) 100 50);
     OpInsert Fixed (with_tif (sample Bid Fixed 12 2 6) 100 30);
     OpInsert Fixed (with_tif (sample Bid Fixed 11 3 6) 100 0)]).
Example C05_case : book_reach Bid C05_book /\
  match bs_remove_one_expired C05_book Fixed 160 with
  | Ok (_, old) => old = Some (with_tif (sample Bid Fixed 12 2 6) 100 30)
  | Err _ => False
  end.
Proof.
  split; [apply book_run_reach; [constructor|repeat constructor; vm_compute; discriminate]|vm_compute; reflexivity].
Qed.

(** C06: iterating one tree. *)
Theorem C06_tree_listing s bs t : book_reach s bs -> exists L, lists bs t L /\
  StronglySorted (fun x y => better_id s (lf_key x) (lf_key y)) L /\
  Z.of_nat (length L) = r_count (bs_root bs t) /\
  forall l, In l L <-> exists h, tree_node bs t h /\ a_nodes (bs_nodes bs) h = NLeaf l.
Proof. exact (tree_listing s bs t). Qed.
Print Assumptions C06_tree_listing.

Example C06_case : r_count (bs_root C05_book Fixed) = 3 /\
  lists C05_book Fixed [with_tif (sample Bid Fixed 12 2 6) 100 30; with_tif (sample Bid Fixed 11 3 6) 100 0;
                        with_tif (sample Bid Fixed 10 1 5) 100 50].
Proof. split; [reflexivity|]. eexists. split; [vm_compute; reflexivity|vm_compute; reflexivity]. Qed.

(** C07: iterating a whole book side when every pegged order is in range. *)
Theorem C07_iteration_priority s bs now oracle : book_reach s bs ->
  (forall L l, lists bs OraclePegged L -> In l L -> in_price_range oracle l) ->
  exists items LF LP, iter_all bs now (Some oracle) = Ok items /\
    lists bs Fixed LF /\ lists bs OraclePegged LP /\
    Permutation (map (fun i => (im_tree i, im_leaf i)) items)
                (map (pair Fixed) LF ++ map (pair OraclePegged) LP) /\
    Forall (fun i => im_price i = exact_price (im_tree i) oracle (im_leaf i)) items /\
    StronglySorted (listed_before s) items.
Proof. exact (iteration_priority s bs now oracle). Qed.
Print Assumptions C07_iteration_priority.

Definition C07_book : bookside :=
  fst (book_run (bookside_init Ask)
    [OpInsert Fixed (sample Ask Fixed 103 1 5); OpInsert OraclePegged (sample Ask OraclePegged 3 2 5);
     OpInsert Fixed (sample Ask Fixed 99 3 5); OpInsert OraclePegged (sample Ask OraclePegged (-1) 4 5)]).
Example C07_case : book_reach Ask C07_book /\
  (forall L l, lists C07_book OraclePegged L -> In l L -> in_price_range 100 l) /\
  match iter_all C07_book 200 (Some 100) with
  | Ok items => map (fun i => (im_price i, seq_of Ask (im_leaf i))) items = [(99, 3); (99, 4); (103, 1); (103, 2)]
  | Err _ => False
  end.
Proof.
  split; [apply book_run_reach; [constructor|repeat constructor; vm_compute; discriminate]|].
  split; [|vm_compute; reflexivity].
  intros L l (items & E & <-) H. vm_compute in E. injection E as <-.
  cbn [map snd In] in H. destruct H as [<-|[<-|[]]]; split; vm_compute; congruence.
Qed.

(** C08: the full claim is false. Three pegged asks 100 below, 5 below and 10 above the oracle
    price 50: the first is out of range, and the iteration then loses the third, which is
    live, in range and without peg limit. *)
Theorem C08_iteration_misses_none_refuted : exists bs now oracle l items,
  book_reach Ask bs /\ (exists L, lists bs OraclePegged L /\ In l L) /\
  live now l /\ in_price_range oracle l /\ lf_peg_limit l = -1 /\
  iter_all bs now (Some oracle) = Ok items /\ forall i, In i items -> im_leaf i <> l.
Proof. exact skip_misses. Qed.
Print Assumptions C08_iteration_misses_none_refuted.

(** What holds for every oracle price: the iteration cannot fail, limit orders are never
    missed, nothing is invented or listed twice, and what is listed is in priority order.
    Missing: pegged orders when some pegged order is out of range. *)
Theorem C08_iteration_partial s bs now oracle : book_reach s bs ->
  exists items LF LP, iter_all bs now oracle = Ok items /\
    lists bs Fixed LF /\ lists bs OraclePegged LP /\
    (forall l, In l LF -> exists i, In i items /\ im_tree i = Fixed /\ im_leaf i = l) /\
    (forall i, In i items -> In (im_leaf i) (match im_tree i with Fixed => LF | OraclePegged => LP end)) /\
    NoDup (map (fun i => (im_tree i, lf_key (im_leaf i))) items) /\
    StronglySorted (listed_before s) items.
Proof. exact (iteration_partial s bs now oracle). Qed.
Print Assumptions C08_iteration_partial.

Example C08_case : book_reach Ask skip_book /\
  match iter_all skip_book 200 (Some 50) with Ok items => length items = 1%nat | Err _ => False end.
Proof. split; [exact skip_book_reach|vm_compute; reflexivity]. Qed.

(** Exactly which pegged orders are listed ([pegged_listed], SpecIter.v), for any oracle price.
    [A], [B] and [C] are the pegged orders, best first: those out of range ahead of the ones in
    range, those in range, and those out of range behind them. *)
Theorem C08_pegged_listed_partial s bs now oracle : book_reach s bs ->
  exists items LF A B C, iter_all bs now (Some oracle) = Ok items /\
    lists bs Fixed LF /\ lists bs OraclePegged (A ++ B ++ C) /\
    StronglySorted (fun x y => better_id s (lf_key x) (lf_key y)) LF /\
    StronglySorted (fun x y => better_id s (lf_key x) (lf_key y)) (A ++ B ++ C) /\
    Forall (fun l => ~ in_price_range oracle l) A /\ Forall (in_price_range oracle) B /\
    Forall (fun l => ~ in_price_range oracle l) C /\
    pegged_listed s oracle LF A B (pegged_of items).
Proof. exact (pegged_iteration s bs now oracle). Qed.
Print Assumptions C08_pegged_listed_partial.

(** So at most one pegged order in range is missed, only when a better pegged order is out of
    range, and at most one pegged order in range is better than the missed one. *)
Theorem C08_misses_one_partial s bs now oracle : book_reach s bs ->
  exists items LP, iter_all bs now (Some oracle) = Ok items /\ lists bs OraclePegged LP /\
  forall l, In l LP -> in_price_range oracle l -> ~ In l (pegged_of items) ->
    (exists x, In x LP /\ ~ in_price_range oracle x /\ better_id s (lf_key x) (lf_key l)) /\
    (forall l', In l' LP -> in_price_range oracle l' -> l' <> l -> In l' (pegged_of items)) /\
    (forall x y, In x LP -> In y LP -> in_price_range oracle x -> in_price_range oracle y ->
       better_id s (lf_key x) (lf_key l) -> better_id s (lf_key y) (lf_key l) -> x = y).
Proof. exact (missing_one s bs now oracle). Qed.
Print Assumptions C08_misses_one_partial.

(** A limit ask at 30 comes before the pegged ask at 45, which is then the one lost. *)
Definition C08_book : bookside :=
  fst (book_run skip_book [OpInsert Fixed (sample Ask Fixed 30 4 5)]).
Example C08_lost_cases : book_reach Ask C08_book /\
  match iter_all skip_book 200 (Some 50), iter_all C08_book 200 (Some 50), iter_all C08_book 200 (Some 300) with
  | Ok a, Ok b, Ok c => map lf_key (pegged_of a) = [lf_key (sample Ask OraclePegged (-5) 2 5)] /\
      map lf_key (pegged_of b) = [lf_key (sample Ask OraclePegged 10 3 5)] /\ length (pegged_of c) = 3%nat
  | _, _, _ => False
  end.
Proof.
  split; [apply book_run_reach; [exact skip_book_reach|repeat constructor; vm_compute; discriminate]|].
  vm_compute. auto.
Qed.

(** C09: an order offered for matching has its exact price, is live, and a pegged order is in
    range and within its peg limit. *)
Theorem C09_offered_price s bs now oracle items i : book_reach s bs ->
  iter_valid bs now (Some oracle) = Ok items -> In i items ->
  im_price i = exact_price (im_tree i) oracle (im_leaf i) /\ 1 <= im_price i < 2 ^ 63 /\
  live now (im_leaf i) /\
  (im_tree i = OraclePegged ->
     im_price i < 2 ^ 63 - 1 /\ within_peg s (im_price i) (lf_peg_limit (im_leaf i))).
Proof. exact (offered_pegged s bs now oracle items i). Qed.
Print Assumptions C09_offered_price.

Definition with_peg (l : leaf) (limit : Z) : leaf :=
  mkLeaf (lf_slot l) (lf_tif l) (lf_key l) (lf_owner l) (lf_qty l) (lf_ts l) limit (lf_client_id l).
Definition C09_book : bookside :=
  fst (book_run (bookside_init Bid)
    [OpInsert OraclePegged (with_peg (sample Bid OraclePegged (-2) 2 5) 97);
     OpInsert OraclePegged (with_peg (sample Bid OraclePegged (-3) 3 5) 97)]).
Example C09_case : book_reach Bid C09_book /\
  match iter_valid C09_book 200 (Some 100) with
  | Ok items => map im_price items = [97]
  | Err _ => False
  end.
Proof.
  split; [apply book_run_reach; [constructor|repeat constructor; vm_compute; discriminate]|vm_compute; reflexivity].
Qed.
