(** Model of the bytes of the accounts: how the program's zero-copy structs lie in memory, and how
    the TypeScript client decodes them.

    The program keeps its accounts as [repr(C)] structs ([zero_copy], bytemuck) after an 8-byte
    discriminator.  The client decodes them with anchor's coder from the types listed in
    /repo/ts/client/src/openbook_v2.ts, one field after the other without gaps, except for book
    sides, which it decodes itself (bookSide.ts).

    Simplified: floating-point fields are their 64 bits; an address is the number its 32 bytes
    write; bytes that the program never writes are zero. *)
From Coq Require Import ZArith List Bool.
From Verif Require Import Base Nodes OrderTree BookSide Heap Market OpenOrders Order Book Instructions Ts.
Import ListNotations.
Open Scope Z_scope.

(** ** Types and values *)
(** [TU n], [TI n]: unsigned and signed integers of [n] bytes; [TKey]: an address; [TBlob n a]: [n]
    bytes of alignment [a] that hold one of several structs. *)
Inductive ty : Type :=
| TU (n : nat) | TI (n : nat) | TKey | TBlob (n : nat) (a : Z) | TArr (t : ty) (n : nat) | TRec (ts : list ty).
Inductive val : Type := VZ (z : Z) | VB (bs : list Z) | VL (l : list val).

(** Little endian; two's complement for negative numbers. *)
Fixpoint le (n : nat) (z : Z) : list Z :=
  match n with O => [] | S n => z mod 256 :: le n (z / 256) end.
Definition zeros (n : Z) : list Z := repeat 0 (Z.to_nat n).

(** ** How the program stores them: the rules of [repr(C)] on the chain's machine, where 16-byte
    integers are aligned to 8 (nodes.rs 262-270 asserts it for the nodes). *)
Definition up (o a : Z) : Z := (o + a - 1) / a * a.
Fixpoint align (t : ty) : Z :=
  match t with
  | TU n | TI n => Z.max 1 (Z.min 8 (Z.of_nat n))
  | TKey => 1
  | TBlob _ a => Z.max 1 a
  | TArr t _ => align t
  | TRec ts => fold_right (fun t a => Z.max (align t) a) 1 ts
  end.
Fixpoint size (t : ty) : Z :=
  match t with
  | TU n | TI n => Z.of_nat n
  | TKey => 32
  | TBlob n _ => Z.of_nat n
  | TArr t n => Z.of_nat n * size t
  | TRec ts =>
      up ((fix go (ts : list ty) (off : Z) : Z :=
             match ts with [] => off | t :: r => go r (up off (align t) + size t) end) ts 0)
         (fold_right (fun t a => Z.max (align t) a) 1 ts)
  end.
Fixpoint bytes (t : ty) (v : val) {struct t} : list Z :=
  match t, v with
  | TU n, VZ z | TI n, VZ z => le n z
  | TKey, VZ z => le 32 z
  | TBlob _ _, VB bs => bs
  | TArr t _, VL l => concat (map (bytes t) l)
  | TRec ts, VL l =>
      let al := fold_right (fun t a => Z.max (align t) a) 1 ts in
      (fix go (ts : list ty) (l : list val) (off : Z) : list Z :=
         match ts, l with
         | t :: ts', v :: l' => zeros (up off (align t) - off) ++ bytes t v ++ go ts' l' (up off (align t) + size t)
         | _, _ => zeros (up off al - off)
         end) ts l 0
  | _, _ => []
  end.

(** ** The structs of /repo/programs/openbook-v2/src/state.  The nodes of a book side and the
    events of a heap are bytes that hold one of several structs ([AnyNode], nodes.rs 252-257, and
    [AnyEvent], heap.rs 221-224). *)
(** orderbook/nodes.rs 80-100 *)
Definition rust_InnerNode : ty := TRec [
  (* tag *) TU 1; (* padding *) TArr (TU 1) 3; (* prefix_len *) TU 4; (* key *) TU 16;
  (* children *) TArr (TU 4) 2; (* child_earliest_expiry *) TArr (TU 8) 2;
  (* reserved *) TArr (TU 1) 40].
(** orderbook/nodes.rs 146-179 *)
Definition rust_LeafNode : ty := TRec [
  (* tag *) TU 1; (* owner_slot *) TU 1; (* time_in_force *) TU 2; (* padding *) TArr (TU 1) 4;
  (* key *) TU 16; (* owner *) TKey; (* quantity *) TI 8; (* timestamp *) TU 8;
  (* peg_limit *) TI 8; (* client_order_id *) TU 8].
(** orderbook/nodes.rs 240-247 *)
Definition rust_FreeNode : ty := TRec [
  (* tag *) TU 1; (* padding *) TArr (TU 1) 3; (* next *) TU 4; (* reserved *) TArr (TU 1) 72;
  (* force_align *) TU 8].
(** orderbook/ordertree.rs 39-42 *)
Definition rust_OrderTreeRoot : ty := TRec [
  (* maybe_node *) TU 4; (* leaf_count *) TU 4].
(** orderbook/ordertree.rs 60-68 *)
Definition rust_OrderTreeNodes : ty := TRec [
  (* order_tree_type *) TU 1; (* padding *) TArr (TU 1) 3; (* bump_index *) TU 4;
  (* free_list_len *) TU 4; (* free_list_head *) TU 4; (* reserved *) TArr (TU 1) 512;
  (* nodes *) TArr (TBlob 88 8) 1024].
(** orderbook/bookside.rs 31-36 *)
Definition rust_BookSide : ty := TRec [
  (* roots *) TArr rust_OrderTreeRoot 2; (* reserved_roots *) TArr rust_OrderTreeRoot 4;
  (* reserved *) TArr (TU 1) 256; (* nodes *) rust_OrderTreeNodes].
(** orderbook/heap.rs 165-171 *)
Definition rust_EventHeapHeader : ty := TRec [
  (* free_head *) TU 2; (* used_head *) TU 2; (* count *) TU 2; (* _padd *) TU 2; (* seq_num *) TU 8].
(** orderbook/heap.rs 203-208 *)
Definition rust_EventNode : ty := TRec [
  (* next *) TU 2; (* prev *) TU 2; (* _pad *) TArr (TU 1) 4; (* event *) TBlob 144 1].
(** orderbook/heap.rs 239-261 *)
Definition rust_FillEvent : ty := TRec [
  (* event_type *) TU 1; (* taker_side *) TU 1; (* maker_out *) TU 1; (* maker_slot *) TU 1;
  (* padding *) TArr (TU 1) 4; (* timestamp *) TU 8; (* market_seq_num *) TU 8; (* maker *) TKey;
  (* maker_timestamp *) TU 8; (* taker *) TKey; (* taker_client_order_id *) TU 8; (* price *) TI 8;
  (* peg_limit *) TI 8; (* quantity *) TI 8; (* maker_client_order_id *) TU 8;
  (* reserved *) TArr (TU 1) 8].
(** orderbook/heap.rs 314-324 *)
Definition rust_OutEvent : ty := TRec [
  (* event_type *) TU 1; (* side *) TU 1; (* owner_slot *) TU 1; (* padding0 *) TArr (TU 1) 5;
  (* timestamp *) TU 8; (* seq_num *) TU 8; (* owner *) TKey; (* quantity *) TI 8;
  (* padding1 *) TArr (TU 1) 80].
(** orderbook/heap.rs 18-22 *)
Definition rust_EventHeap : ty := TRec [
  (* header *) rust_EventHeapHeader; (* nodes *) TArr rust_EventNode 600;
  (* reserved *) TArr (TU 1) 64].
(** open_orders_account.rs 426-435 *)
Definition rust_OpenOrder : ty := TRec [
  (* id *) TU 16; (* client_id *) TU 8; (* locked_price *) TI 8; (* is_free *) TU 1;
  (* side_and_tree *) TU 1; (* padding *) TArr (TU 1) 6].
(** open_orders_account.rs 350-375 *)
Definition rust_Position : ty := TRec [
  (* bids_base_lots *) TI 8; (* asks_base_lots *) TI 8; (* base_free_native *) TU 8;
  (* quote_free_native *) TU 8; (* locked_maker_fees *) TU 8; (* referrer_rebates_available *) TU 8;
  (* penalty_heap_count *) TU 8; (* maker_volume *) TU 16; (* taker_volume *) TU 16;
  (* bids_quote_lots *) TI 8; (* reserved *) TArr (TU 1) 64].
(** open_orders_account.rs 16-37 *)
Definition rust_OpenOrdersAccount : ty := TRec [
  (* owner *) TKey; (* market *) TKey; (* name *) TArr (TU 1) 32; (* delegate *) TRec [TKey];
  (* account_num *) TU 4; (* bump *) TU 1; (* version *) TU 1; (* padding *) TArr (TU 1) 2;
  (* position *) rust_Position; (* open_orders *) TArr rust_OpenOrder 24].
(** oracle.rs 35-39 *)
Definition rust_OracleConfig : ty := TRec [
  (* conf_filter *) TU 8; (* max_staleness_slots *) TI 8; (* reserved *) TArr (TU 1) 72].
(** market.rs 21-120 *)
Definition rust_Market : ty := TRec [
  (* bump *) TU 1; (* base_decimals *) TU 1; (* quote_decimals *) TU 1;
  (* padding1 *) TArr (TU 1) 5; (* market_authority *) TKey; (* time_expiry *) TI 8;
  (* collect_fee_admin *) TKey; (* open_orders_admin *) TRec [TKey];
  (* consume_events_admin *) TRec [TKey]; (* close_market_admin *) TRec [TKey];
  (* name *) TArr (TU 1) 16; (* bids *) TKey; (* asks *) TKey; (* event_heap *) TKey;
  (* oracle_a *) TRec [TKey]; (* oracle_b *) TRec [TKey]; (* oracle_config *) rust_OracleConfig;
  (* quote_lot_size *) TI 8; (* base_lot_size *) TI 8; (* seq_num *) TU 8;
  (* registration_time *) TI 8; (* maker_fee *) TI 8; (* taker_fee *) TI 8;
  (* fees_accrued *) TU 16; (* fees_to_referrers *) TU 16; (* referrer_rebates_accrued *) TU 8;
  (* fees_available *) TU 8; (* maker_volume *) TU 16; (* taker_volume_wo_oo *) TU 16;
  (* base_mint *) TKey; (* quote_mint *) TKey; (* market_base_vault *) TKey;
  (* base_deposit_total *) TU 8; (* market_quote_vault *) TKey; (* quote_deposit_total *) TU 8;
  (* reserved *) TArr (TU 1) 128].

(** ** The types listed for the client in /repo/ts/client/src/openbook_v2.ts *)
(** openbook_v2.ts 6202 *)
Definition idl_InnerNode : ty := TRec [
  (* tag *) TU 1; (* padding *) TArr (TU 1) 3; (* prefixLen *) TU 4; (* key *) TU 16;
  (* children *) TArr (TU 4) 2; (* childEarliestExpiry *) TArr (TU 8) 2;
  (* reserved *) TArr (TU 1) 40].
(** openbook_v2.ts 6265 *)
Definition idl_LeafNode : ty := TRec [
  (* tag *) TU 1; (* ownerSlot *) TU 1; (* timeInForce *) TU 2; (* padding *) TArr (TU 1) 4;
  (* key *) TU 16; (* owner *) TKey; (* quantity *) TI 8; (* timestamp *) TU 8; (* pegLimit *) TI 8;
  (* clientOrderId *) TU 8].
(** openbook_v2.ts 6351 *)
Definition idl_OrderTreeRoot : ty := TRec [
  (* maybeNode *) TU 4; (* leafCount *) TU 4].
(** openbook_v2.ts 6333 *)
Definition idl_AnyNode : ty := TRec [
  (* tag *) TU 1; (* data *) TArr (TU 1) 87].
(** openbook_v2.ts 6367 *)
Definition idl_OrderTreeNodes : ty := TRec [
  (* orderTreeType *) TU 1; (* padding *) TArr (TU 1) 3; (* bumpIndex *) TU 4;
  (* freeListLen *) TU 4; (* freeListHead *) TU 4; (* reserved *) TArr (TU 1) 512;
  (* nodes *) TArr idl_AnyNode 1024].
(** openbook_v2.ts 5765 *)
Definition idl_BookSide : ty := TRec [
  (* roots *) TArr idl_OrderTreeRoot 2; (* reservedRoots *) TArr idl_OrderTreeRoot 4;
  (* reserved *) TArr (TU 1) 256; (* nodes *) idl_OrderTreeNodes].
(** openbook_v2.ts 6004 *)
Definition idl_EventHeapHeader : ty := TRec [
  (* freeHead *) TU 2; (* usedHead *) TU 2; (* count *) TU 2; (* padd *) TU 2; (* seqNum *) TU 8].
(** openbook_v2.ts 6060 *)
Definition idl_AnyEvent : ty := TRec [
  (* eventType *) TU 1; (* padding *) TArr (TU 1) 143].
(** openbook_v2.ts 6032 *)
Definition idl_EventNode : ty := TRec [
  (* next *) TU 2; (* prev *) TU 2; (* pad *) TArr (TU 1) 4; (* event *) idl_AnyEvent].
(** openbook_v2.ts 6078 *)
Definition idl_FillEvent : ty := TRec [
  (* eventType *) TU 1; (* takerSide *) TU 1; (* makerOut *) TU 1; (* makerSlot *) TU 1;
  (* padding *) TArr (TU 1) 4; (* timestamp *) TU 8; (* seqNum *) TU 8; (* maker *) TKey;
  (* makerTimestamp *) TU 8; (* taker *) TKey; (* takerClientOrderId *) TU 8; (* price *) TI 8;
  (* pegLimit *) TI 8; (* quantity *) TI 8; (* makerClientOrderId *) TU 8;
  (* reserved *) TArr (TU 1) 8].
(** openbook_v2.ts 6154 *)
Definition idl_OutEvent : ty := TRec [
  (* eventType *) TU 1; (* side *) TU 1; (* ownerSlot *) TU 1; (* padding0 *) TArr (TU 1) 5;
  (* timestamp *) TU 8; (* seqNum *) TU 8; (* owner *) TKey; (* quantity *) TI 8;
  (* padding1 *) TArr (TU 1) 80].
(** openbook_v2.ts 5807 *)
Definition idl_EventHeap : ty := TRec [
  (* header *) idl_EventHeapHeader; (* nodes *) TArr idl_EventNode 600;
  (* reserved *) TArr (TU 1) 64].
(** openbook_v2.ts 5929 *)
Definition idl_OpenOrder : ty := TRec [
  (* id *) TU 16; (* clientId *) TU 8; (* lockedPrice *) TI 8; (* isFree *) TU 1;
  (* sideAndTree *) TU 1; (* padding *) TArr (TU 1) 6].
(** openbook_v2.ts 5862 *)
Definition idl_Position : ty := TRec [
  (* bidsBaseLots *) TI 8; (* asksBaseLots *) TI 8; (* baseFreeNative *) TU 8;
  (* quoteFreeNative *) TU 8; (* lockedMakerFees *) TU 8; (* referrerRebatesAvailable *) TU 8;
  (* penaltyHeapCount *) TU 8; (* makerVolume *) TU 16; (* takerVolume *) TU 16;
  (* bidsQuoteLots *) TI 8; (* reserved *) TArr (TU 1) 64].
(** openbook_v2.ts 5642 *)
Definition idl_OpenOrdersAccount : ty := TRec [
  (* owner *) TKey; (* market *) TKey; (* name *) TArr (TU 1) 32; (* delegate *) TRec [TKey];
  (* accountNum *) TU 4; (* bump *) TU 1; (* version *) TU 1; (* padding *) TArr (TU 1) 2;
  (* position *) idl_Position; (* openOrders *) TArr idl_OpenOrder 24].
(** openbook_v2.ts 5964 *)
Definition idl_OracleConfig : ty := TRec [
  (* confFilter *) TU 8; (* maxStalenessSlots *) TI 8; (* reserved *) TArr (TU 1) 72].
(** openbook_v2.ts 5417 *)
Definition idl_Market : ty := TRec [
  (* bump *) TU 1; (* baseDecimals *) TU 1; (* quoteDecimals *) TU 1; (* padding1 *) TArr (TU 1) 5;
  (* marketAuthority *) TKey; (* timeExpiry *) TI 8; (* collectFeeAdmin *) TKey;
  (* openOrdersAdmin *) TRec [TKey]; (* consumeEventsAdmin *) TRec [TKey];
  (* closeMarketAdmin *) TRec [TKey]; (* name *) TArr (TU 1) 16; (* bids *) TKey; (* asks *) TKey;
  (* eventHeap *) TKey; (* oracleA *) TRec [TKey]; (* oracleB *) TRec [TKey];
  (* oracleConfig *) idl_OracleConfig; (* quoteLotSize *) TI 8; (* baseLotSize *) TI 8;
  (* seqNum *) TU 8; (* registrationTime *) TI 8; (* makerFee *) TI 8; (* takerFee *) TI 8;
  (* feesAccrued *) TU 16; (* feesToReferrers *) TU 16; (* referrerRebatesAccrued *) TU 8;
  (* feesAvailable *) TU 8; (* makerVolume *) TU 16; (* takerVolumeWoOo *) TU 16;
  (* baseMint *) TKey; (* quoteMint *) TKey; (* marketBaseVault *) TKey;
  (* baseDepositTotal *) TU 8; (* marketQuoteVault *) TKey; (* quoteDepositTotal *) TU 8;
  (* reserved *) TArr (TU 1) 128].

(** ** The program's state as values of these types *)
Definition pad (n : nat) : val := VL (repeat (VZ 0) n).
Definition b2z (b : bool) : Z := if b then 1 else 0.
(** order_type.rs 130-133, ordertree.rs 24-27, order_type.rs 181-186, heap.rs 230-233 *)
Definition side_code (s : side) : Z := match s with Bid => 0 | Ask => 1 end.
Definition slot_code (s : side) (t : otree_id) : Z :=
  match s, t with Bid, Fixed => 0 | Ask, Fixed => 1 | Bid, OraclePegged => 2 | Ask, OraclePegged => 3 end.

Definition leaf_val (l : leaf) : val :=
  VL [VZ 2; VZ (lf_slot l); VZ (lf_tif l); pad 4; VZ (lf_key l); VZ (lf_owner l); VZ (lf_qty l); VZ (lf_ts l);
      VZ (lf_peg_limit l); VZ (lf_client_id l)].
Definition inner_val (i : inner) : val :=
  VL [VZ 1; pad 3; VZ (in_prefix i); VZ (in_key i); VL [VZ (in_c0 i); VZ (in_c1 i)]; VL [VZ (in_e0 i); VZ (in_e1 i)]; pad 40].
Definition free_val (tag next : Z) : val := VL [VZ tag; pad 3; VZ next; pad 72; VZ 0].
(** nodes.rs 15-21; ordertree.rs 257-267 for free nodes.  A node never used is all zero. *)
Definition node_bytes (n : node) : list Z :=
  match n with
  | NUninit => zeros 88
  | NInner i => bytes rust_InnerNode (inner_val i)
  | NLeaf l => bytes rust_LeafNode (leaf_val l)
  | NFree next => bytes rust_FreeNode (free_val 3 next)
  | NLastFree next => bytes rust_FreeNode (free_val 4 next)
  end.
Definition root_val (r : root) : val := VL [VZ (r_node r); VZ (r_count r)].
Definition side_val (b : bookside) : val :=
  let a := bs_nodes b in
  VL [VL [root_val (bs_fixed b); root_val (bs_pegged b)]; VL (repeat (root_val (mkRoot 0 0)) 4); pad 256;
      VL [VZ (side_code (a_side a)); pad 3; VZ (a_bump a); VZ (a_flen a); VZ (a_fhead a); pad 512;
          VL (map (fun i => VB (node_bytes (a_nodes a (Z.of_nat i)))) (seq 0 1024))]].
(** An account: discriminator and struct. *)
Definition side_account (disc : list Z) (b : bookside) : list Z := disc ++ bytes rust_BookSide (side_val b).

Definition fill_val (f : fill_event) : val :=
  VL [VZ 0; VZ (side_code (fe_taker_side f)); VZ (b2z (fe_maker_out f)); VZ (fe_maker_slot f); pad 4; VZ (fe_ts f); VZ (fe_seq f);
      VZ (fe_maker f); VZ (fe_maker_ts f); VZ (fe_taker f); VZ (fe_taker_cid f); VZ (fe_price f); VZ (fe_peg_limit f);
      VZ (fe_qty f); VZ (fe_maker_cid f); pad 8].
Definition out_val (o : out_event) : val :=
  VL [VZ 1; VZ (side_code (oe_side o)); VZ (oe_slot o); pad 5; VZ (oe_ts o); VZ (oe_seq o); VZ (oe_owner o); VZ (oe_qty o); pad 80].
Definition event_bytes (e : event) : list Z :=
  match e with EFill f => bytes rust_FillEvent (fill_val f) | EOut o => bytes rust_OutEvent (out_val o) end.
Definition hnode_val (n : hnode) : val := VL [VZ (hn_next n); VZ (hn_prev n); pad 4; VB (event_bytes (hn_event n))].
Definition heap_val (h : heap) : val :=
  VL [VL [VZ (h_free h); VZ (h_used h); VZ (h_count h); VZ 0; VZ (h_seq h)];
      VL (map (fun i => hnode_val (h_nodes h (Z.of_nat i))) (seq 0 600)); pad 64].
Definition heap_account (disc : list Z) (h : heap) : list Z := disc ++ bytes rust_EventHeap (heap_val h).

Definition slot_val (oo : open_order) : val :=
  VL [VZ (oo_id oo); VZ (oo_client_id oo); VZ (oo_locked_price oo); VZ (b2z (oo_free oo)); VZ (slot_code (oo_side oo) (oo_tree oo)); pad 6].
Definition position_val (p : position) : val :=
  VL [VZ (p_bids_base p); VZ (p_asks_base p); VZ (p_base_free p); VZ (p_quote_free p); VZ (p_locked_fees p); VZ (p_rebates p);
      VZ (p_penalty p); VZ (p_maker_volume p); VZ (p_taker_volume p); VZ (p_bids_quote p); pad 64].
(** Market, name and bump of the account are not in the model's record. *)
Definition account_val (market : Z) (name : list Z) (bump : Z) (a : ooa) : val :=
  VL [VZ (a_owner a); VZ market; VL (map VZ name); VL [VZ (a_delegate a)]; VZ (a_num a); VZ bump; VZ (a_version a); pad 2;
      position_val (a_pos a); VL (map slot_val (a_orders a))].
Definition account_account (disc : list Z) (market : Z) (name : list Z) (bump : Z) (a : ooa) : list Z :=
  disc ++ bytes rust_OpenOrdersAccount (account_val market name bump a).

(** What the market account holds besides the model's market. *)
Record market_rest : Type := mkRest {
  mr_bump : Z; mr_base_decimals : Z; mr_quote_decimals : Z; mr_name : list Z; mr_bids : Z; mr_asks : Z; mr_heap : Z;
  mr_conf_filter : Z; mr_max_staleness : Z; mr_registration : Z }.
Definition market_val (x : market_rest) (m : market) : val :=
  let c := m_cfg m in
  VL [VZ (mr_bump x); VZ (mr_base_decimals x); VZ (mr_quote_decimals x); pad 5; VZ (c_authority c); VZ (m_time_expiry m);
      VZ (c_collect_fee_admin c); VL [VZ (c_open_orders_admin c)]; VL [VZ (c_consume_events_admin c)]; VL [VZ (c_close_market_admin c)];
      VL (map VZ (mr_name x)); VZ (mr_bids x); VZ (mr_asks x); VZ (mr_heap x); VL [VZ (c_oracle_a c)]; VL [VZ (c_oracle_b c)];
      VL [VZ (mr_conf_filter x); VZ (mr_max_staleness x); pad 72]; VZ (c_qls c); VZ (c_bls c); VZ (m_seq m); VZ (mr_registration x);
      VZ (c_maker_fee c); VZ (c_taker_fee c); VZ (m_fees_accrued m); VZ (m_fees_to_referrers m); VZ (m_rebates_accrued m);
      VZ (m_fees_available m); VZ (m_maker_volume m); VZ (m_taker_volume_wo_oo m); VZ (c_base_mint c); VZ (c_quote_mint c);
      VZ (c_base_vault c); VZ (m_base_total m); VZ (c_quote_vault c); VZ (m_quote_total m); pad 128].
Definition market_account (disc : list Z) (x : market_rest) (m : market) : list Z := disc ++ bytes rust_Market (market_val x m).

(** ** How the client reads them *)
(** A number of [n] bytes at the front; [None] beyond the end of the buffer. *)
Fixpoint rd (n : nat) (bs : list Z) : option (Z * list Z) :=
  match n, bs with
  | O, _ => Some (0, bs)
  | S n, b :: r => match rd n r with Some (z, r') => Some (b + 256 * z, r') | None => None end
  | S _, [] => None
  end.
Fixpoint rd_bytes (n : nat) (bs : list Z) : option (list Z * list Z) :=
  match n, bs with
  | O, _ => Some ([], bs)
  | S n, b :: r => match rd_bytes n r with Some (l, r') => Some (b :: l, r') | None => None end
  | S _, [] => None
  end.
Definition signed (n : nat) (z : Z) : Z := if z <? 2 ^ (8 * Z.of_nat n - 1) then z else z - 2 ^ (8 * Z.of_nat n).
Fixpoint rd_many {A} (f : list Z -> option (A * list Z)) (n : nat) (bs : list Z) : option (list A * list Z) :=
  match n with
  | O => Some ([], bs)
  | S n =>
      match f bs with
      | Some (v, r) => match rd_many f n r with Some (l, r') => Some (v :: l, r') | None => None end
      | None => None
      end
  end.
(** anchor's coder: one field after the other. *)
Fixpoint ts_read (t : ty) (bs : list Z) {struct t} : option (val * list Z) :=
  match t with
  | TU n => match rd n bs with Some (z, r) => Some (VZ z, r) | None => None end
  | TI n => match rd n bs with Some (z, r) => Some (VZ (signed n z), r) | None => None end
  | TKey => match rd 32 bs with Some (z, r) => Some (VZ z, r) | None => None end
  | TBlob n _ => match rd_bytes n bs with Some (l, r) => Some (VB l, r) | None => None end
  | TArr t n => match rd_many (ts_read t) n bs with Some (l, r) => Some (VL l, r) | None => None end
  | TRec ts =>
      match (fix go (ts : list ty) (bs : list Z) : option (list val * list Z) :=
               match ts with
               | [] => Some ([], bs)
               | t :: ts' =>
                   match ts_read t bs with
                   | Some (v, r) => match go ts' r with Some (l, r') => Some (v :: l, r') | None => None end
                   | None => None
                   end
               end) ts bs
      with Some (l, r) => Some (VL l, r) | None => None end
  end.
Definition ts_decode (t : ty) (bs : list Z) : option val := option_map fst (ts_read t bs).

(** bookSide.ts 204-228: by the tag, from the 88 bytes of a node. *)
Definition ts_leaf (bs : list Z) : option leaf :=
  match ts_decode idl_LeafNode bs with
  | Some (VL [_; VZ slot; VZ tif; _; VZ key; VZ owner; VZ qty; VZ ts; VZ peg; VZ cid]) => Some (mkLeaf slot tif key owner qty ts peg cid)
  | _ => None
  end.
Definition ts_inner (bs : list Z) : option inner :=
  match ts_decode idl_InnerNode bs with
  | Some (VL [_; _; VZ p; VZ key; VL [VZ c0; VZ c1]; VL [VZ e0; VZ e1]; _]) => Some (mkInner p key c0 c1 e0 e1)
  | _ => None
  end.
(** Nodes with another tag are passed over; so are, here, nodes that cannot be decoded. *)
Definition ts_node (tag : Z) (bs : list Z) : node :=
  if tag =? 1 then match ts_inner bs with Some i => NInner i | None => NUninit end
  else if tag =? 2 then match ts_leaf bs with Some l => NLeaf l | None => NUninit end
  else NUninit.
Definition ts_nodes (l : list (Z * list Z)) (h : Z) : node :=
  match nth_error l (Z.to_nat h) with Some (tag, bs) => ts_node tag bs | None => NUninit end.
Definition side_of_code (z : Z) : side := if z =? 0 then Bid else Ask.
Definition rd_at (off n : nat) (bs : list Z) : option Z := option_map fst (rd n (skipn off bs)).

(** bookSide.ts 34-67: [decodeAccountfromBuffer] with its offsets; a slice of a node begins with
    its tag. *)
Definition ts_slice (bs : list Z) : option ((Z * list Z) * list Z) :=
  match rd_bytes 88 bs with Some (tag :: d, r) => Some ((tag, tag :: d), r) | _ => None end.
Definition ts_side_of_buffer (data : list Z) : option bookside :=
  match rd_at 8 4 data, rd_at 12 4 data, rd_at 16 4 data, rd_at 20 4 data,
        rd_at 312 1 data, rd_at 316 4 data, rd_at 320 4 data, rd_at 324 4 data, rd_many ts_slice 1024 (skipn 840 data) with
  | Some n0, Some c0, Some n1, Some c1, Some ot, Some bump, Some flen, Some fhead, Some (nodes, _) =>
      Some (mkBookside (mkRoot n0 c0) (mkRoot n1 c1) (mkArena (side_of_code ot) bump flen fhead (ts_nodes nodes)))
  | _, _, _, _, _, _, _, _, _ => None
  end.

(** The same account decoded by anchor's coder; a node is then its tag and its other bytes
    (bookSide.ts 209-212 and 223-226). *)
Definition slice_of (v : val) : Z * list Z :=
  match v with
  | VL [VZ tag; VL d] => (tag, tag :: map (fun x => match x with VZ z => z | _ => 0 end) d)
  | _ => (0, [])
  end.
Definition ts_side_of_anchor (data : list Z) : option bookside :=
  match ts_decode idl_BookSide (skipn 8 data) with
  | Some (VL [VL [VL [VZ n0; VZ c0]; VL [VZ n1; VZ c1]]; _; _; VL [VZ ot; _; VZ bump; VZ flen; VZ fhead; _; VL nodes]]) =>
      Some (mkBookside (mkRoot n0 c0) (mkRoot n1 c1) (mkArena (side_of_code ot) bump flen fhead (ts_nodes (map slice_of nodes))))
  | _ => None
  end.

(** eventHeap.ts 27-41: the type byte decides; other events are passed over. *)
Definition ts_event (tag : Z) (bs : list Z) : option event :=
  if tag =? 0 then
    match ts_decode idl_FillEvent bs with
    | Some (VL [_; VZ sd; VZ mo; VZ slot; _; VZ ts; VZ seq; VZ maker; VZ mts; VZ taker; VZ tcid; VZ price; VZ peg; VZ qty; VZ mcid; _]) =>
        Some (EFill (mkFill (side_of_code sd) (negb (mo =? 0)) slot ts seq maker mts taker tcid price peg qty mcid))
    | _ => None
    end
  else if tag =? 1 then
    match ts_decode idl_OutEvent bs with
    | Some (VL [_; VZ sd; VZ slot; _; VZ ts; VZ seq; VZ owner; VZ qty; _]) => Some (EOut (mkOut (side_of_code sd) slot ts seq owner qty))
    | _ => None
    end
  else None.
(** One node of the account: [next] and the event's type and bytes. *)
Definition ts_hnode (v : val) : Z * (Z * list Z) :=
  match v with VL [VZ next; _; _; ev] => (next, slice_of ev) | _ => (0, (0, [])) end.
(** eventHeap.ts 17-41: [parsedEvents].  A node outside of the array makes it throw. *)
Fixpoint ts_parsed_loop (n : nat) (nodes : list (Z * (Z * list Z))) (i : Z) : option (list event) :=
  match n with
  | O => Some []
  | S n =>
      match nth_error nodes (Z.to_nat i) with
      | Some (next, (tag, bs)) =>
          match ts_parsed_loop n nodes next with
          | Some more => Some (match ts_event tag bs with Some e => e :: more | None => more end)
          | None => None
          end
      | None => None
      end
  end.
Definition ts_parsed_events (data : list Z) : option (list event) :=
  match ts_decode idl_EventHeap (skipn 8 data) with
  | Some (VL [VL [_; VZ used; VZ count; _; _]; VL nodes; _]) => ts_parsed_loop (Z.to_nat count) (map ts_hnode nodes) used
  | _ => None
  end.

(** The fields of a decoded open orders account; [isFree] and [sideAndTree] as openOrders.ts uses
    them. *)
Definition slot_of (v : val) : option open_order :=
  match v with
  | VL [VZ id; VZ cid; VZ lp; VZ fr; VZ st; _] =>
      Some (mkOO id cid lp (negb (fr =? 0)) (if (st =? 0) || (st =? 2) then Bid else Ask) (if (st =? 0) || (st =? 1) then Fixed else OraclePegged))
  | _ => None
  end.
Definition position_of (v : val) : option position :=
  match v with
  | VL [VZ bb; VZ ab; VZ bf; VZ qf; VZ lf; VZ rb; VZ pn; VZ mv; VZ tv; VZ bq; _] => Some (mkPos bb ab bf qf lf rb pn mv tv bq)
  | _ => None
  end.
Fixpoint all_some {A B} (f : A -> option B) (l : list A) : option (list B) :=
  match l with
  | [] => Some []
  | x :: r => match f x, all_some f r with Some y, Some l' => Some (y :: l') | _, _ => None end
  end.
Definition ts_account (data : list Z) : option (Z * ooa) :=
  match ts_decode idl_OpenOrdersAccount (skipn 8 data) with
  | Some (VL [VZ owner; VZ market; _; VL [VZ delegate]; VZ num; _; VZ version; _; pos; VL slots]) =>
      match position_of pos, all_some slot_of slots with
      | Some p, Some l => Some (market, mkOoa owner delegate num version p l)
      | _, _ => None
      end
  | _ => None
  end.

(** [key] is the market's own address. *)
Definition ts_market (key : Z) (data : list Z) : option (market_rest * market) :=
  match ts_decode idl_Market (skipn 8 data) with
  | Some (VL [VZ bump; VZ bd; VZ qd; _; VZ auth; VZ te; VZ cfa; VL [VZ ooadm]; VL [VZ cea]; VL [VZ cma]; VL name; VZ bids; VZ asks; VZ heap;
        VL [VZ oa]; VL [VZ ob]; VL [VZ cf; VZ ms; _]; VZ qls; VZ bls; VZ seq; VZ reg; VZ mf; VZ tf; VZ fa; VZ fr; VZ ra; VZ fav; VZ mv; VZ tv;
        VZ bm; VZ qm; VZ bv; VZ bt; VZ qv; VZ qt; _]) =>
      Some (mkRest bump bd qd (map (fun x => match x with VZ z => z | _ => 0 end) name) bids asks heap cf ms reg,
            mkMarket (mkCfg qls bls mf tf key auth cfa ooadm cea cma oa ob bm qm bv qv) te seq fa fr ra fav mv tv bt qt)
  | _ => None
  end.
