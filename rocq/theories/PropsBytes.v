(** Property C82, decoding the accounts' bytes, and C75 on these bytes.
    Vocabulary: SpecBytes.v and SpecFit.v. *)
From Coq Require Import ZArith List Bool Lia.
From Verif Require Import Base Nodes OrderTree BookSide Heap Market OpenOrders Order Book Instructions
  SpecBook SpecLedger SpecSystem SpecFit Ts Find Bytes SpecBytes BytesFacts BytesDec BytesOn Samples PropsFit.
Import ListNotations.
Open Scope Z_scope.

(** C82: a value within its type, stored by the program in a struct without hidden gaps, is what
    the client's coder reads, whatever follows it, and it takes the struct's size. *)
Theorem C82_round_trip t v rest : packed t = true -> typed t v ->
  ts_read t (bytes t v ++ rest) = Some (v, rest) /\ Z.of_nat (length (bytes t v)) = size t.
Proof. exact (round_trip t v rest). Qed.
Print Assumptions C82_round_trip.
Example C82_round_trip_case : packed rust_OutEvent = true /\
  typed rust_OutEvent (VL [VZ 1; VZ 1; VZ 23; pad 5; VZ 7; VZ 8; VZ (2 ^ 256 - 1); VZ (- 2 ^ 63); pad 80]) /\
  packed (TRec [TU 1; TU 8]) = false /\
  ts_decode (TRec [TU 1; TU 8]) (bytes (TRec [TU 1; TU 8]) (VL [VZ 1; VZ 1])) <> Some (VL [VZ 1; VZ 1]).
Proof.
  split; [reflexivity|]. split; [|split; [reflexivity|vm_compute; discriminate]].
  cbn [typed rust_OutEvent]. repeat (split; [try lia|]); try exact I; try reflexivity; try (apply Forall_forall; intros x Hx; apply repeat_spec in Hx; subst x; cbn; lia).
Qed.

(** C82: none of the program's structs has a hidden gap, they have the sizes the program
    asserts, the types listed for the client are the program's, with an event or a node being its
    first byte and the others, and the client makes accounts of the right sizes. *)
Theorem C82_layouts :
  Forall (fun t => packed t = true) [rust_InnerNode; rust_LeafNode; rust_FreeNode; rust_OrderTreeNodes; rust_BookSide; rust_EventHeap; rust_EventNode;
    rust_FillEvent; rust_OutEvent; rust_OpenOrder; rust_Position; rust_OpenOrdersAccount; rust_OracleConfig; rust_Market] /\
  map size [rust_InnerNode; rust_LeafNode; rust_FreeNode; rust_OrderTreeNodes; rust_BookSide; rust_EventHeap; rust_EventNode; rust_FillEvent; rust_OutEvent;
    rust_OpenOrder; rust_Position; rust_OpenOrdersAccount; rust_OracleConfig; rust_Market] =
    [88; 88; 88; 90640; 90944; 91280; 152; 144; 144; 40; 160; 1256; 88; 840] /\
  (idl_InnerNode, idl_LeafNode, idl_FillEvent, idl_OutEvent, idl_OpenOrder, idl_Position, idl_OpenOrdersAccount, idl_OracleConfig, idl_Market) =
    (rust_InnerNode, rust_LeafNode, rust_FillEvent, rust_OutEvent, rust_OpenOrder, rust_Position, rust_OpenOrdersAccount, rust_OracleConfig, rust_Market) /\
  (size idl_AnyNode, size idl_AnyEvent, size idl_BookSide, size idl_EventHeap) = (88, 144, 90944, 91280) /\
  ts_bookside_space = 8 + size rust_BookSide /\ ts_heap_space = 8 + size rust_EventHeap.
Proof. split; [repeat (apply Forall_cons; [reflexivity|]); apply Forall_nil|]. repeat split; reflexivity. Qed.
Print Assumptions C82_layouts.

(** C82: in every state on chain, both ways the client decodes the bytes of a book side, by hand
    and through the coder, give one side, whose orders are those the program stores, in the same
    order and with the same fields. *)
Theorem C82_orders s sd disc : run_on_chain s -> length disc = 8%nat ->
  exists b, ts_side_of_buffer (side_account disc (w_book (s_w s) sd)) = Some b /\
    ts_side_of_anchor (side_account disc (w_book (s_w s) sd)) = Some b /\
    a_side (bs_nodes b) = sd /\
    (forall t, ts_leaves (bs_nodes b) sd (bs_root b t) = Ok (tree_orders (w_book (s_w s) sd) t)) /\
    forall clock, ts_fixed_items b sd clock = ts_fixed_items (w_book (s_w s) sd) sd clock /\
      ts_items b sd clock = ts_items (w_book (s_w s) sd) sd clock.
Proof. exact (side_decodes s sd disc). Qed.
Print Assumptions C82_orders.
Example C82_orders_case : run_on_chain edge_state /\
  match ts_side_of_buffer (side_account (repeat 7 8) (w_book (s_w edge_state) Ask)) with
  | Some b => match ts_items b Ask 5000 with
              | Ok l => map (fun o => (to_price o, lf_qty (to_leaf o), lf_tif (to_leaf o), lf_client_id (to_leaf o), lf_owner (to_leaf o))) l
              | Err _ => []
              end
  | None => []
  end = [(105, 15, 65535, 2 ^ 64 - 1, 101); (900000, 1, 0, 7, 101)].
Proof. split; [exact edge_chain|]. vm_compute. reflexivity. Qed.

(** C82: the events parsed from the bytes of the heap are the waiting events, in order. *)
Theorem C82_events s disc : run_on_chain s -> length disc = 8%nat ->
  ts_parsed_events (heap_account disc (w_heap (s_w s))) = Some (waiting (s_w s)).
Proof. exact (heap_decodes s disc). Qed.
Print Assumptions C82_events.
Example C82_events_case : run_on_chain edge_state /\
  match ts_parsed_events (heap_account (repeat 7 8) (w_heap (s_w edge_state))) with
  | Some [EFill f] => (fe_taker_side f, fe_maker f, fe_taker f, fe_price f, fe_qty f, fe_maker_cid f) = (Bid, 101, 103, 105, 5, 2 ^ 64 - 1)
  | _ => False
  end.
Proof. split; [exact edge_chain|]. vm_compute. reflexivity. Qed.

(** C82: an open orders account is decoded as it is, whatever its name and bump. *)
Theorem C82_account s k a disc market name bump : run_on_chain s -> acct_get k (w_accts (s_w s)) = Some a ->
  length disc = 8%nat -> length name = 32%nat -> is_address market -> ts_account (account_account disc market name bump a) = Some (market, a).
Proof. exact (account_decodes s k a disc market name bump). Qed.
Print Assumptions C82_account.
Example C82_account_case : run_on_chain edge_state /\
  match acct_get 101 (w_accts (s_w edge_state)) with
  | Some a => match ts_account (account_account (repeat 7 8) 900 (repeat 65 32) 255 a) with
              | Some (m, a') => (m, a_owner a', a_delegate a', a_num a', p_asks_base (a_pos a'), map oo_locked_price (firstn 2 (a_orders a'))) =
                  (900, 1, 2 ^ 256 - 1, 2 ^ 32 - 1, 21, [105; 900000])
              | None => False
              end
  | None => False
  end.
Proof. split; [exact edge_chain|]. vm_compute. reflexivity. Qed.

(** C82: so is the market, with the fields of its account that the model of the market leaves
    out. *)
Theorem C82_market s disc x : run_on_chain s -> length disc = 8%nat -> rest_fits x -> keys_fit (m_cfg (w_mkt (s_w s))) ->
  ts_market (c_market (m_cfg (w_mkt (s_w s)))) (market_account disc x (w_mkt (s_w s))) = Some (x, w_mkt (s_w s)).
Proof. exact (market_decodes s disc x). Qed.
Print Assumptions C82_market.
Definition edge_rest : market_rest := mkRest 255 9 6 (repeat 66 16) 801 802 803 4607182418800017408 (-1) (- 2 ^ 63).
Example C82_market_case : run_on_chain edge_state /\ rest_fits edge_rest /\ keys_fit (m_cfg (w_mkt (s_w edge_state))) /\
  match ts_market 5 (market_account (repeat 7 8) edge_rest (w_mkt (s_w edge_state))) with
  | Some (x, m) => (mr_max_staleness x, mr_registration x, m_seq m, c_maker_fee (m_cfg m), c_taker_fee (m_cfg m), m_base_total m) = (-1, - 2 ^ 63, 3, 200, 400, 2100)
  | None => False
  end.
Proof.
  split; [exact edge_chain|]. split; [constructor; cbn; unfold is_u8, is_address, is_u64, is_i64; try lia|].
  - split; [reflexivity|]. repeat (apply Forall_cons; [lia|]). apply Forall_nil.
  - split; [constructor; vm_compute; split; congruence|]. vm_compute. reflexivity.
Qed.

(** C75 fails: searching markets by their mints finds no market, whatever the mints: the filter
    asks for bytes beyond the end of a market account. *)
Theorem C75_stored_never_found disc x m base quote : length disc = 8%nat -> length (mr_name x) = 16%nat ->
  ts_found_by_mints base quote (market_account disc x m) = false.
Proof. exact (never_found disc x m base quote). Qed.
Print Assumptions C75_stored_never_found.
Theorem C75_found_refuted : exists s disc x, run_on_chain s /\ length disc = 8%nat /\ rest_fits x /\ keys_fit (m_cfg (w_mkt (s_w s))) /\
  ts_found_by_mints (c_base_mint (m_cfg (w_mkt (s_w s)))) (c_quote_mint (m_cfg (w_mkt (s_w s)))) (market_account disc x (w_mkt (s_w s))) = false.
Proof.
  exists edge_state, (repeat 7 8), edge_rest. destruct C82_market_case as (H1 & H2 & H3 & _). repeat (split; [first [assumption|reflexivity]|]).
  apply C75_stored_never_found; reflexivity.
Qed.
Print Assumptions C75_found_refuted.
(** The mints are 576 and 608 bytes into the account. *)
Theorem C75_stored_mints_at disc x m base quote : length disc = 8%nat -> length (mr_name x) = 16%nat -> keys_fit (m_cfg m) -> is_address base -> is_address quote ->
  (memcmp 576 (le 32 base) (market_account disc x m) = true <-> c_base_mint (m_cfg m) = base) /\
  (memcmp 608 (le 32 quote) (market_account disc x m) = true <-> c_quote_mint (m_cfg m) = quote).
Proof. exact (mints_at disc x m base quote). Qed.
Print Assumptions C75_stored_mints_at.
