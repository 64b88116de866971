(** Concrete nodes for finding open orders accounts. *)
From Coq Require Import ZArith List Bool Lia ZifyBool.
From Verif Require Import Base Nodes OrderTree BookSide Heap Market OpenOrders Order Book Instructions SpecBook SpecLedger SpecSystem SpecFit
  Program SpecProgram ProgFacts Bytes SpecBytes BytesFacts Find FindOo SpecFindOo FindOoFacts Samples ProgSamples.
Import ListNotations.
Open Scope Z_scope.

Definition kinds83 : kinds := mkKinds (repeat 1 8) (repeat 2 8) (repeat 3 8) (repeat 4 8).
Definition place83 (o : Z) : Z := if 0 <=? o then 2 ^ 200 + o else o.
Definition rest83 (m : Z) : market_rest := mkRest 255 9 6 (repeat 66 16) (2 ^ 100 + 2 * m) (2 ^ 100 + 2 * m + 1) (2 ^ 101 + m) 0 0 0.
Definition dump_accounts (m : Z) (w : world) : list (Z * list Z) :=
  map (fun x => (fst x, account_account (kd_account kinds83) m (repeat 65 32) 255 (snd x))) (w_accts w).
Definition dump_market (x : Z * (world * bool)) : list (Z * list Z) :=
  let m := fst x in let w := fst (snd x) in
  dump_accounts m w ++
  (if snd (snd x) then [] else
     [(m, market_account (kd_market kinds83) (rest83 m) (w_mkt w)); (mr_bids (rest83 m), side_account (kd_side kinds83) (w_bids w));
      (mr_asks (rest83 m), side_account (kd_side kinds83) (w_asks w))]).
Definition dump_markets (p : prog) : list (Z * list Z) := concat (map dump_market (p_mkts p)).
Definition dump_indexers (p : prog) : list (Z * list Z) := map (fun x => (place83 (fst x), indexer_account (kd_indexer kinds83) 254 (snd x))) (p_idx p).
(** All accounts the program has in state [p]. *)
Definition dump (p : prog) : list (Z * list Z) := dump_markets p ++ dump_indexers p.
Definition node (p : prog) (k : Z) : option (list Z) := al_get k (dump p).

Fixpoint nodupb (l : list Z) : bool := match l with [] => true | x :: r => negb (existsb (Z.eqb x) r) && nodupb r end.
Lemma nodupb_ok l : nodupb l = true -> NoDup l.
Proof.
  induction l as [|x l IH]; [constructor|]. cbn [nodupb]. intros H. apply andb_prop in H as [H1 H2]. constructor; [|exact (IH H2)].
  intros Hin. apply negb_true_iff in H1. assert (existsb (Z.eqb x) l = true) by (apply existsb_exists; exists x; split; [exact Hin|lia]). congruence.
Qed.
Definition fine (p : prog) : bool :=
  nodupb (map fst (dump p)) &&
  forallb (fun k => (0 <=? k) && (k <? 2 ^ 200)) (map fst (dump_markets p)) &&
  forallb (fun x : Z * (world * bool) => (0 <=? fst x) && (fst x <? 2 ^ 90) && (negb (snd (snd x)) || negb (existsb (Z.eqb (fst x)) (map fst (dump p))))) (p_mkts p).

Lemma acct_get_in k a l : acct_get k l = Some a -> In (k, a) l.
Proof. induction l as [|[k' a'] l IH]; cbn [acct_get]; [discriminate|]. destruct (Z.eqb_spec k k') as [->|]; [intros H; injection H as <-; left; reflexivity|right; auto]. Qed.
Lemma in_dump_markets p m s x : market_in p m = Some s -> In x (dump_market (m, (s_w s, s_closed s))) -> In x (dump p).
Proof.
  intros Hm Hx. apply market_in_get in Hm as [Hm _]. apply al_get_in in Hm. apply in_or_app. left. apply in_concat. eexists. split; [|exact Hx].
  apply in_map_iff. eexists. split; [|exact Hm]. reflexivity.
Qed.
Lemma rest83_fits m : 0 <= m < 2 ^ 90 -> rest_fits (rest83 m).
Proof.
  intros H. assert (A : is_address (2 ^ 100 + 2 * m) /\ is_address (2 ^ 100 + 2 * m + 1) /\ is_address (2 ^ 101 + m)) by (unfold is_address; lia). destruct A as (A1 & A2 & A3).
  constructor; cbn [rest83 mr_bump mr_base_decimals mr_quote_decimals mr_name mr_bids mr_asks mr_heap mr_conf_filter mr_max_staleness mr_registration];
    try assumption; unfold is_u8, is_u64, is_i64; try lia.
  split; [reflexivity|]. apply Forall_forall. intros x Hx. apply repeat_spec in Hx. subst x. lia.
Qed.
Lemma node_kept p : fine p = true -> kept kinds83 place83 p (node p).
Proof.
  intros H. unfold fine in H. apply andb_prop in H as [H H3]. apply andb_prop in H as [H1 H2]. apply nodupb_ok in H1.
  rewrite forallb_forall in H2, H3.
  assert (G : forall k b, In (k, b) (dump p) -> node p k = Some b) by (intros k b Hin; exact (al_get_key _ _ _ H1 Hin)).
  split.
  - intros m k a (s & Hs & Ha). exists (repeat 65 32), 255. split; [reflexivity|]. apply G. apply (in_dump_markets p m s _ Hs). unfold dump_market. cbn [fst snd].
    apply in_or_app. left. unfold dump_accounts. apply in_map_iff. exists (k, a). split; [reflexivity|exact (acct_get_in _ _ _ Ha)].
  - intros o x Hx. exists 254. apply G. apply in_or_app. right. unfold dump_indexers. apply in_map_iff. exists (o, x). split; [reflexivity|exact (al_get_in _ _ _ Hx)].
  - intros o Ho. apply al_get_none. unfold dump. rewrite map_app. intros Hin. apply in_app_or in Hin as [Hin|Hin].
    + apply H2 in Hin. unfold place83 in Hin. destruct (0 <=? o) eqn:E; lia.
    + unfold dump_indexers in Hin. rewrite map_map in Hin. apply in_map_iff in Hin as ([o' x] & E & Hin). cbn [fst] in E. apply al_get_none in Ho. apply Ho.
      assert (o' = o) as -> by (unfold place83 in E; destruct (0 <=? o') eqn:E1, (0 <=? o) eqn:E2; lia). exact (in_map fst _ _ Hin).
  - intros m s Hs Hc. exists (rest83 m). pose proof (market_in_get _ _ _ Hs) as [Hm _]. apply al_get_in in Hm. apply H3 in Hm. cbn [fst snd] in Hm.
    split; [|split; [|split]].
    + apply rest83_fits. lia.
    + apply G. apply (in_dump_markets p m s _ Hs). unfold dump_market. cbn [fst snd]. rewrite Hc. apply in_or_app. right. left. reflexivity.
    + apply G. apply (in_dump_markets p m s _ Hs). unfold dump_market. cbn [fst snd]. rewrite Hc. apply in_or_app. right. right. left. reflexivity.
    + apply G. apply (in_dump_markets p m s _ Hs). unfold dump_market. cbn [fst snd]. rewrite Hc. apply in_or_app. right. right. right. left. reflexivity.
  - intros m s Hs Hc. pose proof (market_in_get _ _ _ Hs) as [Hm _]. apply al_get_in in Hm. apply H3 in Hm. cbn [fst snd] in Hm. rewrite Hc in Hm.
    apply al_get_none. intros Hin. apply andb_prop in Hm as [_ Hm]. cbn [negb orb] in Hm.
    assert (existsb (Z.eqb m) (map fst (dump p)) = true) as E by (apply existsb_exists; exists m; split; [exact Hin|lia]). rewrite E in Hm. discriminate Hm.
  - intros m k a (s & Hs & Ha). assert (Hin : In k (map fst (dump_markets p))).
    { pose proof (market_in_get _ _ _ Hs) as [Hm _]. apply al_get_in in Hm. unfold dump_markets. apply in_map_iff. eexists (k, _). split; [reflexivity|].
      apply in_concat. eexists. split; [apply in_map; exact Hm|]. unfold dump_market. cbn [fst snd]. apply in_or_app. left. unfold dump_accounts.
      apply in_map_iff. exists (k, a). split; [reflexivity|exact (acct_get_in _ _ _ Ha)]. }
    apply H2 in Hin. unfold is_address. lia.
Qed.
Lemma other_kind (d d' r : list Z) : length d = 8%nat -> d <> d' -> firstn 8 (d ++ r) <> d'.
Proof. intros L N E. apply N. rewrite <- E, firstn_app, L, Nat.sub_diag, firstn_O, app_nil_r. rewrite <- L. symmetry. apply firstn_all. Qed.
Lemma node_all p : fine p = true -> NoDup (map fst (p_mkts p)) -> (forall x, In x (p_mkts p) -> NoDup (map fst (w_accts (fst (snd x))))) ->
  all_accounts kinds83 p (node p) (dump p).
Proof.
  intros H HM HW. unfold fine in H. apply andb_prop in H as [H _]. apply andb_prop in H as [H _]. apply nodupb_ok in H. split; [exact H| |].
  - intros k b. split; [apply al_get_key; exact H|apply al_get_in].
  - intros k b Hk Hb. apply al_get_in in Hk. apply in_app_or in Hk as [Hk|Hk].
    + apply in_concat in Hk as (l & Hl & Hk). apply in_map_iff in Hl as ([m [w cl]] & <- & Hm). unfold dump_market in Hk. cbn [fst snd] in Hk.
      apply in_app_or in Hk as [Hk|Hk].
      * apply in_map_iff in Hk as ([k' a] & E & Hk). cbn [fst snd] in E. injection E as <- <-. exists m, a. exists (mkSys w (p_tok p) cl).
        unfold market_in. rewrite (al_get_key _ _ _ HM Hm). split; [reflexivity|]. cbn [s_w]. pose proof (HW _ Hm) as N. cbn [fst snd] in N.
        clear - Hk N. induction (w_accts w) as [|[j c] l IH]; [destruct Hk|]. cbn [map fst] in N. inversion N as [|? ? N1 N2]; subst. cbn [acct_get].
        destruct Hk as [E|Hk]; [injection E as -> ->; rewrite Z.eqb_refl; reflexivity|]. destruct (Z.eqb_spec k' j) as [->|]; [|auto]. exfalso. apply N1. exact (in_map fst _ _ Hk).
      * exfalso. destruct cl; [destruct Hk|]. destruct Hk as [E|[E|[E|[]]]]; apply (f_equal snd) in E; cbn [snd] in E; rewrite <- E in Hb; revert Hb; apply other_kind; (reflexivity || discriminate).
    + exfalso. apply in_map_iff in Hk as ([o x] & E & _). apply (f_equal snd) in E. cbn [snd] in E. rewrite <- E in Hb. revert Hb. apply other_kind; (reflexivity || discriminate).
Qed.

(** ** Executions on chain *)
Definition addr_ok (z : Z) : bool := (0 <=? z) && (z <? 2 ^ 256).
Definition cfg_ok (c : mcfg) : bool :=
  forallb addr_ok [c_authority c; c_collect_fee_admin c; c_open_orders_admin c; c_consume_events_admin c; c_close_market_admin c; c_oracle_a c;
    c_oracle_b c; c_base_mint c; c_quote_mint c; c_base_vault c; c_quote_vault c].
Definition call_ok (e : env) (i : pinstr) : bool :=
  (e_now e <? 2 ^ 63) &&
  match i with
  | PMarket _ (IPlaceOrder x _) => addr_ok (px_acct x)
  | PMarket _ (ISetExpired _) | PMarket _ (ICloseMarket _) => true
  | PMarket _ _ => false
  | PCreateMarket m c _ => addr_ok m && cfg_ok c
  | PCreateAccount _ owner delegate _ => addr_ok owner && addr_ok delegate
  | _ => true
  end.
Lemma call_ok_machine e i : call_ok e i = true -> machine_pcall e i.
Proof.
  intros H. unfold call_ok in H. apply andb_prop in H as [Hn H]. assert (Hn' : e_now e < 2 ^ 63) by lia. split; [exact Hn'|].
  destruct i as [m i|i|m c te|owner|owner|m owner delegate nl|m owner k]; try exact I.
  - split; [exact Hn'|]. destruct i; try discriminate H; try exact I. unfold addr_ok in H. unfold is_address. lia.
  - apply andb_prop in H as [H1 H2]. split; [unfold addr_ok in H1; unfold is_address; lia|]. unfold cfg_ok in H2. rewrite forallb_forall in H2.
    assert (A : forall z, addr_ok z = true -> is_address z) by (intros z; unfold addr_ok, is_address; lia).
    constructor; apply A, H2; cbn [In]; tauto.
  - unfold addr_ok in H. unfold is_address. lia.
Qed.
Lemma prun_chain l : forall p, program_on_chain addr58 p -> forallb (fun x => call_ok (fst x) (snd x)) l = true -> is_ok (prun (Ok p) l) = true ->
  program_on_chain addr58 (the_prog (prun (Ok p) l)).
Proof.
  induction l as [|[e i] l IH]; intros p Hp Hc H; [exact Hp|]. cbn [forallb fst snd] in Hc. apply andb_prop in Hc as [Hc Hl].
  cbn [prun bind] in *. destruct (pexec addr58 e p i) as [[p1 out]|] eqn:E; cbn [bind fst] in *.
  - apply IH; [|exact Hl|exact H]. exact (pon_step _ _ _ _ _ _ Hp (call_ok_machine _ _ Hc) E).
  - exfalso. clear - H. destruct l as [|[e' i'] l]; cbn [prun bind is_ok] in H; discriminate H.
Qed.
Lemma two_markets_chain : program_on_chain addr58 two_markets.
Proof. apply prun_chain; [constructor|vm_compute; reflexivity|vm_compute; reflexivity]. Qed.
(** One owner with 51 accounts. *)
Definition crowd_run : list (env * pinstr) :=
  [(at_time 5 None, PCreateMarket 40 market40 0); (at_time 7 None, PCreateIndexer 1)] ++ repeat (at_time 8 None, PCreateAccount 40 1 0 3) 51.
Definition crowd : prog := the_prog (prun (Ok (prog0 start_tokens)) crowd_run).
Lemma crowd_chain : program_on_chain addr58 crowd.
Proof. apply prun_chain; [constructor|vm_compute; reflexivity|vm_compute; reflexivity]. Qed.
(** Two accounts; the market of the second is closed. *)
Definition half_closed_run : list (env * pinstr) :=
  [(at_time 5 None, PCreateMarket 40 market40 0); (at_time 6 None, PCreateMarket 41 market41 0); (at_time 7 None, PCreateIndexer 2);
   (at_time 8 None, PCreateAccount 40 2 0 3); (at_time 8 None, PCreateAccount 41 2 0 3);
   (at_time 9 None, PMarket 41 (ISetExpired 71)); (at_time 10 None, PMarket 41 (ICloseMarket 71))].
Definition half_closed : prog := the_prog (prun (Ok (prog0 start_tokens)) half_closed_run).
Lemma half_closed_chain : program_on_chain addr58 half_closed.
Proof. apply prun_chain; [constructor|vm_compute; reflexivity|vm_compute; reflexivity]. Qed.
Definition is_some {A} (o : option A) : bool := match o with Some _ => true | None => false end.
Lemma fine_all p : fine p && nodupb (map fst (p_mkts p)) && forallb (fun x : Z * (world * bool) => nodupb (map fst (w_accts (fst (snd x))))) (p_mkts p) = true ->
  all_accounts kinds83 p (node p) (dump p).
Proof.
  intros H. apply andb_prop in H as [H H3]. apply andb_prop in H as [H1 H2]. rewrite forallb_forall in H3.
  apply node_all; [exact H1|exact (nodupb_ok _ H2)|]. intros x Hx. exact (nodupb_ok _ (H3 _ Hx)).
Qed.
