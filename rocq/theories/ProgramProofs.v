(** The statements of [PropsProgram]. *)
From Coq Require Import ZArith List Bool Lia ZifyBool.
From Verif Require Import Base Nodes OrderTree BookSide Heap Market OpenOrders Order Book Instructions BaseFacts
  SpecBook SpecOrder SpecLedger SpecEvents SpecSystem SystemFacts TokenFacts Solvency SpecControl EndFacts SystemProofs Program SpecProgram ProgFacts IndexFacts.
Import ListNotations.
Open Scope Z_scope.

Lemma market_alone addr p m s : preachable addr p -> market_in p m = Some s -> reachable s.
Proof. intros H. exact (pv_reach _ (preachable_inv _ _ H) m s). Qed.

Lemma vault_owned s v : reachable s -> In v (vaults_of s) -> exists x, s_tok s v = Some x /\ t_owner x = authority_of (s_w s).
Proof.
  intros R. pose proof (reachable_funded _ R) as (_ & (x & Hx & Ox & _) & (y & Hy & Oy & _)).
  intros [<-|[<-|[]]]; [exists x|exists y]; split; assumption.
Qed.

Lemma others_untouched addr e p i p' out m s : preachable addr p -> pexec addr e p i = Ok (p', out) ->
  market_in p m = Some s -> market_of i <> Some m ->
  let c := m_cfg (w_mkt (s_w s)) in
  exists s', market_in p' m = Some s' /\ s_w s' = s_w s /\ s_closed s' = s_closed s /\
    amount_in (p_tok p) (c_base_vault c) <= amount_in (p_tok p') (c_base_vault c) /\
    amount_in (p_tok p) (c_quote_vault c) <= amount_in (p_tok p') (c_quote_vault c).
Proof.
  intros Hr H Hm N c. pose proof (preachable_inv _ _ Hr) as Hp. destruct (proj2 (pexec_inv _ _ _ _ _ _ Hp H) _ _ Hm N) as [G1 G2].
  assert (V : forall v, In v (vaults_of s) -> amount_in (p_tok p) v <= amount_in (p_tok p') v).
  { intros v Hv. destruct (vault_owned _ _ (pv_reach _ Hp _ _ Hm) Hv) as (x & Hx & Ox). rewrite (proj2 (market_in_get _ _ _ Hm)) in Hx.
    destruct (outside_kept _ _ _ _ _ G2 Hx Ox) as (n & E & L). unfold amount_in. rewrite Hx, E. exact L. }
  exists (mkSys (s_w s) (p_tok p') (s_closed s)). split; [exact G1|]. split; [reflexivity|]. split; [reflexivity|].
  split; apply V; [left|right; left]; reflexivity.
Qed.

Lemma vaults_apart addr p m m' s s' : preachable addr p -> market_in p m = Some s -> market_in p m' = Some s' -> m <> m' ->
  forall v v', In v (vaults_of s) -> In v' (vaults_of s') -> v <> v'.
Proof.
  intros Hr Hm Hm' N v v' Hv Hv' <-. pose proof (preachable_inv _ _ Hr) as Hp.
  destruct (vault_owned _ _ (pv_reach _ Hp _ _ Hm) Hv) as (x & Hx & Ox). destruct (vault_owned _ _ (pv_reach _ Hp _ _ Hm') Hv') as (y & Hy & Oy).
  rewrite (proj2 (market_in_get _ _ _ Hm)) in Hx. rewrite (proj2 (market_in_get _ _ _ Hm')) in Hy.
  apply (authorities_differ _ _ _ _ _ Hp Hm Hm' N). congruence.
Qed.

Lemma indexers_right addr p : addresses_differ addr -> preachable addr p -> well_indexed p /\ numbered_by addr p.
Proof. intros Hd Hr. exact (xok_well _ _ (preachable_xok _ _ Hd Hr)). Qed.

Lemma account_closes addr e p m o k : addresses_differ addr -> preachable addr p -> is_authority p o = false ->
  (exists p' out, pexec addr e p (PCloseAccount m o k) = Ok (p', out)) <->
  (exists a, account_in p m k a /\ a_owner a = o /\ empty_handed a /\ p_penalty (a_pos a) = 0).
Proof.
  intros Hd Hr Ha. split.
  - intros (p' & out & H). cbn [pexec] in H. apply bind_ok in H as (? & _ & H). apply bind_ok in H as (y & Ex & H). apply bind_ok in H as (? & _ & H).
    apply bind_ok in H as (s & Em & H). apply load_market_in in Em. apply bind_ok in H as ([s' o'] & E & _).
    pose proof (close_own _ _ _ _ _ _ E) as (a & G1 & G2 & G3 & _). exists a. split; [exists s; split; assumption|]. split; [exact G2|].
    split; [exact (proj1 (close_account_ok _ _ _ _ _ _ _ (market_alone _ _ _ _ Hr Em) E G1))|].
    unfold position_is_empty in G3. repeat (apply andb_prop in G3 as [G3 ?]). lia.
  - intros (a & G1 & G2 & G3 & G4). apply (closes_iff _ _ _ _ _ _ Hd Hr Ha). exists a. split; [exact G1|]. split; [exact G2|].
    unfold empty_handed in G3. cbv zeta in G3. unfold position_is_empty. lia.
Qed.
