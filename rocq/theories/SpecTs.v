(** Specification vocabulary for the TypeScript client. *)
From Coq Require Import ZArith List Bool.
From Verif Require Import Base Nodes OrderTree BookSide Heap Market OpenOrders Order Book Instructions
  SpecBook SpecFees SpecLedger SpecEvents SpecSystem.
Import ListNotations.
Open Scope Z_scope.

(** ** Depth tables *)
(** Lots offered at a price by the limit orders of a side. *)
Definition lots_at (w : world) (sd : side) (p : Z) : Z :=
  sumZ (map (fun x => if lf_key (snd x) / 2 ^ 64 =? p then lf_qty (snd x) else 0) (orders w sd)).
(** [p] comes strictly before [p']. *)
Definition before (sd : side) (p p' : Z) : Prop := match sd with Bid => p' < p | Ask => p < p' end.
Fixpoint falling (sd : side) (l : list Z) : Prop :=
  match l with [] => True | p :: r => (forall p', In p' r -> before sd p p') /\ falling sd r end.
(** The table has the [depth] best prices of the side, best first, or all of them if there are
    fewer, each with the lots offered at it. *)
Record depth_table (w : world) (sd : side) (depth : Z) (levels : list (Z * Z)) : Prop := {
  dt_depth : Z.of_nat (length levels) <= depth;
  dt_falling : falling sd (map fst levels);
  dt_lots : forall p q, In (p, q) levels -> 0 < q /\ q = lots_at w sd p;
  dt_best : forall t l, In (t, l) (orders w sd) -> In (lf_key l / 2 ^ 64) (map fst levels) \/
    Z.of_nat (length levels) = depth /\ forall p, In p (map fst levels) -> before sd p (lf_key l / 2 ^ 64) }.

(** ** Balances *)
(** What the waiting fills of the orders of [k] will bring: base, and quote after fees. *)
Definition own_fills (k : Z) (w : world) : list fill_event :=
  flat_map (fun e => match e with EFill f => if fe_maker f =? k then [f] else [] | EOut _ => [] end) (waiting w).
Definition base_arriving (k : Z) (w : world) : Z := sumZ (map (base_on_way (w_mkt w)) (own_fills k w)).
Definition quote_arriving (k : Z) (w : world) : Z :=
  sumZ (map (fun f => quote_on_way (w_mkt w) f - fill_fee (w_mkt w) f) (own_fills k w)).

(** ** The account of a market *)
(** state/market.rs 17-117: the fields of a market account with their sizes in bytes, after the
    8 bytes of the discriminator. *)
Inductive market_field : Type :=
| FBump | FBaseDecimals | FQuoteDecimals | FPadding1 | FMarketAuthority | FTimeExpiry | FCollectFeeAdmin
| FOpenOrdersAdmin | FConsumeEventsAdmin | FCloseMarketAdmin | FName | FBids | FAsks | FEventHeap | FOracleA | FOracleB
| FOracleConfig | FQuoteLotSize | FBaseLotSize | FSeqNum | FRegistrationTime | FMakerFee | FTakerFee | FFeesAccrued
| FFeesToReferrers | FReferrerRebatesAccrued | FFeesAvailable | FMakerVolume | FTakerVolumeWoOo | FBaseMint | FQuoteMint
| FMarketBaseVault | FBaseDepositTotal | FMarketQuoteVault | FQuoteDepositTotal | FReserved.
Definition market_layout : list (market_field * nat) :=
  [(FBump, 1); (FBaseDecimals, 1); (FQuoteDecimals, 1); (FPadding1, 5); (FMarketAuthority, 32); (FTimeExpiry, 8);
   (FCollectFeeAdmin, 32); (FOpenOrdersAdmin, 32); (FConsumeEventsAdmin, 32); (FCloseMarketAdmin, 32); (FName, 16);
   (FBids, 32); (FAsks, 32); (FEventHeap, 32); (FOracleA, 32); (FOracleB, 32); (FOracleConfig, 88); (FQuoteLotSize, 8);
   (FBaseLotSize, 8); (FSeqNum, 8); (FRegistrationTime, 8); (FMakerFee, 8); (FTakerFee, 8); (FFeesAccrued, 16);
   (FFeesToReferrers, 16); (FReferrerRebatesAccrued, 8); (FFeesAvailable, 8); (FMakerVolume, 16); (FTakerVolumeWoOo, 16);
   (FBaseMint, 32); (FQuoteMint, 32); (FMarketBaseVault, 32); (FBaseDepositTotal, 8); (FMarketQuoteVault, 32);
   (FQuoteDepositTotal, 8); (FReserved, 128)]%nat.
(** The bytes of an account of that shape: the discriminator and then the fields. *)
Definition market_bytes (discriminator : list Z) (contents : market_field -> list Z) : list Z :=
  discriminator ++ flat_map (fun x => contents (fst x)) market_layout.
Definition sized (discriminator : list Z) (contents : market_field -> list Z) : Prop :=
  length discriminator = 8%nat /\ forall f n, In (f, n) market_layout -> length (contents f) = n.
