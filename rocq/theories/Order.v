(** Model of /repo/programs/openbook-v2/src/state/orderbook/order.rs and of the order
    types of order_type.rs. *)
From Coq Require Import ZArith List Bool.
From Verif Require Import Base Nodes OrderTree BookSide.
Import ListNotations.
Open Scope Z_scope.

(** order_type.rs 20-46 *)
Inductive place_order_type : Type :=
| POLimit | POImmediateOrCancel | POPostOnly | POMarket | POPostOnlySlide | POFillOrKill.

(** order_type.rs 73-85 *)
Inductive post_order_type : Type := PTLimit | PTPostOnly | PTPostOnlySlide.

(** order_type.rs 49-58 *)
Definition to_post_order_type (t : place_order_type) : res post_order_type :=
  match t with
  | POMarket => Err InvalidOrderPostMarket
  | POImmediateOrCancel => Err InvalidOrderPostIOC
  | POFillOrKill => Err InvalidOrderPostIOC
  | POLimit => Ok PTLimit
  | POPostOnly => Ok PTPostOnly
  | POPostOnlySlide => Ok PTPostOnlySlide
  end.

(** order_type.rs 104-115 *)
Inductive self_trade : Type := DecrementTake | CancelProvide | AbortTransaction.

(** order.rs 29-46 *)
Inductive order_params : Type :=
| OMarket
| OImmediateOrCancel (price_lots : Z)
| OFixed (price_lots : Z) (t : post_order_type)
| OOraclePegged (offset : Z) (t : post_order_type) (peg_limit : Z)
| OFillOrKill (price_lots : Z).

(** order.rs 7-27 *)
Record order : Type := mkOrder {
  o_side : side;
  o_max_base : Z;
  o_max_quote : Z;            (* max_quote_lots_including_fees *)
  o_client_id : Z;
  o_tif : Z;
  o_self_trade : self_trade;
  o_params : order_params }.

Definition o_set_max_base (o : order) (v : Z) : order :=
  mkOrder (o_side o) v (o_max_quote o) (o_client_id o) (o_tif o) (o_self_trade o) (o_params o).

(** order.rs 50-64; the clock is a parameter. *)
Definition tif_from_expiry (now expiry : Z) : option Z :=
  if negb (expiry =? 0) then
    let tif := Z.min (Z.max 0 (expiry - now)) u16_max in
    if tif =? 0 then None else Some tif
  else Some 0.

(** order.rs 67-74 *)
Definition is_post_only (o : order) : bool :=
  match o_params o with
  | OFixed _ PTPostOnly | OFixed _ PTPostOnlySlide
  | OOraclePegged _ PTPostOnly _ | OOraclePegged _ PTPostOnlySlide _ => true
  | _ => false
  end.

(** order.rs 77-79 *)
Definition is_fill_or_kill (o : order) : bool :=
  match o_params o with OFillOrKill _ => true | _ => false end.

(** order.rs 82-88 *)
Definition post_target (o : order) : option otree_id :=
  match o_params o with
  | OFixed _ _ => Some Fixed
  | OOraclePegged _ _ _ => Some OraclePegged
  | _ => None
  end.

(** order.rs 177-182 *)
Definition market_order_limit (s : side) : Z := match s with Bid => i64_max | Ask => 1 end.

(** order.rs 186-191 *)
Definition post_only_slide_limit (s : side) (best_other limit : Z) : res Z :=
  match s with
  | Bid => x <- chk_i64 (best_other - 1) ;; Ok (Z.min limit x)
  | Ask => x <- chk_i64 (best_other + 1) ;; Ok (Z.max limit x)
  end.

(** order.rs 92-112; [other] is the opposing book side. *)
Definition price_for_order_type (s : side) (other : bookside) (now : Z) (oracle : option Z)
  (price_lots : Z) (t : post_order_type) : res Z :=
  match t with
  | PTPostOnlySlide =>
      o <- best_price other now oracle ;;
      match o with
      | Some best => post_only_slide_limit s best price_lots
      | None => Ok price_lots
      end
  | _ => Ok price_lots
  end.

(** order.rs 117-165 *)
Definition order_price (o : order) (other : bookside) (now : Z) (oracle : option Z)
  : res (Z * Z) :=
  price_lots <-
    match o_params o with
    | OMarket => Ok (market_order_limit (o_side o))
    | OImmediateOrCancel p => Ok p
    | OFillOrKill p => Ok p
    | OFixed p t => price_for_order_type (o_side o) other now oracle p t
    | OOraclePegged off t _ =>
        op <- match oracle with Some op => Ok op | None => Err OraclePegInvalidOracleState end ;;
        p <- (if in_i64 (op + off) then Ok (op + off) else Err InvalidPriceLots) ;;
        price_for_order_type (o_side o) other now oracle p t
    end ;;
  _ <- require (1 <=? price_lots) InvalidPriceLots ;;
  pd <- match o_params o with
        | OOraclePegged _ _ _ =>
            op <- unwrap oracle ;;
            d <- chk_i64 (price_lots - op) ;;
            Ok (oracle_pegged_price_data d)
        | _ => fixed_price_data price_lots
        end ;;
  Ok (price_lots, pd).

(** order.rs 168-173 *)
Definition order_peg_limit (o : order) : Z :=
  match o_params o with OOraclePegged _ _ pl => pl | _ => -1 end.
