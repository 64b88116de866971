(** Model of the client's cache of accounts: /repo/lib/client/src/chain_data.rs.

    [HashMap]s are association lists without repeated keys, pubkeys and the contents of
    accounts are numbers.  Slots are [u64]. *)
From Coq Require Import ZArith List Bool.
From Verif Require Import Base.
Import ListNotations.
Open Scope Z_scope.

(** chain_data.rs 7-12 *)
Inductive slot_status : Type := Rooted | Confirmed | Processed.
Definition is_rooted (x : slot_status) : bool := match x with Rooted => true | _ => false end.
Definition is_processed (x : slot_status) : bool := match x with Processed => true | _ => false end.

(** chain_data.rs 14-20 *)
Record slot_data : Type := mkSlot {
  sd_slot : Z;
  sd_parent : option Z;
  sd_status : slot_status;
  sd_chain : Z }.

(** chain_data.rs 22-26 *)
Record write : Type := mkWrite { wr_slot : Z; wr_data : Z }.

(** chain_data.rs 32-40 *)
Record chain_data : Type := mkChain {
  cd_slots : list (Z * slot_data);
  cd_accounts : list (Z * list write);
  cd_rooted : Z;                            (* newest_rooted_slot *)
  cd_processed : Z;                         (* newest_processed_slot *)
  cd_best : Z }.                            (* best_chain_slot *)

(** [HashMap::get] and [HashMap::insert] *)
Fixpoint map_get {A} (k : Z) (m : list (Z * A)) : option A :=
  match m with
  | [] => None
  | (k', a) :: r => if k' =? k then Some a else map_get k r
  end.
Fixpoint map_set {A} (k : Z) (a : A) (m : list (Z * A)) : list (Z * A) :=
  match m with
  | [] => [(k, a)]
  | (k', a') :: r => if k' =? k then (k, a) :: r else (k', a') :: map_set k a r
  end.

(** chain_data.rs 49-57 *)
Definition chain_new : chain_data := mkChain [] [] 0 0 0.

(** chain_data.rs 97-110: mark the chain downwards from [slot].  The loop of the code has no
    bound; [OutOfFuel] stands for a loop that does not end. *)
Fixpoint mark (fuel : nat) (slots : list (Z * slot_data)) (slot best : Z) : res (list (Z * slot_data)) :=
  match fuel with
  | O => Err OutOfFuel
  | S f =>
      match map_get slot slots with
      | None => Ok slots
      | Some d =>
          let slots' := map_set slot (mkSlot (sd_slot d) (sd_parent d) (sd_status d) best) slots in
          if is_rooted (sd_status d) then Ok slots'
          else match sd_parent d with
               | Some p => mark f slots' p best
               | None => Ok slots'
               end
      end
  end.

(** chain_data.rs 117-138 *)
Definition newest_rooted_write (slots : list (Z * slot_data)) (rooted best : Z) (l : list write) : option Z :=
  option_map wr_slot
    (find (fun w =>
       (wr_slot w <=? rooted) &&
       match map_get (wr_slot w) slots with
       | Some s => is_rooted (sd_status s) || (sd_chain s =? best)
       | None => true
       end) (rev l)).
Definition prune_writes (slots : list (Z * slot_data)) (rooted best : Z) (l : list write) : res (list write) :=
  dflt <- chk_u64 (rooted + 1) ;;
  let n := match newest_rooted_write slots rooted best l with Some n => n | None => dflt end in
  Ok (filter (fun w => (wr_slot w =? n) || (rooted <? wr_slot w)) l).
Fixpoint prune_accounts (slots : list (Z * slot_data)) (rooted best : Z) (m : list (Z * list write))
  : res (list (Z * list write)) :=
  match m with
  | [] => Ok []
  | (k, l) :: r =>
      l' <- prune_writes slots rooted best l ;;
      r' <- prune_accounts slots rooted best r ;;
      Ok ((k, l') :: r')
  end.

(** chain_data.rs 81-93: the slots with the new data, and whether a parent was announced that
    differs from the stored one. *)
Definition same_parent (a b : option Z) : bool :=
  match a, b with
  | Some x, Some y => x =? y
  | None, None => true
  | _, _ => false
  end.
Definition record_slot (slots : list (Z * slot_data)) (d : slot_data) : list (Z * slot_data) * bool :=
  match map_get (sd_slot d) slots with
  | None => (map_set (sd_slot d) d slots, false)
  | Some v =>
      (map_set (sd_slot d)
         (mkSlot (sd_slot v)
            (match sd_parent v with Some p => Some p | None => sd_parent d end)
            (if is_processed (sd_status v) || is_rooted (sd_status d) then sd_status d else sd_status v)
            (sd_chain v)) slots,
       negb (same_parent (sd_parent v) (sd_parent d)) &&
       match sd_parent d with Some _ => true | None => false end)
  end.

(** chain_data.rs 59-147 *)
Definition update_slot (c : chain_data) (d : slot_data) : res chain_data :=
  let processed := if cd_processed c <? sd_slot d then sd_slot d else cd_processed c in
  let new_root := (cd_rooted c <? sd_slot d) && is_rooted (sd_status d) in
  let rooted := if new_root then sd_slot d else cd_rooted c in
  let new_best := match sd_parent d with Some _ => cd_best c <? sd_slot d | None => false end in
  let best := if new_best then sd_slot d else cd_best c in
  let '(slots, parent_update) := record_slot (cd_slots c) d in
  slots <- (if new_best || parent_update then mark (S (length slots)) slots best best else Ok slots) ;;
  if new_root then
    accounts <- prune_accounts slots rooted best (cd_accounts c) ;;
    Ok (mkChain (filter (fun x => rooted <=? fst x) slots) accounts rooted processed best)
  else Ok (mkChain slots (cd_accounts c) rooted processed best).

(** [Iterator::position] *)
Fixpoint position {A} (p : A -> bool) (l : list A) : option nat :=
  match l with
  | [] => None
  | x :: r => if p x then Some O else option_map S (position p r)
  end.
(** chain_data.rs 157-169: the position in the list of writes *)
Definition insert_write (l : list write) (w : write) : list write :=
  let rev_pos := match position (fun d => wr_slot d <=? wr_slot w) (rev l) with
                 | Some n => n
                 | None => length l
                 end in
  let pos := (length l - rev_pos)%nat in
  match nth_error l pos with
  | Some d => if wr_slot d =? wr_slot w then firstn pos l ++ w :: skipn (S pos) l
              else firstn pos l ++ w :: skipn pos l
  | None => firstn pos l ++ w :: skipn pos l
  end.
(** chain_data.rs 149-172 *)
Definition update_account (c : chain_data) (k : Z) (w : write) : chain_data :=
  let l := match map_get k (cd_accounts c) with
           | None => [w]
           | Some l => insert_write l w
           end in
  mkChain (cd_slots c) (map_set k l (cd_accounts c)) (cd_rooted c) (cd_processed c) (cd_best c).

(** chain_data.rs 174-188 *)
Definition update_from_rpc (c : chain_data) (k : Z) (w : write) : res chain_data :=
  c' <- (if cd_best c <? wr_slot w then update_slot c (mkSlot (wr_slot w) (Some (cd_best c)) Processed 0)
         else Ok c) ;;
  Ok (update_account c' k w).

(** chain_data.rs 190-201 *)
Definition is_account_write_live (c : chain_data) (w : write) : bool :=
  match map_get (wr_slot w) (cd_slots c) with
  | Some s => is_rooted (sd_status s) || (sd_chain s =? cd_best c) || (cd_best c <? wr_slot w)
  | None => wr_slot w <=? cd_rooted c
  end.

(** chain_data.rs 223-231; [None] for both of its errors. *)
Definition account_and_slot (c : chain_data) (k : Z) : option write :=
  match map_get k (cd_accounts c) with
  | None => None
  | Some l => find (is_account_write_live c) (rev l)
  end.
(** chain_data.rs 218-220 *)
Definition account (c : chain_data) (k : Z) : option Z := option_map wr_data (account_and_slot c k).
(** chain_data.rs 204-215 and 233-241 *)
Definition accounts_snapshot (c : chain_data) : list (Z * write) :=
  flat_map (fun x => match find (is_account_write_live c) (rev (snd x)) with
                     | Some w => [(fst x, w)]
                     | None => []
                     end) (cd_accounts c).

(** chain_data.rs 243-253 *)
Definition slots_count (c : chain_data) : nat := length (cd_slots c).
Definition accounts_count (c : chain_data) : nat := length (cd_accounts c).
Definition account_writes_count (c : chain_data) : nat :=
  fold_right (fun x n => (length (snd x) + n)%nat) O (cd_accounts c).
