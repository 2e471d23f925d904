(* Model of tt_npe/cpp/include/npeUtil.hpp. No proofs in this file. *)
From Coq Require Import ZArith String List Bool.
From Verif Require Import Base.
Import ListNotations.
Open Scope Z_scope.

(** * Integer helpers *)

(* npeUtil.hpp:88-90. C++ % is the truncated remainder (Z.rem). int64_t operands; the
   intermediate sum is computed in int64_t: signed overflow is undefined behaviour. *)
Definition in_i64 (z : Z) : bool := (- 2 ^ 63 <=? z) && (z <? 2 ^ 63).
Definition wrapToRange (number range : Z) : outcome Z :=
  if range =? 0 then UB "division by zero"
  else
    let s := Z.rem number range + range in
    if in_i64 s then Ok (Z.rem s range) else UB "signed overflow".

(* npeUtil.hpp:92-96, at T = int64_t, U = int (the only instantiation in the library:
   wormhole_b0.hpp:397-401, blackhole.hpp:409-413). *)
Definition modulo (n modulus : Z) : outcome Z :=
  if modulus =? 0 then UB "division by zero"
  else
    let result := Z.rem n modulus in
    Ok (if result <? 0 then result + modulus else result).

(** * uniquify: npeUtil.hpp:154-160 (std::sort, std::unique, erase) *)
Section Uniquify.
  Context {A : Type} (lt : A -> A -> bool) (eqb : A -> A -> bool).
  Fixpoint sort_insert (x : A) (l : list A) : list A :=
    match l with
    | [] => [x]
    | y :: l' => if lt y x then y :: sort_insert x l' else x :: l
    end.
  (* std::sort; simplified to insertion sort, the algorithm is not specified by C++ *)
  Fixpoint sort (l : list A) : list A :=
    match l with
    | [] => []
    | x :: l' => sort_insert x (sort l')
    end.
  (* std::unique keeps the first element of each run of equal elements *)
  Fixpoint unique_from (prev : A) (l : list A) : list A :=
    match l with
    | [] => []
    | x :: l' => if eqb prev x then unique_from prev l' else x :: unique_from x l'
    end.
  Definition unique (l : list A) : list A :=
    match l with
    | [] => []
    | x :: l' => x :: unique_from x l'
    end.
  Definition uniquify (l : list A) : list A := unique (sort l).
End Uniquify.

(** * Coordinates: npeUtil.hpp:162-170 *)
Record coord : Type := mkCoord { c_dev : Z; c_row : Z; c_col : Z }.

(* constructor Coord(DeviceID, int, int): members are int16_t *)
Definition Coord_make (dev row col : Z) : coord := mkCoord (i16 dev) (i16 row) (i16 col).
Definition Coord_default : coord := mkCoord (-1) (-1) (-1).
Definition coord_eqb (a b : coord) : bool :=
  (c_dev a =? c_dev b) && (c_row a =? c_row b) && (c_col a =? c_col b).

(** * Multicast sets: npeUtil.hpp:172-300 *)
Record cgrid : Type := mkGrid { g_start : coord; g_end : coord }.
Definition mcast : Type := list cgrid.

(* 176-184: equality of grids compares rows and columns only *)
Definition cgrid_eqb (a b : cgrid) : bool :=
  (c_row (g_start a) =? c_row (g_start b)) && (c_col (g_start a) =? c_col (g_start b)) &&
  (c_row (g_end a) =? c_row (g_end b)) && (c_col (g_end a) =? c_col (g_end b)).

(* 190-196 *)
Definition mcast_make (s e : coord) : outcome mcast :=
  let! _ := tt_assert (c_dev s =? c_dev e) in
  let! _ := tt_assert ((c_row s <=? c_row e) || (c_col s <=? c_col e)) in
  Ok [mkGrid s e].

(* 201-209 *)
Fixpoint mcast_eqb (a b : mcast) : bool :=
  match a, b with
  | [], [] => true
  | x :: a', y :: b' => cgrid_eqb x y && mcast_eqb a' b'
  | _, _ => false
  end.

(* 211-220 *)
Definition mcast_device_ids (m : mcast) : list Z := map (fun g => c_dev (g_start g)) m.

(* 223-278: iterator state = (current position, current grid index) *)
Definition mc_iter : Type := coord * nat.

Definition mc_begin (m : mcast) : mc_iter :=          (* 280-284 *)
  match m with
  | [] => (Coord_default, O)
  | g :: _ => (g_start g, O)
  end.
Definition mc_at_end (m : mcast) (it : mc_iter) : bool :=  (* it != end() is negated: 262-270, 287-290 *)
  Nat.eqb (snd it) (List.length m).

Definition mc_next (m : mcast) (it : mc_iter) : mc_iter :=   (* 234-261; int16_t increments wrap *)
  let '(pos, idx) := it in
  match nth_error m idx with
  | None => it
  | Some g =>
      if c_col pos <? c_col (g_end g) then
        (mkCoord (c_dev pos) (c_row pos) (i16 (c_col pos + 1)), idx)
      else
        let pos' := mkCoord (c_dev pos) (i16 (c_row pos + 1)) (c_col (g_start g)) in
        if c_row pos' >? c_row (g_end g) then
          match nth_error m (S idx) with
          | Some g' => (g_start g', S idx)
          | None => (pos', S idx)
          end
        else (pos', idx)
  end.

(* for (auto c : mcast): the coordinates visited; [None] when the fuel is used up *)
Fixpoint mc_walk (fuel : nat) (m : mcast) (it : mc_iter) : option (list coord) :=
  if mc_at_end m it then Some []
  else match fuel with
       | O => None
       | S fuel' => option_map (cons (fst it)) (mc_walk fuel' m (mc_next m it))
       end.

(* Fuel sufficient for a walk: number of cells, at least one per grid. *)
Definition grid_cells (g : cgrid) : nat :=
  (Z.to_nat (Z.max 1 (c_row (g_end g) - c_row (g_start g) + 1)) *
   Z.to_nat (Z.max 1 (c_col (g_end g) - c_col (g_start g) + 1)))%nat.
Definition mc_fuel (m : mcast) : nat := S (list_sum (map grid_cells m)).
Definition mcast_coords (m : mcast) : outcome (list coord) :=
  match mc_walk (mc_fuel m) m (mc_begin m) with
  | Some l => Ok l
  | None => Diverge
  end.

(* 292-299: int arithmetic per grid, accumulated in size_t *)
Definition in_i32 (z : Z) : bool := (- 2 ^ 31 <=? z) && (z <? 2 ^ 31).
Definition grid_size (m : mcast) : outcome Z :=
  foldM (fun total g =>
    let n := (c_row (g_end g) - c_row (g_start g) + 1) * (c_col (g_end g) - c_col (g_start g) + 1) in
    if in_i32 n then Ok (u64 (total + n)) else UB "signed overflow") m 0.

(** * Destinations: npeUtil.hpp:303-311 *)
Inductive noc_dest : Type :=
| Unicast : coord -> noc_dest
| Multicast : mcast -> noc_dest.

Definition dest_device_ids (d : noc_dest) : list Z :=
  match d with
  | Unicast c => [c_dev c]
  | Multicast m => mcast_device_ids m
  end.

(** * Zones: npeUtil.hpp:313-373 *)
Inductive risc_type := BRISC | NCRISC | TRISC_0 | TRISC_1 | TRISC_2 | ERISC | CORE_AGG.
Inductive zone_phase := ZONE_START | ZONE_END.
(* timestamp is a double in the code, holding an integer read from the trace *)
Record zone : Type := mkZone { z_ts : Z; z_name : string; z_phase : zone_phase }.

Record zone_iter : Type := mkZI {
  zi_list : list zone;
  zi_index : nat;
  zi_enclosing : list (zone * Z);         (* innermost zone last *)
  zi_counts : list (string * Z) }.

Definition zi_make (l : list zone) : zone_iter := mkZI l O [] [].

Fixpoint count_get (cs : list (string * Z)) (k : string) : Z :=
  match cs with
  | [] => 0
  | (k', v) :: cs' => if String.eqb k' k then v else count_get cs' k
  end.
Fixpoint count_inc (cs : list (string * Z)) (k : string) : list (string * Z) :=
  match cs with
  | [] => [(k, 1)]
  | (k', v) :: cs' => if String.eqb k' k then (k', v + 1) :: cs' else (k', v) :: count_inc cs' k
  end.

Definition last_enclosing (z : zone_iter) : option (zone * Z) :=
  match rev (zi_enclosing z) with
  | [] => None
  | x :: _ => Some x
  end.

(* 338-356 *)
Definition zi_next (it : zone_iter) : outcome zone_iter :=
  match nth_error (zi_list it) (zi_index it) with
  | None => Ok it
  | Some z =>
      match z_phase z with
      | ZONE_START =>
          Ok (mkZI (zi_list it) (S (zi_index it))
                   (zi_enclosing it ++ [(z, count_get (zi_counts it) (z_name z))])
                   (count_inc (zi_counts it) (z_name z)))
      | ZONE_END =>
          match last_enclosing it with
          | Some (top, _) =>
              if String.eqb (z_name z) (z_name top) then
                Ok (mkZI (zi_list it) (S (zi_index it)) (removelast (zi_enclosing it)) (zi_counts it))
              else Throw UNDEF_ERR
          | None => Throw UNDEF_ERR
          end
      end
  end.

Definition zi_is_end (it : zone_iter) : bool := Nat.eqb (zi_index it) (List.length (zi_list it)).

(** * Hashing: npeUtil.hpp:379-462. Words are non-negative integers below 2^64. *)
Definition xorshift (n i : Z) : Z := Z.lxor n (Z.shiftr n i).
Definition distribute32 (n : Z) : Z :=     (* 385-389 *)
  u32 (3423571495 * xorshift (u32 (1431655765 * xorshift n 16)) 16).
Definition distribute64 (n : Z) : Z :=     (* 392-396 *)
  u64 (17316035218449499591 * xorshift (u64 (6148914691236517205 * xorshift n 32)) 32).
(* std::rotl on a 64-bit word *)
Definition rotl64 (x k : Z) : Z := Z.lor (u64 (Z.shiftl x k)) (Z.shiftr x (64 - k)).
(* 400-404; ROTATION = 64/3 = 21; [h] is the std::hash of the value *)
Definition hash_combine (seed h : Z) : Z := Z.lxor (rotl64 seed 21) (distribute64 h).
(* std::hash of an integer: identity conversion to size_t (libstdc++ and libc++) *)
Definition hash_int (z : Z) : Z := u64 z.

(* 421-429 *)
Definition hash_coord (c : coord) : Z :=
  hash_combine (hash_combine (hash_combine 0 (hash_int (c_dev c))) (hash_int (c_row c))) (hash_int (c_col c)).
(* 433-440 *)
Definition hash_grid (g : cgrid) : Z :=
  hash_combine (hash_combine 0 (hash_coord (g_start g))) (hash_coord (g_end g)).
(* 409-414, 444-450 *)
Definition hash_mcast (m : mcast) : Z := fold_left (fun seed g => hash_combine seed (hash_grid g)) m 0.
