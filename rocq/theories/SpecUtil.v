(* Specifications for the helpers of npeUtil.hpp, written without the model's algorithms: they use only
   the data types of the model (coordinates, rectangles, zone events). *)
From Coq Require Import ZArith String List Bool Sorting.Sorted Permutation.
From Verif Require Import Base Util.
Import ListNotations.
Open Scope Z_scope.

(** * Remainders (C12) *)
(* v is the Euclidean remainder of n modulo r *)
Definition is_remainder (n r v : Z) : Prop := 0 <= v < r /\ exists k, n = k * r + v.

(** * Rectangles (C09) *)
Definition coord_i16 (c : coord) : Prop :=
  - 2 ^ 15 <= c_dev c < 2 ^ 15 /\ - 2 ^ 15 <= c_row c < 2 ^ 15 /\ - 2 ^ 15 <= c_col c < 2 ^ 15.
(* a rectangle on one chip with ordered corners, whose last row is not the largest int16_t *)
Definition wf_rect (g : cgrid) : Prop :=
  coord_i16 (g_start g) /\ coord_i16 (g_end g) /\
  c_row (g_start g) <= c_row (g_end g) < 2 ^ 15 - 1 /\ c_col (g_start g) <= c_col (g_end g).
Definition in_rect (g : cgrid) (c : coord) : Prop :=
  c_dev c = c_dev (g_start g) /\
  c_row (g_start g) <= c_row c <= c_row (g_end g) /\
  c_col (g_start g) <= c_col c <= c_col (g_end g).
(* strict row-major order *)
Definition row_major (a b : coord) : Prop :=
  c_row a < c_row b \/ (c_row a = c_row b /\ c_col a < c_col b).
(* the cells of one rectangle, row-major, each once *)
Definition enumerates (g : cgrid) (l : list coord) : Prop :=
  (forall c, In c l <-> in_rect g c) /\ StronglySorted row_major l.
(* rectangle after rectangle *)
Inductive enumerates_all : mcast -> list coord -> Prop :=
| enum_nil : enumerates_all [] []
| enum_cons g m l ls : enumerates g l -> enumerates_all m ls -> enumerates_all (g :: m) (l ++ ls).

(** * Zones (C14) *)
(* open_at evs st: after the events evs, the zones begun and not yet ended are those begun by the
   events at the positions st (outermost first). No st exists when an end event does not match. *)
Inductive open_at : list zone -> list nat -> Prop :=
| open_nil : open_at [] []
| open_start evs st z :
    open_at evs st -> z_phase z = ZONE_START -> open_at (evs ++ [z]) (st ++ [List.length evs])
| open_end evs st i b z :
    open_at evs (st ++ [i]) -> z_phase z = ZONE_END -> nth_error evs i = Some b ->
    z_name b = z_name z -> open_at (evs ++ [z]) st.
(* well-nested event sequences as a grammar *)
Inductive well_nested : list zone -> Prop :=
| wn_nil : well_nested []
| wn_pair b inner e rest :
    z_phase b = ZONE_START -> z_phase e = ZONE_END -> z_name b = z_name e ->
    well_nested inner -> well_nested rest -> well_nested (b :: inner ++ e :: rest).
(* number of begin events with the given name *)
Definition begins (name : string) (evs : list zone) : nat :=
  List.length (filter (fun z => match z_phase z with ZONE_START => String.eqb (z_name z) name | _ => false end) evs).
(* the event at position i of evs together with the number of earlier begins of the same name *)
Definition zone_entry (evs : list zone) (i : nat) (e : zone * Z) : Prop :=
  exists z, nth_error evs i = Some z /\ e = (z, Z.of_nat (begins (z_name z) (firstn i evs))).

(* k calls of next() *)
Fixpoint iterate (k : nat) (it : zone_iter) : outcome zone_iter :=
  match k with
  | O => Ok it
  | S k' => let! it' := iterate k' it in zi_next it'
  end.

(** * Words (C11) *)
Definition word (bits x : Z) : Prop := 0 <= x < 2 ^ bits.
Definition bijective_on (P : Z -> Prop) (f : Z -> Z) : Prop :=
  (forall x, P x -> P (f x)) /\
  (forall x y, P x -> P y -> f x = f y -> x = y) /\
  (forall y, P y -> exists x, P x /\ f x = y).
