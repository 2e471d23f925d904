(* Model of the texts of coordinates and destinations: the fmt formatters of npeUtil.hpp:483-538. Numbers of type int16_t and DeviceID are written
   in decimal notation with their sign ([signed], as fmt does for "{}"). *)
From Coq Require Import ZArith String List.
From Verif Require Import Base Util Report.
Import ListNotations.
Local Open Scope string_scope.
Local Open Scope list_scope.
Open Scope Z_scope.

(* 487-495 *)
Definition coord_str (c : coord) : string := String.concat "" ["Dev"; signed (c_dev c); "("; signed (c_row c); ","; signed (c_col c); ")"].
(* 510-513: the chip is that of the start coordinate *)
Definition grid_str (g : cgrid) : string :=
  String.concat "" ["Dev"; signed (c_dev (g_start g)); "("; signed (c_row (g_start g)); ","; signed (c_col (g_start g)); ")-("; signed (c_row (g_end g)); ","; signed (c_col (g_end g)); ")"].
(* 507-519: the loop over the grids, of which there is at least one, with a separator after each but the last *)
Fixpoint grids_str (m : mcast) : string :=
  match m with
  | [] => ""
  | [g] => grid_str g
  | g :: m => String.append (grid_str g) (String.append ", " (grids_str m))
  end.
(* 497-522 *)
Definition mcast_str (m : mcast) : string := match m with [] => "(empty)" | _ => grids_str m end.
(* 524-538 *)
Definition dest_str (d : noc_dest) : string := match d with Unicast c => coord_str c | Multicast m => mcast_str m end.
