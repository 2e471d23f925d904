(* Specification of the generated timeline files (C84, C85). *)
From Coq Require Import ZArith QArith String List Bool.
From Verif Require Import Base Util Device SpecDevice Multichip.
Import ListNotations.
Local Open Scope list_scope.
Open Scope Z_scope.

(* the link of the simulator that an entry names *)
Definition attr_of (l : plink) : link_attr := let '(d, r, c, t) := l in mkLink (mkCoord d r c) t.
Definition on_grid (rows cols : Z) (p : Z * Z) : Prop := 0 <= fst p < rows /\ 0 <= snd p < cols.
Definition core (dev : Z) (p : Z * Z) : coord := mkCoord dev (fst p) (snd p).

(* a draw of the script for a given grid and number of chips *)
Definition drawn (rows cols devices : Z) (r : draw) : Prop :=
  0 < dr_bytes r /\ 0 <= dr_dev r < devices /\ on_grid rows cols (dr_src r) /\ on_grid rows cols (dr_dst r) /\ dr_src r <> dr_dst r /\ 0 <= dr_start r.
Definition between_chips (devices : Z) (r : draw) : Prop := dr_inter r = true /\ 1 < devices.

(* a cycle of the timestep [a, b) in which the transfer is under way *)
Definition under_way (a b : Z) (t : gen_transfer) : Prop := exists c, a <= c < b /\ gt_start t <= c < gt_end t.
(* the demand of a transfer on each of its links: its bytes by its duration, in which the script counts the end as well *)
Definition share (t : gen_transfer) : Q := (inject_Z (gt_bytes t) / inject_Z (gt_end t - gt_start t + 1))%Q.
(* q is the sum of the shares of the transfers of ts that use link l during [a, b) *)
Inductive link_sum (l : plink) (a b : Z) : list gen_transfer -> Q -> Prop :=
| ls_nil : link_sum l a b [] 0
| ls_use t ts q q' : In l (gt_links t) -> under_way a b t -> link_sum l a b ts q -> (q' == share t + q)%Q -> link_sum l a b (t :: ts) q'
| ls_skip t ts q : ~ (In l (gt_links t) /\ under_way a b t) -> link_sum l a b ts q -> link_sum l a b (t :: ts) q.
(* the demand of a link in a timestep; 0 if it is not listed *)
Definition demand_of (s : gen_step) (l : plink) : Q := match find (fun e => plink_eqb (fst e) l) (gs_demands s) with Some e => snd e | None => 0%Q end.
(* the links of a NoC *)
Definition on_noc (noc : noc_type) (l : plink) : Prop :=
  match noc with NOC0 => snd l = NOC0_EAST \/ snd l = NOC0_SOUTH | NOC1 => snd l = NOC1_NORTH \/ snd l = NOC1_WEST end.
(* n is the number of cycles that a transfer of the given bytes takes: 28.1 bytes in each cycle, rounded down, and at least 40 cycles *)
Definition lasts (bytes n : Z) : Prop := n = 40 /\ 10 * bytes < 281 * 41 \/ 40 < n /\ 281 * n <= 10 * bytes < 281 * (n + 1).
(* ls is a list of links, each once, with all those of the timestep that satisfy P and no other *)
Definition all_of (P : plink -> Prop) (s : gen_step) (ls : list plink) : Prop :=
  NoDup ls /\ (forall l, In l ls -> P l) /\ forall l, In l (map fst (gs_demands s)) -> P l -> In l ls.
Definition sum_of {X} (f : X -> Q) (l : list X) : Q := fold_right (fun x q => f x + q)%Q 0%Q l.
