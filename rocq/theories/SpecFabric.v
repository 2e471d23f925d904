(* Specification of the fabric and of the paths through it (C70-C73). *)
From Coq Require Import ZArith String List Bool Permutation Sorting.Sorted.
From Verif Require Import Util Fabric.
Import ListNotations.
Local Open Scope string_scope.
Local Open Scope list_scope.
Open Scope Z_scope.

(** * C70: neighbours *)
Definition dx (g : dir) : Z := match g with dE => 1 | dW => -1 | _ => 0 end.
Definition dy (g : dir) : Z := match g with dS => 1 | dN => -1 | _ => 0 end.
Definition opposite (g g' : dir) : Prop := dx g' = - dx g /\ dy g' = - dy g.
Definition perpendicular (g g' : dir) : Prop := dx g * dx g' + dy g * dy g' = 0.
(* every key once, positive sizes, one chip for each node *)
Definition well_formed (t : topology) : Prop :=
  NoDup (map fst (tp_shapes t)) /\ NoDup (map fst (tp_planes t)) /\ NoDup (map fst (tp_coord t)) /\ NoDup (map fst (tp_node t)) /\
  NoDup (map fst (tp_device t)) /\ (forall d n, In (d, n) (tp_node t) <-> In (n, d) (tp_device t)) /\
  (forall m ns ew, In (m, (ns, ew)) (tp_shapes t) -> 0 < ns /\ 0 < ew).
Definition inside (ns ew x y : Z) : Prop := 0 <= x < ew /\ 0 <= y < ns.
(* chip d is at column x and row y of the mesh m of that size *)
Definition located (t : topology) (d m ns ew x y : Z) : Prop :=
  In (m, (ns, ew)) (tp_shapes t) /\ In (d, (m, y * ew + x)) (tp_node t) /\ inside ns ew x y.
(* one-dimensional fabric of a T3K: the fabric turns at the corners *)
Definition turning (t : topology) : Prop := (tp_config t = "FABRIC_1D" \/ tp_config t = "FABRIC_1D_RING") /\ tp_cluster t = "T3K".
Definition closed_up (t : topology) : Prop := tp_config t = "FABRIC_1D_RING" \/ tp_config t = "FABRIC_2D_TORUS".
Definition corner (ns ew x y : Z) : Prop := (x = 0 \/ x = ew - 1) /\ (y = 0 \/ y = ns - 1).
Definition turns_here (t : topology) (ns ew x y : Z) (g : dir) : Prop := turning t /\ corner ns ew x y /\ ~ inside ns ew (x + dx g) (y + dy g).
(* the direction in which a message with direction g leaves *)
Definition leaves (t : topology) (ns ew x y : Z) (g g' : dir) : Prop :=
  (turns_here t ns ew x y g /\ perpendicular g g' /\ inside ns ew (x + dx g') (y + dy g')) \/ (~ turns_here t ns ew x y g /\ g' = g).
Definition neighbour (t : topology) (d : Z) (g : dir) (d' : Z) (g' : dir) : Prop :=
  exists m ns ew x y x' y', located t d m ns ew x y /\ leaves t ns ew x y g g' /\ located t d' m ns ew x' y' /\
    ((x' = x + dx g' /\ y' = y + dy g') \/ (closed_up t /\ (exists a, x' = x + dx g' + a * ew) /\ exists b, y' = y + dy g' + b * ns)).
(* a T3K has more than one row and column *)
Definition broad (t : topology) : Prop := turning t -> forall m ns ew, In (m, (ns, ew)) (tp_shapes t) -> 2 <= ns /\ 2 <= ew.
(* clockwise position on the border of a mesh of two rows *)
Definition ring_index (ew x y : Z) : Z := if y =? 0 then x else 2 * ew - 1 - x.
Definition clockwise (ew x y : Z) (g : dir) : Prop :=
  (y = 0 /\ (g = dE \/ (x = 0 /\ g = dN))) \/ (y = 1 /\ (g = dW \/ (x = ew - 1 /\ g = dS))).
Inductive moves (t : topology) : nat -> Z -> dir -> Z -> dir -> Prop :=
| moves_0 d g : moves t O d g d g
| moves_S n d g d1 g1 d2 g2 : neighbour t d g d1 g1 -> moves t n d1 g1 d2 g2 -> moves t (S n) d g d2 g2.

(* the file names nothing twice *)
Definition distinct (f : topology_file) : Prop :=
  NoDup (map fst (tf_shapes f)) /\ NoDup (map fst (tf_planes f)) /\
  (forall d ps, In (d, ps) (tf_planes f) -> NoDup (map fst ps) /\ forall p cs, In (p, cs) ps -> NoDup (map fst cs)) /\
  NoDup (map fst (tf_node f)) /\ NoDup (map snd (tf_node f)) /\ NoDup (map fst (tf_coord f)) /\
  (forall m ns ew, In (m, Some (ns, ew)) (tf_shapes f) -> 0 < ns /\ 0 < ew).
(* the topology contains what the file says *)
Definition contains (f : topology_file) (t : topology) : Prop :=
  tp_config t = tf_config f /\ tf_cluster f = Some (tp_cluster t) /\
  (forall m s, In (m, s) (tp_shapes t) <-> In (m, Some s) (tf_shapes f)) /\
  (forall d p g c, In ((d, p, g), c) (tp_planes t) <-> exists ps cs, In (Some d, ps) (tf_planes f) /\ In (Some p, cs) ps /\ In (g, c) cs) /\
  (forall d n, In (d, n) (tp_node t) <-> In (d, Some n) (tf_node f)) /\
  (forall n d, In (n, d) (tp_device t) <-> In (d, Some n) (tf_node f)) /\
  (forall c xy, In (c, xy) (tp_coord t) <-> In (c, Some xy) (tf_coord f)).

(** * C71: paths along a line *)
(* the Ethernet core of chip d on plane p that faces direction g *)
Definition core_on (t : topology) (d p : Z) (g : dir) (xy : Z * Z) : Prop := exists c, In ((d, p, g), c) (tp_planes t) /\ In (c, xy) (tp_coord t).
(* a link of plane p: left from core [fc] of d in direction g', reached core [rc] of d' *)
Definition link (t : topology) (p d : Z) (g : dir) (d' : Z) (g' : dir) (fc rc : Z * Z) : Prop :=
  neighbour t d g d' g' /\ core_on t d p g' fc /\ exists b, opposite g' b /\ core_on t d' p b rc.
(* n links of plane p, with the core at which each chip was reached *)
Inductive travels (t : topology) (p : Z) (d : Z) (rc : Z * Z) (g : dir) : nat -> Z -> Z * Z -> dir -> Prop :=
| tr_0 : travels t p d rc g O d rc g
| tr_S n d1 rc1 g1 d2 g2 fc rc2 : travels t p d rc g n d1 rc1 g1 -> link t p d1 g1 d2 g2 fc rc2 -> travels t p d rc g (S n) d2 rc2 g2.
(* n segments: one on each chip; all but the last one forward, that one if [onward]; those from number [from] on write if not [onward];
   the first follows segment number [parent] *)
Definition along {W} (t : topology) (p d : Z) (rc : Z * Z) (g : dir) (n : nat) (from : Z) (dst : W) (onward : bool) (parent : Z) (l : list (segment W)) : Prop :=
  List.length l = n /\
  forall k s, nth_error l k = Some s -> exists dk rk gk, travels t p d rc g k dk rk gk /\
    sg_device W s = dk /\ sg_start W s = rk /\ sg_noc W s = "NOC_1" /\ sg_parent W s = parent + Z.of_nat k /\
    (sg_writes W s = if (from <=? Z.of_nat k + 1) && negb onward then Some dst else None) /\
    match sg_forward W s with
    | Some fc => ((S k < n)%nat \/ onward = true) /\ exists d' g' rc', link t p dk gk d' g' fc rc'
    | None => S k = n /\ onward = false
    end.
(* where such segments end: on the last one's chip, or on the one it forwards to *)
Definition stops (t : topology) (p d : Z) (rc : Z * Z) (g : dir) (n : nat) (onward : bool) (d' : Z) (rc' : Z * Z) : Prop :=
  exists g', travels t p d rc g (if onward then n else pred n) d' rc' g'.
(* the segments from the worker to the Ethernet core *)
Definition out_of {W} (dev : Z) (src : Z * Z) (noc : string) (m : option mux) (xy : Z * Z) (l : list (segment W)) : Prop :=
  match m with
  | None => l = [mkSegment W dev noc (-1) src (Some xy) None]
  | Some (mx, my, mnoc) => l = [mkSegment W dev noc (-1) src (Some (mx, my)) None; mkSegment W dev mnoc 0 (mx, my) (Some xy) None]
  end.
(* channel [chan] of chip dev belongs to plane p and faces g, and to nothing else *)
Definition channel_of (t : topology) (dev chan p : Z) (g : dir) : Prop :=
  In ((dev, p, g), chan) (tp_planes t) /\ forall p' g', In ((dev, p', g'), chan) (tp_planes t) -> p' = p /\ g' = g.
Definition last_plane (t : topology) (q : Z) : Prop := exists l d g c, tp_planes t = l ++ [((d, q, g), c)].
(* the first link, from dev; it reaches its chip at a core of plane q *)
Definition departs (t : topology) (dev : Z) (g : dir) (q d : Z) (g' : dir) (rc : Z * Z) : Prop :=
  neighbour t dev g d g' /\ exists b, opposite g' b /\ core_on t d q b rc.

(* the parent of a segment comes before it, and forwarded to it: to its start, or through a link to its chip *)
Definition connected {W} (t : topology) (path : list (segment W)) : Prop :=
  forall k s, nth_error path k = Some s ->
    (k = O /\ sg_parent W s = -1) \/
    exists j sp fc, sg_parent W s = Z.of_nat j /\ (j < k)%nat /\ nth_error path j = Some sp /\ sg_forward W sp = Some fc /\
      ((sg_device W s = sg_device W sp /\ sg_start W s = fc) \/ exists g g', neighbour t (sg_device W sp) g (sg_device W s) g').
Definition knows (t : topology) (chan : Z) : Prop := exists xy, In (chan, xy) (tp_coord t).
(* the segments that write *)
Definition writers {W} (path : list (segment W)) : list (segment W) := filter (fun s => match sg_writes W s with Some _ => true | None => false end) path.

(** * C72: paths in two dimensions *)
Definition grid (t : topology) : Prop := tp_config t = "FABRIC_2D" \/ tp_config t = "FABRIC_2D_TORUS".
(* the chips reached by going straight, in a fabric that does not turn *)
Definition straight (t : topology) (d : Z) (g : dir) (n : Z) (d' : Z) : Prop :=
  exists m ns ew x y x' y' a b, located t d m ns ew x y /\ located t d' m ns ew x' y' /\
    x' = x + n * dx g + a * ew /\ y' = y + n * dy g + b * ns /\ (~ closed_up t -> a = 0 /\ b = 0).

(* only the last segment writes *)
Definition one_write {W} (path : list (segment W)) (d : Z) (dst : W) : Prop :=
  exists l s, path = l ++ [s] /\ writers path = [s] /\ sg_device W s = d /\ sg_writes W s = Some dst.
(* each of the next n chips in direction g is written once, in this order *)
Definition row_written {W} (t : topology) (dev : Z) (g : dir) (n : Z) (dst : W) (path : list (segment W)) : Prop :=
  List.length (writers path) = Z.to_nat n /\
  forall i s, nth_error (writers path) i = Some s -> sg_writes W s = Some dst /\ straight t dev g (Z.of_nat i + 1) (sg_device W s).

(* a row of n chips in direction g, each written; none if n is 0 *)
Definition arm {W} (t : topology) (p : Z) (dst : W) (g : dir) (n d : Z) (rc : Z * Z) (parent : Z) (l : list (segment W)) (d' : Z) (rc' : Z * Z) : Prop :=
  (n = 0 /\ l = [] /\ d' = d /\ rc' = rc) \/
  (0 < n /\ along t p d rc g (Z.to_nat n) 1 dst false parent l /\ stops t p d rc g (Z.to_nat n) false d' rc').
(* k times a row of e chips to the east and a row of w chips to the west, each from where the one before ended *)
Inductive fans {W} (t : topology) (p : Z) (dst : W) (e w : Z) : nat -> Z -> Z * Z -> Z -> list (segment W) -> Z -> Z * Z -> Prop :=
| fans_0 d rc parent : fans t p dst e w O d rc parent [] d rc
| fans_S k d rc parent a d1 rc1 b d2 rc2 l d3 rc3 :
    arm t p dst dE e d rc (parent + 1) a d1 rc1 -> arm t p dst dW w d1 rc1 (parent + 1) b d2 rc2 ->
    fans t p dst e w k d2 rc2 (parent + 1) l d3 rc3 -> fans t p dst e w (S k) d rc parent (a ++ b ++ l) d3 rc3.

(** * C73: traces *)
Definition jump {W} (a b : event W) : Prop := 2 * ev_time W a < ev_time W b /\ 1000 < ev_time W a.
Fixpoint no_jump {W} (l : list (event W)) : Prop :=
  match l with a :: ((b :: _) as l') => ~ jump a b /\ no_jump l' | _ => True end.
(* what is kept of the events in the order of time *)
Definition kept {W} (all l : list (event W)) : Prop :=
  no_jump l /\ exists rest, all = l ++ rest /\ (rest = [] \/ exists l' a b r, l = l' ++ [a] /\ rest = b :: r /\ jump a b).
Definition earlier {W} (a b : event W) : Prop := ev_time W a < ev_time W b.
(* order of chip, core, processor, time *)
Definition listed_before {W} (a b : event W) : Prop :=
  ev_dev W a < ev_dev W b \/ (ev_dev W a = ev_dev W b /\ (ev_sx W a < ev_sx W b \/ (ev_sx W a = ev_sx W b /\ (ev_sy W a < ev_sy W b \/ (ev_sy W a = ev_sy W b /\
  (String.compare (ev_proc W a) (ev_proc W b) = Lt \/ (ev_proc W a = ev_proc W b /\ ev_time W a < ev_time W b))))))).
(* l' orders l by lt, and keeps the order of elements that lt does not distinguish *)
Definition stably_sorted {X} (lt : X -> X -> Prop) (l l' : list X) : Prop :=
  Permutation l l' /\ StronglySorted (fun a b => ~ lt b a) l' /\
  forall x (P : X -> bool), (forall y, P y = true <-> ~ lt x y /\ ~ lt y x) -> filter P l = filter P l'.
(* what elaboration leaves as it is *)
Definition same_event {W} (a b : event W) : Prop :=
  ev_time W b = ev_time W a /\ ev_dev W b = ev_dev W a /\ ev_sx W b = ev_sx W a /\ ev_sy W b = ev_sy W a /\ ev_proc W b = ev_proc W a /\ ev_noc W b = ev_noc W a /\ ev_dst W b = ev_dst W a /\
  match ev_send W a, ev_send W b with
  | None, None => ev_dst_dev W b = ev_dst_dev W a
  | Some s, Some s' => fs_chan W s' = fs_chan W s /\ fs_mux W s' = fs_mux W s /\ fs_1d W s' = fs_1d W s /\ fs_2d W s' = fs_2d W s /\ fs_path W s' <> None /\ ev_dst_dev W b <> None
  | _, _ => False
  end.

(** * Which topology files are accepted *)
(* known configuration and cluster, at most one mesh, and no malformed entry *)
Definition acceptable (f : topology_file) : Prop :=
  (tf_config f = "FABRIC_1D" \/ tf_config f = "FABRIC_1D_RING" \/ tf_config f = "FABRIC_2D" \/ tf_config f = "FABRIC_2D_TORUS" \/ tf_config f = "DISABLED") /\
  tf_cluster f <> None /\ (forall a b, In a (tf_shapes f) -> In b (tf_shapes f) -> fst a = fst b) /\
  (forall k, ~ In (k, None) (tf_shapes f)) /\ (forall k, ~ In (k, None) (tf_node f)) /\ (forall k, ~ In (k, None) (tf_coord f)) /\
  (forall d ps, In (d, ps) (tf_planes f) -> d <> None /\ forall cs, ~ In (None, cs) ps).
