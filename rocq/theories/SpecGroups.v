(* Specifications for the transfer groups of the timeline files (C66). *)
From Coq Require Import ZArith String List Bool Sorting.Permutation Sorting.Sorted.
From Verif Require Import Base Arith Util SpecUtil Device SpecDevice Workload SpecWorkload Rates Stats Engine Timeline SpecTimeline.
Import ListNotations.
Local Open Scope list_scope.
Open Scope Z_scope.

(* the source and the destination are on the grid; a multicast has one rectangle *)
Definition on_grid {Fl} (d : device) (t : transfer Fl) : Prop :=
  in_grid d (t_src t) /\
  match t_dst t with
  | Unicast c => in_grid d c /\ c_dev (t_src t) = c_dev c
  | Multicast m => exists g, m = [g] /\ rect_in_grid d g /\ c_dev (g_start g) = c_dev (t_src t)
  end.
(* every group identifier in use was handed out *)
Definition registered {Fl} (wl : workload Fl) : Prop := forall t, In t (all_transfers wl) -> grouped t -> t_gid t < wl_groups wl.

Section S.
  Context (A : arith) (d : device).
  Definition is_worker (c : coord) : bool := match layout (dv_arch d) (c_row c) (c_col c) with WORKER => true | _ => false end.
  (* the cores that receive the data *)
  Definition receivers (t : transfer (F A)) (cs : list coord) : Prop :=
    match t_dst t with
    | Unicast c => cs = [c]
    | Multicast m => exists g cells, m = [g] /\ enumerates g cells /\ cs = filter is_worker cells
    end.
  (* the links that carry the data *)
  Definition carriers (t : transfer (F A)) (ls : list link_attr) : Prop :=
    match t_dst t with
    | Unicast c => path d (t_src t) ls c /\ dimension_ordered (t_noc t) ls /\ NoDup ls
    | Multicast m => NoDup ls /\ exists g, m = [g] /\ forall l, In l ls <->
        exists e ids us, far_edge (t_noc t) g e /\ route d (t_noc t) (t_src t) (Unicast e) = Ok ids /\ reads_as d ids us /\ In l us
    end.
  (* a segment of a file describes one transfer: source, links, receivers *)
  Definition describes (x : tstate (F A)) (sg : segment A) : Prop :=
    let t := s_tr x in
    sg_src A sg = t_src t /\ sg_noc A sg = t_noc t /\ sg_rate A sg = t_rate t /\ sg_start A sg = s_start x /\ sg_end A sg = s_end x /\
    receivers t (sg_dst A sg) /\
    exists ls, carriers t ls /\
      sg_links A sg = [(t_src t, HopIn (t_noc t))] ++ map (fun l => (l_coord l, HopLink (l_type l))) ls ++ map (fun c => (c, HopOut (t_noc t))) (sg_dst A sg).
  Definition by_index (a b : tstate (F A)) : Prop := t_gix (s_tr a) <= t_gix (s_tr b).
  (* the members of a group: the transfers that carry its identifier, or one that carries none *)
  Definition members (wl : workload (F A)) (sts : list (tstate (F A))) (g : Z) (ss : list (tstate (F A))) : Prop :=
    NoDup ss /\ StronglySorted by_index ss /\
    ((forall x, In x ss <-> In x sts /\ grouped (s_tr x) /\ t_gid (s_tr x) = g) \/
     (exists x, ss = [x] /\ In x sts /\ ~ grouped (s_tr x) /\ wl_groups wl <= g)).
  (* the header of a group: the first transfer by index gives all but the end and the destination *)
  Definition header (ss : list (tstate (F A))) (tg : tgroup A) : Prop :=
    exists first last mid mid', ss = first :: mid /\ ss = mid' ++ [last] /\
      tg_src A tg = t_src (s_tr first) /\ tg_bytes A tg = t_bytes (s_tr first) /\ tg_event A tg = t_event (s_tr first) /\ tg_zone A tg = t_zone (s_tr first) /\
      tg_start A tg = s_start first /\ tg_end A tg = s_end last /\ receivers (s_tr last) (tg_dst A tg) /\
      (tg_fabric A tg = true <-> exists rest, t_event (s_tr first) = ("FABRIC_" ++ rest)%string).
  (* the transfers of group [g], in the order of their indices, name their predecessor as parent *)
  Definition chain (wl : workload (F A)) (g : Z) : Prop :=
    exists ts, (forall t, In t ts <-> In t (all_transfers wl) /\ grouped t /\ t_gid t = g) /\
      forall l a b l', ts = l ++ [a; b] ++ l' -> t_gpar b = t_gix a /\ t_gix a < t_gix b.
End S.
