(* Specifications for the timeline files (C44-C46). *)
From Coq Require Import ZArith List Bool Sorting.Permutation.
From Verif Require Import Base Arith Util Device Workload Rates Stats Engine SpecStats Timeline.
Import ListNotations.
Open Scope Z_scope.

(* an iteration order of a hash map *)
Definition map_order {X} (ord : list X -> list X) : Prop := forall l, Permutation (ord l) l.

(** * C44 *)
(* first, first + 1, ..., last - 1 *)
Definition positions (first last : Z) : list Z := map Z.of_nat (seq (Z.to_nat first) (Z.to_nat (last - first))).
(* the elements at these positions *)
Definition slice {X} (l : list X) (first last : Z) : list X := firstn (Z.to_nat (last - first)) (skipn (Z.to_nat first) l).
Definition split_regions {A} (files : list (content A)) : list region :=
  flat_map (fun c => match c with Split _ _ rg _ => [rg] | _ => [] end) files.
Definition step_intervals {A} (tl : timeline A) : list (Z * Z) := map (fun p => (tp_start A p, tp_end A p)) (tl_steps A tl).
Definition nonempty (i : Z * Z) : bool := fst i <? snd i.

(** * C45 *)
Definition described {A} (tl : timeline A) (g : Z) : Prop := exists tg, In tg (tl_groups A tl) /\ tg_id A tg = g.
Definition active {A} (tl : timeline A) (g : Z) : Prop := exists p, In p (tl_steps A tl) /\ In g (tp_active A p).

(** * C46 *)
Definition grouped {Fl} (t : transfer Fl) : Prop := t_gid t <> -1 /\ t_gix t <> -1.
Definition in_group (gs : gmap) (g id : Z) : Prop := exists ids, In (g, ids) gs /\ In id ids.
