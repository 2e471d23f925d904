(* Specifications for the zones in the timeline files (C64). *)
From Coq Require Import ZArith String List Bool.
From Verif Require Import Base Arith Util Timeline.
Import ListNotations.
Open Scope Z_scope.

(* a zone of a processor: name, first cycle, last cycle (none if it is still open at the end of the trace), zones inside it *)
Inductive ztree : Type := ZT : string -> Z -> option Z -> list ztree -> ztree.
(* its events in the order of time *)
Fixpoint zevents (t : ztree) : list zone :=
  match t with
  | ZT n a e inner => mkZone a n ZONE_START :: flat_map zevents inner ++ match e with Some b => [mkZone b n ZONE_END] | None => [] end
  end.
Fixpoint closed (t : ztree) : bool := match t with ZT _ _ (Some _) inner => forallb closed inner | ZT _ _ None _ => false end.
(* only the last zone, and in it again only the last one, may still be open *)
Inductive tail_open : list ztree -> Prop :=
| to_closed f : forallb closed f = true -> tail_open f
| to_open f n a inner : forallb closed f = true -> tail_open inner -> tail_open (f ++ [ZT n a None inner]).
(* no zone begins in the cycle in which an enclosing zone of the same name begins *)
Inductive unshadowed : list (string * Z) -> ztree -> Prop :=
| unsh outer n a e inner : ~ In (n, a) outer -> Forall (unshadowed ((n, a) :: outer)) inner -> unshadowed outer (ZT n a e inner).

(* names of the zones in the order in which they begin *)
Fixpoint names (t : ztree) : list string := match t with ZT n _ _ inner => n :: flat_map names inner end.
Definition occurrences (n : string) (l : list string) : Z := Z.of_nat (count_occ string_dec l n).
Definition inside (r : option region) (a b : Z) : bool :=
  match r with None => true | Some rg => (rg_start rg <=? a) && (b <=? rg_end rg) end.
(* the entries of the file for a zone: one with its number among the zones of its name, its cycles and the entries of the zones inside
   it; none for a closed zone that is not inside the region. [before]: names of the zones that began earlier *)
Fixpoint entries (r : option region) (before : list string) (t : ztree) : list zjson :=
  match t with
  | ZT n a e inner =>
      let kids := (fix all before ts := match ts with [] => [] | t :: ts' => entries r before t ++ all (before ++ names t) ts' end) (before ++ [n]) inner in
      match e with
      | Some b => if inside r a b then [ZJ a (Some (n, occurrences n before)) (Some b) kids] else []
      | None => [ZJ a None None kids]
      end
  end.
Fixpoint all_entries (r : option region) (before : list string) (ts : list ztree) : list zjson :=
  match ts with [] => [] | t :: ts' => entries r before t ++ all_entries r (before ++ names t) ts' end.

(* the zone with this name and these cycles is, at any depth, in the file *)
Inductive in_file (n : string) (a b : Z) : list zjson -> Prop :=
| in_here k kids l : In (ZJ a (Some (n, k)) (Some b) kids) l -> in_file n a b l
| in_deep s i e kids l : In (ZJ s i e kids) l -> in_file n a b kids -> in_file n a b l.

(* [tl] is the document of the full file (no region) or of the file of a region *)
Definition document (A : arith) (files : list (content A)) (r : option region) (tl : timeline A) : Prop :=
  (In (FullV1 A (Some tl)) files /\ r = None) \/ (exists k rg, In (Split A k rg (Some tl)) files /\ r = Some rg).
