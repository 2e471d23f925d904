(* Specifications of what a trace determines besides its transfers: golden windows, zones and zone paths (C56-C58). *)
From Coq Require Import ZArith Bool String List DecimalString.
From Verif Require Import Base Util SpecUtil Workload Json SpecIngest.
Import ListNotations.
Local Open Scope string_scope.
Local Open Scope list_scope.
Open Scope Z_scope.

(** * C56: golden windows *)
(* the event counts for the window of chip [dev]: it names a processor, a core and this chip *)
Definition timed (ev : json) (dev : Z) : Prop := has_proc ev /\ placed ev dev.
Definition first_time (evs : list json) (dev a : Z) : Prop :=
  (exists ev, In ev evs /\ timed ev dev /\ int_or ev "timestamp" 0 a) /\
  forall ev z, In ev evs -> timed ev dev -> int_or ev "timestamp" 0 z -> a <= z.
Definition last_time (evs : list json) (dev b : Z) : Prop :=
  (exists ev, In ev evs /\ timed ev dev /\ int_or ev "timestamp" 0 b) /\
  forall ev z, In ev evs -> timed ev dev -> int_or ev "timestamp" 0 z -> z <= b.

(** * C57: zones *)
Definition risc_name (r : risc_type) : string :=
  match r with
  | BRISC => "BRISC" | NCRISC => "NCRISC" | TRISC_0 => "TRISC_0" | TRISC_1 => "TRISC_1" | TRISC_2 => "TRISC_2" | ERISC => "ERISC" | CORE_AGG => "CORE_AGG"
  end.
Definition phase_name (p : zone_phase) : string := match p with ZONE_START => "ZONE_START" | ZONE_END => "ZONE_END" end.
(* the processor of an event: a core and one of its processors *)
Definition processor (ev : json) (c : coord) (r : risc_type) : Prop :=
  text ev "proc" (risc_name r) /\ exists dev x y, int_or ev "src_device_id" 0 dev /\ int_or ev "sx" (-1) x /\ int_or ev "sy" (-1) y /\ coord_is c dev y x.
(* the event begins or ends the zone [z] on processor (c, r) *)
Definition marks (t0 : Z) (ev : json) (c : coord) (r : risc_type) (z : zone) : Prop :=
  processor ev c r /\ ~ int_or ev "sx" (-1) (-1) /\ ~ int_or ev "sy" (-1) (-1) /\ text ev "zone" (z_name z) /\ z_name z <> "" /\
  text ev "zone_phase" (phase_name (z_phase z)) /\ int_or ev "timestamp" 0 (t0 + z_ts z).
(* the zone events of a processor, in the order of the trace *)
Inductive collected (t0 : Z) (c : coord) (r : risc_type) : list json -> list zone -> Prop :=
| collected_nil : collected t0 c r [] []
| collected_skip ev evs l : (forall z, ~ marks t0 ev c r z) -> collected t0 c r evs l -> collected t0 c r (ev :: evs) l
| collected_take ev evs z l : marks t0 ev c r z -> collected t0 c r evs l -> collected t0 c r (ev :: evs) (z :: l).
(* the zones of a workload for a processor *)
Definition zone_list {Fl} (wl : workload Fl) (c : coord) (r : risc_type) (l : list zone) : Prop :=
  (l <> [] /\ In ((c, r), l) (wl_zones wl)) \/ (l = [] /\ forall l', ~ In ((c, r), l') (wl_zones wl)).

(** * C58: the zones that enclose a transfer *)
(* the zone events up to time [t]: the longest prefix without a later one *)
Definition until (l : list zone) (t : Z) (n : nat) : Prop :=
  (n <= List.length l)%nat /\ Forall (fun z => z_ts z <= t) (firstn n l) /\ forall z, nth_error l n = Some z -> t < z_ts z.
Definition decimal (z : Z) : string := NilZero.string_of_int (Z.to_int z).
(* "outer[i]/inner[j]": names of the open zones, outermost first, each with the number of earlier zones of this name *)
Definition path_text (entries : list (zone * Z)) : string :=
  String.concat "/" (map (fun e => z_name (fst e) ++ "[" ++ decimal (snd e) ++ "]")%string entries).
Definition enclosing_path (l : list zone) (t : Z) (s : string) : Prop :=
  exists n st entries, until l t n /\ open_at (firstn n l) st /\ Forall2 (zone_entry l) st entries /\ s = path_text entries.
(* the events of each processor are in the order of time *)
Definition in_order (evs : list json) : Prop := forall i j a b c r s t, (i < j)%nat -> nth_error evs i = Some a -> nth_error evs j = Some b ->
  processor a c r -> processor b c r -> int_or a "timestamp" 0 s -> int_or b "timestamp" 0 t -> s <= t.
