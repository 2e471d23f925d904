(* Specifications for the command line (C79) and for workloads without golden cycles (C80). *)
From Coq Require Import ZArith String List Bool Floats.SpecFloat.
From Verif Require Import Base Arith Util Json Device SpecDevice Workload SpecWorkload Rates Stats Engine SpecRates SpecStats Api SpecApi Timeline Ingest SpecIngest SpecEmit Cli.
Import ListNotations.
Local Open Scope string_scope.
Local Open Scope list_scope.
Open Scope Z_scope.

(* the values argparse accepts *)
Definition chosen (o : options) : Prop :=
  In (op_device o) ["wormhole_b0"; "N150"; "N300"; "T3K"; "blackhole"; "P100"; "P150"] /\ (op_model o = "none" \/ op_model o = "fast").
Definition u32_steps (o : options) : Prop := 0 <= op_cpt o < 2 ^ 32.
(* --scale-workload-schedule: not negative, and the scaled start offsets fit (always so if it is not given) *)
Definition fitting_scale (o : options) (wl : workload spec_float) : Prop := usable_scale (f_of_d f32A (op_scale o)) wl.
(* how the program ends when runNPE has returned: with an exception if the simulation succeeded, with status 0 if it failed *)
Definition ended (r : npe_result f32A) : ending := match r with Stats _ => Uncaught "AttributeError" | Failure _ => Exits 0 end.

(* the data of every event starts on the grid *)
Definition core_on (d : device) (x y : Z) : Prop := 0 <= x < Z.of_nat (dv_cols d) /\ 0 <= y < Z.of_nat (dv_rows d).
Definition sources_on (d : device) (evs : list json) : Prop :=
  forall before ev rest, evs = before ++ ev :: rest -> moves ev ->
    ((forall f, ~ fabric ev f) -> forall ty q x y, text ev "type" ty -> requests before ev q -> data_source ty q x y -> core_on d x y) /\
    (forall segs r s, path_of ev segs -> In r segs -> complete r s -> core_on d (sg_sx s) (sg_sy s)).
(* an entry of a workload file: the number of bytes does not wrap to zero; the data starts on the grid if the rate is inferred,
   otherwise the rate is a finite number that is not negative *)
Definition entry_on (d : device) (infer : bool) (e : json) : Prop :=
  ~ reversed e /\
  (well_formed_entry e ->
    (forall p n, int_field e "packet_size" p -> int_field e "num_packets" n -> p mod 2 ^ 32 <> 0 -> n mod 2 ^ 32 <> 0 -> (p * n) mod 2 ^ 32 <> 0) /\
    if infer then forall x y, int_field e "src_x" x -> int_field e "src_y" y -> core_on d x y
    else forall x, real_or e "injection_rate" x -> number (f_of_d f32A x)).
(* an object with phases and golden cycles *)
Definition workload_file (j : json) (ps : list json) : Prop := (exists fs, j = JObject fs) /\ holds j "phases" (JArray ps).
Definition golden_cycles (j : json) : Prop := exists g n, holds j "golden_result" g /\ holds g "cycles" (JInt n) /\ 0 <= n.

(* the timeline can be written: it is in the old format, or zones and topology are as C78_exact says *)
Definition emittable (o : options) (d : device) (topo : topology) (wl : workload spec_float) : Prop :=
  op_emit o = true -> op_legacy o = true \/ (apart_zones wl /\ topology_read d topo /\ (chips_known d topo -> matched_zones wl)).

(* the ranges of the random choices of the example program *)
Definition drawn (x : draw) : Prop :=
  0 <= dr_src_row x <= 8 /\ 0 <= dr_dst_row x <= 8 /\ 1 <= dr_src_col x <= 2 /\ 5 <= dr_dst_col x <= 6 /\ 0 <= dr_offset x <= 512 /\
  In (dr_packet x) [1024; 2048; 4096; 8192].
