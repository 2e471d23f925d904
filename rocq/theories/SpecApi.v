(* Specification of the configuration check and of the inputs runNPE handles (C22), written without reference to the engine. *)
From Coq Require Import ZArith Reals String List Bool Floats.SpecFloat.
From Verif Require Import Base Arith Util Device SpecDevice Workload SpecWorkload Stats Engine SpecEngine SpecRates SpecStats.
Import ListNotations.
Local Open Scope string_scope.
Local Open Scope list_scope.
Open Scope Z_scope.

(* an accepted configuration names a congestion model and a timestep length *)
Definition good_config {Fl} (cfg : config Fl) : Prop := 1 <= cf_cpt cfg /\ (cf_model cfg = "none" \/ cf_model cfg = "fast").
(* cycles_per_timestep is a uint32_t *)
Definition u32_config {Fl} (cfg : config Fl) : Prop := 0 <= cf_cpt cfg < 2 ^ 32.

(* a transfer that waits for a member of its group *)
Definition waits_for_group {Fl} (t : transfer Fl) : Prop := t_gid t <> -1 /\ t_gpar t <> -1.

(* what runNPE needs of a transfer and what validation does not check: fields in range; a byte count that is zero only if
   the packet size or the number of packets is; a multicast has a rectangle; a transfer that waits for a member of its
   group is a unicast; the injection rate is a number, or is inferred from a source on the grid *)
Definition usable_transfer (d : device) (infer : bool) (t : transfer spec_float) : Prop :=
  transfer_ranges t /\
  (t_bytes t = 0 -> t_psize t = 0 \/ t_npkts t = 0) /\
  t_dst t <> Multicast [] /\
  (waits_for_group t -> exists c, t_dst t = Unicast c) /\
  (if infer then on_chip_grid d (t_src t) else number (t_rate t)).
(* the scaled start offsets fit *)
Definition usable_scale (s : spec_float) (wl : workload spec_float) : Prop :=
  nonneg_scale s /\ Forall (fun t => (IZR (t_off t) * scale_value s <= 2 ^ 32 - 512)%R) (all_transfers wl).
(* the identifiers are those addPhase gives (C15) *)
Definition usable_workload (d : device) (cfg : config spec_float) (wl : workload spec_float) : Prop :=
  dense wl /\ wl_next wl < 2 ^ 31 /\ Z.of_nat (List.length (wl_phases wl)) <= 2 ^ 31 /\
  Forall (usable_transfer d (cf_infer cfg)) (all_transfers wl) /\
  usable_scale (cf_scale cfg) wl /\
  forall id, has_stats d id -> exists w, getGoldenResultCycles wl id = Ok w.
