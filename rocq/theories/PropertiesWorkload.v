(* Property theorems C05, C15-C21 (workloads). Specifications: SpecWorkload.v. *)
From Coq Require Import ZArith Reals String List Bool Floats.SpecFloat.
From Verif Require Import Base Arith Util Device Workload SpecDevice SpecWorkload WorkloadProofs ScheduleProofs WorkloadCases.
Import ListNotations.
Open Scope Z_scope.

(** ** C05 Routing a validated transfer always terminates *)
Theorem C05_validated_transfer : forall (Fl : Type) d (t : transfer Fl),
  wf_device d -> 0 <= t_off t -> transfer_validate d t = Ok true ->
  (exists ids, route d (t_noc t) (t_src t) (t_dst t) = Ok ids) \/
  route d (t_noc t) (t_src t) (t_dst t) = Throw UNDEF_ERR.
Proof. exact (fun Fl => @route_validated Fl). Qed.
Print Assumptions C05_validated_transfer.
Theorem C05_validated_workload : forall (Fl : Type) d (wl : workload Fl) h,
  wf_device d -> built wl h -> Z.of_nat (List.length h) <= 2 ^ 31 ->
  Forall (fun t => 0 <= t_off t) (all_transfers wl) -> validate d wl = Ok true ->
  Forall (fun t => (exists ids, route d (t_noc t) (t_src t) (t_dst t) = Ok ids) \/
                   route d (t_noc t) (t_src t) (t_dst t) = Throw UNDEF_ERR) (all_transfers wl).
Proof. exact (fun Fl => @validated_routes Fl). Qed.
Print Assumptions C05_validated_workload.
(* the exception is reported exactly for multicasts with several rectangles *)
Theorem C05_exception_iff_several_rectangles : forall (Fl : Type) d (t : transfer Fl),
  wf_device d -> accepted d t ->
  (at_most_one_rectangle t -> exists ids, route d (t_noc t) (t_src t) (t_dst t) = Ok ids) /\
  (~ at_most_one_rectangle t -> route d (t_noc t) (t_src t) (t_dst t) = Throw UNDEF_ERR).
Proof. exact (fun Fl => @route_accepted Fl). Qed.
Print Assumptions C05_exception_iff_several_rectangles.
(* validation is needed: without it the loop does not end for any number of iterations *)
Theorem C05_unvalidated_diverges : forall d noc s e, wf_device d -> dv_class d <> ClsMultichip ->
  on_chip_grid d s -> ~ on_chip_grid d e -> forall fuel, route_f fuel d noc s (Unicast e) = Diverge.
Proof. exact out_of_grid_diverges. Qed.
Print Assumptions C05_unvalidated_diverges.
Example C05_example :
  let t := wtr (Multicast [mkGrid (mkCoord 0 2 1) (mkCoord 0 4 4)]) 0 in
  wf_device wormhole_b0 /\ transfer_validate wormhole_b0 t = Ok true /\
  route wormhole_b0 (t_noc t) (t_src t) (t_dst t) = Ok [45; 85; 125; 44; 49; 89; 129; 48; 53; 93; 133; 52; 57; 97; 137].
Proof. split; [unfold wf_device; cbn; repeat split; auto with zarith; discriminate|]. split; vm_compute; reflexivity. Qed.

(** ** C15 Building a workload assigns dense unique ids in order *)
Theorem C15_ids_and_contents : forall (Fl : Type) (wl : workload Fl) h,
  built wl h -> Z.of_nat (List.length h) <= 2 ^ 31 ->
  dense wl /\
  Forall2 (fun ts p => Forall2 (fun a b => same_content a b /\ t_phase b = ph_id p) ts (ph_trs p)) h (wl_phases wl).
Proof. exact (fun Fl => @built_ids Fl). Qed.
Print Assumptions C15_ids_and_contents.
Theorem C15_returned_id : forall (Fl : Type) (wl : workload Fl) h ts wl' id,
  built wl h -> Z.of_nat (List.length h) < 2 ^ 31 -> addPhase wl ts = Ok (wl', id) -> id = Z.of_nat (List.length h).
Proof. exact (fun Fl => @built_add_returns Fl). Qed.
Print Assumptions C15_returned_id.
Theorem C15_addPhase_defined : forall (Fl : Type) (wl : workload Fl) h ts,
  built wl h -> Z.of_nat (List.length h) <= 2 ^ 31 ->
  Z.of_nat (List.length (concat h)) + Z.of_nat (List.length ts) < 2 ^ 31 -> exists r, addPhase wl ts = Ok r.
Proof. exact (fun Fl => @built_add_defined Fl). Qed.
Print Assumptions C15_addPhase_defined.
Example C15_example :
  let t := wtr (Unicast (mkCoord 0 4 4)) 7 in
  exists wl1 wl2, addPhase empty_workload [t; t] = Ok (wl1, 0) /\ addPhase wl1 [t] = Ok (wl2, 1) /\
    map t_id (all_transfers wl2) = [0; 1; 2] /\ map t_phase (all_transfers wl2) = [0; 0; 1].
Proof. do 2 eexists. repeat split; vm_compute; reflexivity. Qed.

(** ** C16 Validation accepts exactly the routable workloads *)
(* refuted as stated: one rectangle in the grid is enough *)
Theorem C16_every_rectangle_refuted : exists (wl : workload spec_float) h t, built wl h /\
  validate wormhole_b0 wl = Ok true /\ In t (all_transfers wl) /\ ~ routable wormhole_b0 t.
Proof. exact validate_bad_rectangle. Qed.
Print Assumptions C16_every_rectangle_refuted.
Theorem C16_empty_multicast_refuted : exists (wl : workload spec_float) h s,
  built wl h /\ validate wormhole_b0 wl = UB s.
Proof. exact validate_empty_multicast_ub. Qed.
Print Assumptions C16_empty_multicast_refuted.
(* what validation decides, for every workload *)
Theorem C16_validate_iff_accepted : forall (Fl : Type) d (wl : workload Fl) h,
  built wl h -> Z.of_nat (List.length h) <= 2 ^ 31 ->
  Forall (fun t => 0 <= t_off t) (all_transfers wl) ->
  (Exists empty_multicast (all_transfers wl) -> exists s, validate d wl = UB s) /\
  (Forall (fun t => ~ empty_multicast t) (all_transfers wl) ->
   exists b, validate d wl = Ok b /\ (b = true <-> Forall (accepted d) (all_transfers wl))).
Proof. exact (fun Fl => @built_validate Fl). Qed.
Print Assumptions C16_validate_iff_accepted.
(* the property, when no multicast has more than one rectangle *)
Theorem C16_validate_iff_routable : forall (Fl : Type) d (wl : workload Fl) h,
  built wl h -> Z.of_nat (List.length h) <= 2 ^ 31 ->
  Forall (fun t => 0 <= t_off t) (all_transfers wl) ->
  Forall (fun t => ~ empty_multicast t) (all_transfers wl) -> Forall at_most_one_rectangle (all_transfers wl) ->
  exists b, validate d wl = Ok b /\ (b = true <-> Forall (routable d) (all_transfers wl)).
Proof. exact (fun Fl => @built_validate_single Fl). Qed.
Print Assumptions C16_validate_iff_routable.
Example C16_example :
  let ok := wtr (Unicast (mkCoord 0 11 9)) 7 in let bad := wtr (Unicast (mkCoord 0 12 9)) 7 in
  exists wl1 wl2, addPhase empty_workload [ok; ok] = Ok (wl1, 0) /\ addPhase wl1 [bad] = Ok (wl2, 1) /\
    validate wormhole_b0 wl1 = Ok true /\ validate wormhole_b0 wl2 = Ok false.
Proof. do 2 eexists. repeat split; vm_compute; reflexivity. Qed.

(** ** C17 Scaling the schedule preserves order and is exact at scale 1 *)
Theorem C17_order_preserved : forall s (wl wl' : workload spec_float), nonneg_scale s -> u32_offsets wl ->
  scaleWorkloadSchedule f32A s wl = Ok wl' ->
  forall i j a b a' b', nth_error (all_transfers wl) i = Some a -> nth_error (all_transfers wl) j = Some b ->
    nth_error (all_transfers wl') i = Some a' -> nth_error (all_transfers wl') j = Some b' ->
    t_off a <= t_off b -> t_off a' <= t_off b'.
Proof. exact schedule_order. Qed.
Print Assumptions C17_order_preserved.
Theorem C17_only_offsets_change : forall s (wl wl' : workload spec_float), scaleWorkloadSchedule f32A s wl = Ok wl' ->
  same_frame wl wl' /\
  Forall2 (fun p q => ph_id q = ph_id p /\
    Forall2 (fun a b => same_but_offset a b /\ scale_offset f32A s (t_off a) = Ok (t_off b)) (ph_trs p) (ph_trs q))
    (wl_phases wl) (wl_phases wl').
Proof. exact (scale_phases f32A). Qed.
Print Assumptions C17_only_offsets_change.
Theorem C17_scale_zero : forall b (wl : workload spec_float), u32_offsets wl ->
  exists wl', scaleWorkloadSchedule f32A (S754_zero b) wl = Ok wl' /\ Forall (fun t => t_off t = 0) (all_transfers wl').
Proof. exact schedule_zero. Qed.
Print Assumptions C17_scale_zero.
(* exact up to 2^24 cycles *)
Theorem C17_scale_one_partial : forall wl : workload spec_float,
  Forall (fun t => 0 <= t_off t <= 2 ^ 24) (all_transfers wl) -> scaleWorkloadSchedule f32A (f_one f32A) wl = Ok wl.
Proof. exact schedule_one. Qed.
Print Assumptions C17_scale_one_partial.
(* defined when no scaled offset exceeds 2^32 - 512 *)
Theorem C17_defined_partial : forall s (wl : workload spec_float), nonneg_scale s -> u32_offsets wl ->
  Forall (fun t => (IZR (t_off t) * scale_value s <= 2 ^ 32 - 512)%R) (all_transfers wl) ->
  exists wl', scaleWorkloadSchedule f32A s wl = Ok wl'.
Proof. exact schedule_defined. Qed.
Print Assumptions C17_defined_partial.
Theorem C17_scale_one_refuted : exists o o', 0 <= o < 2 ^ 32 /\ scale_offset f32A (f_one f32A) o = Ok o' /\ o' <> o.
Proof. exact scale_one_changes. Qed.
Print Assumptions C17_scale_one_refuted.
Theorem C17_defined_refuted : exists o, 0 <= o < 2 ^ 32 /\ scale_offset f32A (f_one f32A) o = UB "float to integer".
Proof. exact scale_undefined. Qed.
Print Assumptions C17_defined_refuted.
Example C17_example : (* scale 0.75 *)
  nonneg_scale (f_lit f32A 3 4) /\ scale_offset f32A (f_lit f32A 3 4) 1001 = Ok 750.
Proof. split; [split; [reflexivity|right; right; do 2 eexists; reflexivity]|vm_compute; reflexivity]. Qed.

(** ** C18 Removing local unicast transfers removes nothing else *)
Theorem C18_multicast_refuted : exists (wl wl' : workload spec_float) t,
  dense wl /\ removeLocalUnicastTransfers wl = Ok wl' /\ In t (all_transfers wl) /\ ~ local_unicast t /\
  (forall t', In t' (all_transfers wl') -> ~ same_content t t').
Proof. exact removal_drops_multicast. Qed.
Print Assumptions C18_multicast_refuted.
Theorem C18_metadata_refuted : exists wl wl' : workload spec_float,
  dense wl /\ removeLocalUnicastTransfers wl = Ok wl' /\ wl_path wl' <> wl_path wl /\ wl_groups wl' <> wl_groups wl /\
  wl_zones wl' <> wl_zones wl.
Proof. exact removal_loses_metadata. Qed.
Print Assumptions C18_metadata_refuted.
(* what is kept: in each phase the unicasts between different blocks, in order, renumbered *)
Theorem C18_removal_exact : forall (Fl : Type) (wl : workload Fl),
  dense wl -> wl_next wl < 2 ^ 31 -> Z.of_nat (List.length (wl_phases wl)) <= 2 ^ 31 ->
  exists wl', removeLocalUnicastTransfers wl = Ok wl' /\ dense wl' /\ wl_next wl' < 2 ^ 31 /\
    Forall2 (fun p q => Forall2 (fun a b => same_content a b /\ t_phase b = ph_id q) (filter keeps (ph_trs p)) (ph_trs q))
      (wl_phases wl) (wl_phases wl') /\
    wl_path wl' = None /\ wl_groups wl' = 0 /\ wl_zones wl' = [] /\
    wl_golden wl' = wl_golden (setGoldenResultCycles (@empty_workload Fl) (wl_golden wl)).
Proof. exact (fun Fl => @removeLocal_spec Fl). Qed.
Print Assumptions C18_removal_exact.
Theorem C18_kept_iff : forall (Fl : Type) (t : transfer Fl), nonneg_coords t ->
  (keeps t = true <-> (exists c, t_dst t = Unicast c) /\ ~ local_unicast t).
Proof. exact (fun Fl => @keeps_spec Fl). Qed.
Print Assumptions C18_kept_iff.
Example C18_example : exists wl', removeLocalUnicastTransfers wl_mc = Ok wl' /\
  map t_id (all_transfers wl') = [0] /\ List.length (all_transfers wl_mc) = 2%nat.
Proof. eexists. repeat split. Qed.

(** ** C19 Injection-rate inference depends only on the source core *)
Theorem C19_rates_and_frame : forall (A : arith) d (wl wl' : workload (F A)), inferInjectionRates A d wl = Ok wl' ->
  same_frame wl wl' /\
  Forall2 (fun p q => ph_id q = ph_id p /\
    Forall2 (fun a b => same_but_rate a b /\ getSrcInjectionRate A d (t_src a) = Ok (t_rate b)) (ph_trs p) (ph_trs q))
    (wl_phases wl) (wl_phases wl').
Proof. exact infer_phases. Qed.
Print Assumptions C19_rates_and_frame.
Theorem C19_idempotent : forall (A : arith) d (wl wl' : workload (F A)),
  inferInjectionRates A d wl = Ok wl' -> inferInjectionRates A d wl' = Ok wl'.
Proof. exact infer_idempotent. Qed.
Print Assumptions C19_idempotent.
Theorem C19_defined : forall (A : arith) d (wl : workload (F A)),
  supported d -> Forall (accepted d) (all_transfers wl) -> exists wl', inferInjectionRates A d wl = Ok wl'.
Proof. exact accepted_infers. Qed.
Print Assumptions C19_defined.
(* a source outside the grid ends the process before validation is reached *)
Theorem C19_out_of_grid_aborts : forall (A : arith) d (wl : workload (F A)), supported d ->
  (exists t, In t (all_transfers wl) /\ ~ on_chip_grid d (t_src t)) -> inferInjectionRates A d wl = Abort.
Proof. exact infer_out_of_grid. Qed.
Print Assumptions C19_out_of_grid_aborts.
Example C19_example : exists wl', inferInjectionRates f32A wormhole_b0 wl_mc = Ok wl' /\
  map t_rate (all_transfers wl') = [dlit f32A 281 10; dlit f32A 281 10].
Proof. eexists. split; reflexivity. Qed.

(** ** C20 Mesh golden window encloses all device windows *)
Theorem C20_mesh_smallest : forall (Fl : Type) (wl : workload Fl) m, m <> [] -> Forall u32_window (map snd m) ->
  exists w, getGoldenResultCycles (setGoldenResultCycles wl m) MESH_DEVICE = Ok w /\ smallest_window w (map snd m).
Proof. exact (fun Fl => @golden_mesh Fl). Qed.
Print Assumptions C20_mesh_smallest.
Theorem C20_others_unchanged : forall (Fl : Type) (wl : workload Fl) m k v,
  k <> MESH_DEVICE -> In (k, v) m -> NoDup (map fst m) -> getGoldenResultCycles (setGoldenResultCycles wl m) k = Ok v.
Proof. exact (fun Fl => @golden_others Fl). Qed.
Print Assumptions C20_others_unchanged.
Theorem C20_no_new_entries : forall (Fl : Type) (wl : workload Fl) m k,
  k <> MESH_DEVICE -> ~ In k (map fst m) ->
  getGoldenResultCycles (setGoldenResultCycles wl m) k = StdThrow "out_of_range".
Proof. exact (fun Fl => @golden_missing Fl). Qed.
Print Assumptions C20_no_new_entries.
Theorem C20_idempotent : forall (Fl : Type) (wl : workload Fl) m, m <> [] -> Forall u32_window (map snd m) ->
  let wl1 := setGoldenResultCycles wl m in setGoldenResultCycles wl1 (wl_golden wl1) = wl1.
Proof. exact (fun Fl => @golden_idempotent Fl). Qed.
Print Assumptions C20_idempotent.
Example C20_example :
  getGoldenResultCycles (setGoldenResultCycles (@empty_workload nat) [(0, (10, 50)); (1, (5, 40))]) (-1) = Ok (5, 50).
Proof. reflexivity. Qed.

(** ** C21 Total bytes is packet size times packet count *)
Theorem C21_product_iff_fits : forall (Fl : Type) ps np src dst (r : Fl) off noc ev z g1 g2 g3,
  0 <= ps -> 0 <= np ->
  (t_bytes (tr_make ps np src dst r off noc ev z g1 g2 g3) = ps * np <-> ps * np < 2 ^ 32).
Proof. exact (fun Fl => @total_bytes_iff Fl). Qed.
Print Assumptions C21_product_iff_fits.
Theorem C21_refuted : exists ps np, 0 < ps < 2 ^ 32 /\ 0 < np < 2 ^ 32 /\
  t_bytes (tr_make ps np (mkCoord 0 1 1) (Unicast (mkCoord 0 2 2)) (S754_zero false) 0 NOC0 "" "" (-1) (-1) (-1)) = 0.
Proof. exact total_bytes_wraps. Qed.
Print Assumptions C21_refuted.
Example C21_example : t_bytes (wtr (Unicast (mkCoord 0 4 4)) 7) = 1024.
Proof. reflexivity. Qed.
