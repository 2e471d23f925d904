(* Theorems about the generator of timeline files: C84, C85. *)
From Coq Require Import ZArith QArith Qminmax String List.
From Verif Require Import Base Util Device SpecDevice Multichip SpecMultichip MultichipProofs MultichipSteps MultichipAverages MultichipWitness.
Import ListNotations.
Local Open Scope string_scope.
Local Open Scope list_scope.
Open Scope Z_scope.

(* C84: the routes of the generator are those of the simulator *)
Theorem C84_routes d dev noc s e fuel : wf_device d -> 0 <= dev < Z.of_nat (dv_chips d) ->
  on_grid (Z.of_nat (dv_rows d)) (Z.of_nat (dv_cols d)) s -> on_grid (Z.of_nat (dv_rows d)) (Z.of_nat (dv_cols d)) e -> (dv_rows d + dv_cols d <= fuel)%nat ->
  exists ls ids, generate_route_segment fuel (Z.of_nat (dv_rows d)) (Z.of_nat (dv_cols d)) dev s e noc = Ok ls /\
    route d noc (core dev s) (Unicast (core dev e)) = Ok ids /\ reads_as d ids (map attr_of ls).
Proof. exact (segment_route d dev noc s e fuel). Qed.
Print Assumptions C84_routes.

Theorem C84_stuck rows cols dev noc s e fuel : on_grid rows cols s -> ~ on_grid rows cols e -> generate_route_segment fuel rows cols dev s e noc = Diverge.
Proof. exact (segment_stuck rows cols dev noc s e fuel). Qed.
Print Assumptions C84_stuck.

Theorem C84_one_chip d devices cpt fuel rs : wf_device d -> devices <= Z.of_nat (dv_chips d) -> (dv_rows d + dv_cols d <= fuel)%nat ->
  Forall (drawn (Z.of_nat (dv_rows d)) (Z.of_nat (dv_cols d)) devices) rs -> Forall (fun r => ~ between_chips devices r) rs -> rs <> [] ->
  exists ts steps, generate fuel (Z.of_nat (dv_rows d)) (Z.of_nat (dv_cols d)) devices cpt rs = Ok (ts, steps) /\
    Forall2 (fun r t => gt_src t = dr_src r /\ gt_dst t = dr_dst r /\ gt_bytes t = dr_bytes r /\ gt_start t = dr_start r /\ gt_start t + 40 <= gt_end t /\
      exists ids, route d (dr_noc r) (core (dr_dev r) (dr_src r)) (Unicast (core (dr_dev r) (dr_dst r))) = Ok ids /\ reads_as d ids (map attr_of (gt_links t))) rs ts.
Proof. exact (single_ok d devices cpt fuel rs). Qed.
Print Assumptions C84_one_chip.

(* no file at all once a transfer between chips is drawn *)
Theorem C84_between_chips fuel rows cols devices cpt rs : Exists (between_chips devices) rs -> forall a, generate fuel rows cols devices cpt rs <> Ok a.
Proof. exact (between_fails fuel rows cols devices cpt rs). Qed.
Print Assumptions C84_between_chips.

Theorem C84_between_outcome d devices cpt fuel rs : (dv_rows d + dv_cols d <= fuel)%nat ->
  Forall (drawn (Z.of_nat (dv_rows d)) (Z.of_nat (dv_cols d)) devices) rs -> Exists (between_chips devices) rs ->
  generate fuel (Z.of_nat (dv_rows d)) (Z.of_nat (dv_cols d)) devices cpt rs = StdThrow "AssertionError".
Proof. exact (between_asserts d devices cpt fuel rs). Qed.
Print Assumptions C84_between_outcome.

Theorem C84_no_draws fuel rows cols devices cpt rs : generate fuel rows cols devices cpt rs = StdThrow "ValueError" <-> rs = [].
Proof. exact (no_draws fuel rows cols devices cpt rs). Qed.
Print Assumptions C84_no_draws.

Theorem C84_file_refuted : exists rows cols devices cpt rs, Forall (drawn rows cols devices) rs /\ Exists (between_chips devices) rs /\ generate 100 rows cols devices cpt rs = StdThrow "AssertionError".
Proof. exact chips_refuted. Qed.
Print Assumptions C84_file_refuted.

Example C84_example : option_map fst sample = Some [[(2, 1, 1, NOC0_EAST); (2, 1, 2, NOC0_SOUTH)]; [(2, 1, 1, NOC0_EAST)]] /\
  generate_route_segment 30 12 10 0 (0, 8) (11, 1) NOC1 = Ok ([(0, 0, 8, NOC1_NORTH)] ++ map (fun c => (0, 11, c, NOC1_WEST)) [8; 7; 6; 5; 4; 3; 2]).
Proof. split; vm_compute; reflexivity. Qed.

(* C85: the transfers of the generated file: numbered in the order of the draws, as drawn, and 28.1 bytes in each cycle *)
Theorem C85_transfers fuel rows cols devices cpt rs ts ss : generate fuel rows cols devices cpt rs = Ok (ts, ss) ->
  List.length ts = List.length rs /\
  forall k r t, nth_error rs k = Some r -> nth_error ts k = Some t ->
    gt_id t = Z.of_nat k /\ gt_bytes t = dr_bytes r /\ gt_dev t = dr_dev r /\ gt_src t = dr_src r /\ gt_dst t = dr_dst r /\ gt_noc t = dr_noc r /\ gt_start t = dr_start r /\
    lasts (gt_bytes t) (gt_end t - gt_start t).
Proof. exact (file_transfers fuel rows cols devices cpt rs ts ss). Qed.
Print Assumptions C85_transfers.
Example C85_transfers_example : lasts 2048 72 /\ lasts 100 40 /\ ~ lasts 2048 73 /\ option_map (map (fun t => (gt_id t, gt_bytes t, gt_start t, gt_end t))) sample_transfers = Some [(0, 2048, 10, 82); (1, 4096, 70, 215)].
Proof.
  split; [right; split; [|split]; reflexivity || discriminate|]. split; [left; split; reflexivity|]. split; [|vm_compute; reflexivity].
  intros [(H & _)|(_ & H & _)]; [discriminate|]. apply H. reflexivity.
Qed.

(* the timesteps of the generated file *)
Theorem C85_steps fuel rows cols devices cpt rs ts ss : generate fuel rows cols devices cpt rs = Ok (ts, ss) ->
  forall k s, nth_error ss k = Some s -> gs_start s = Z.of_nat k * cpt /\ gs_end s = gs_start s + cpt.
Proof. exact (file_steps fuel rows cols devices cpt rs ts ss). Qed.
Print Assumptions C85_steps.

Theorem C85_active fuel rows cols devices cpt rs ts ss : generate fuel rows cols devices cpt rs = Ok (ts, ss) -> 0 < cpt ->
  forall s, In s ss -> NoDup (gs_active s) /\
    forall id, In id (gs_active s) <-> exists t, In t ts /\ gt_id t = id /\ gt_links t <> [] /\ under_way (gs_start s) (gs_end s) t.
Proof. exact (file_active fuel rows cols devices cpt rs ts ss). Qed.
Print Assumptions C85_active.

Theorem C85_covers fuel rows cols devices cpt rs ts ss : generate fuel rows cols devices cpt rs = Ok (ts, ss) -> 0 < cpt ->
  forall t c, In t ts -> 0 <= c -> gt_start t <= c < gt_end t -> exists s, In s ss /\ gs_start s <= c < gs_end s /\ (gt_links t <> [] -> In (gt_id t) (gs_active s)).
Proof. exact (file_covers fuel rows cols devices cpt rs ts ss). Qed.
Print Assumptions C85_covers.

Theorem C85_demand fuel rows cols devices cpt rs ts ss : generate fuel rows cols devices cpt rs = Ok (ts, ss) -> 0 < cpt ->
  forall s, In s ss -> NoDup (map fst (gs_demands s)) /\
    (forall l, In l (map fst (gs_demands s)) <-> exists t, In t ts /\ In l (gt_links t) /\ under_way (gs_start s) (gs_end s) t) /\
    forall l, exists q, link_sum l (gs_start s) (gs_end s) ts q /\ (demand_of s l == q)%Q.
Proof. exact (file_demand fuel rows cols devices cpt rs ts ss). Qed.
Print Assumptions C85_demand.

(* the averages: over all links of the timestep, in percent of 28.1 bytes per cycle, and of each NoC; as if each core had 8 links, 4 of each NoC *)
Theorem C85_averages fuel rows cols devices cpt rs ts ss : generate fuel rows cols devices cpt rs = Ok (ts, ss) -> 0 < cpt -> forall s, In s ss ->
  (forall ls, all_of (fun _ => True) s ls ->
     gs_demand s == 100 / (281 # 10) * sum_of (fun l => demand_of s l) ls / inject_Z (8 * rows * cols) /\
     gs_util s == 100 / (281 # 10) * sum_of (fun l => Qmin (281 # 10) (demand_of s l)) ls / inject_Z (8 * rows * cols))%Q /\
  forall noc ls, all_of (on_noc noc) s ls ->
    (gs_noc_demand s noc == 100 / (281 # 10) * sum_of (fun l => demand_of s l) ls / inject_Z (4 * rows * cols) /\
     gs_noc_util s noc == 100 / (281 # 10) * sum_of (fun l => Qmin (281 # 10) (demand_of s l)) ls / inject_Z (4 * rows * cols))%Q.
Proof. exact (file_averages fuel rows cols devices cpt rs ts ss). Qed.
Print Assumptions C85_averages.
Example C85_averages_example : sample_averages = Some [6400 # 20513; 204965 # 984624; 12800 # 20513; 204965 # 492312; 0]%Q.
Proof. vm_compute. reflexivity. Qed.

(* utilisations: at most 50 % for each chip ... *)
Theorem C85_util_partial fuel rows cols devices cpt rs ts ss : generate fuel rows cols devices cpt rs = Ok (ts, ss) -> 0 < cpt -> Forall (drawn rows cols devices) rs ->
  forall s, In s ss -> (gs_util s <= 50 * inject_Z devices)%Q /\ forall noc, (gs_noc_util s noc <= 50 * inject_Z devices)%Q.
Proof. exact (file_util fuel rows cols devices cpt rs ts ss). Qed.
Print Assumptions C85_util_partial.

(* ... and not at most 100 % *)
Theorem C85_util_refuted : exists rows cols devices cpt rs ts ss s noc, 0 < cpt /\ Forall (drawn rows cols devices) rs /\ Forall (fun r => ~ between_chips devices r) rs /\
  generate 10 rows cols devices cpt rs = Ok (ts, ss) /\ In s ss /\ ~ (gs_noc_util s noc <= 100)%Q.
Proof. exact util_refuted. Qed.
Print Assumptions C85_util_refuted.

(* the demand of a transfer over its cycles is not its bytes *)
Theorem C85_bytes_refuted : exists rows cols devices cpt rs ts ss t, 0 < cpt /\ Forall (drawn rows cols devices) rs /\ generate 100 rows cols devices cpt rs = Ok (ts, ss) /\ In t ts /\
  ~ (share t * inject_Z (gt_end t - gt_start t) == inject_Z (gt_bytes t))%Q.
Proof. exact bytes_refuted. Qed.
Print Assumptions C85_bytes_refuted.

Example C85_example : option_map snd sample = Some
  [(0, 32, [0], [((2, 1, 1, NOC0_EAST), (2048 # 73)%Q); ((2, 1, 2, NOC0_SOUTH), (2048 # 73)%Q)]);
   (32, 64, [0], [((2, 1, 1, NOC0_EAST), (2048 # 73)%Q); ((2, 1, 2, NOC0_SOUTH), (2048 # 73)%Q)]);
   (64, 96, [1; 0], [((2, 1, 1, NOC0_EAST), (4096 # 73)%Q); ((2, 1, 2, NOC0_SOUTH), (2048 # 73)%Q)])].
Proof. vm_compute. reflexivity. Qed.
