(* C23: results and the order of the hash containers. *)
From Coq Require Import ZArith String List Bool Floats.SpecFloat Sorting.Permutation.
From Verif Require Import Base Arith Util Device SpecDevice Workload SpecWorkload DepTracker Rates Stats Engine Api SpecEngine SpecApi SpecOrder
  OrderRun Cases EngineWitness ApiWitness OrderWitness.
Import ListNotations.
Open Scope Z_scope.

(** ** C23 Results do not depend on hash-table order *)
(* the order of the dependency buckets never matters, in either arithmetic *)
Theorem C23_buckets : forall (A : arith) ord bord bord' d congestion cpt (wl : workload (F A)), proper wl -> bucket_order bord -> bucket_order bord' ->
  same_outcome (simulate A ord bord d congestion cpt wl) (simulate A ord bord' d congestion cpt wl).
Proof. exact bucket_order_free. Qed.
Print Assumptions C23_buckets.
Example C23_buckets_example : proper wl_bend /\ bucket_order same_buckets /\ bucket_order turned_buckets /\
  spans (simulate f32A same_links turned_buckets wormhole_b0 true 100 wl_bend) = [(0, 2000); (0, 2000); (2000, 2900)].
Proof. split; [exact bend_proper|]. split; [exact same_buckets_order|]. split; [exact turned_buckets_order|]. vm_compute. reflexivity. Qed.

(* the order of the link sets matters only through the direction of the first link of each multicast *)
Theorem C23_links_partial : forall ord ord' bord bord' d congestion cpt (wl : workload (F f32A)), proper wl -> link_order ord -> link_order ord' -> bucket_order bord -> bucket_order bord' ->
  same_headings d wl ord ord' -> same_outcome (simulate f32A ord bord d congestion cpt wl) (simulate f32A ord' bord' d congestion cpt wl).
Proof. exact link_order_free. Qed.
Print Assumptions C23_links_partial.
Example C23_links_example : proper wl_south /\ link_order same_links /\ link_order turned_links /\ bucket_order turned_buckets /\ same_headings wormhole_b0 wl_south same_links turned_links.
Proof.
  split; [exact south_proper|]. split; [exact same_links_order|]. split; [exact turned_links_order|]. split; [exact turned_buckets_order|].
  apply straight_headings; [exact same_links_order|exact turned_links_order|exact south_straight].
Qed.

(* so the results of runNPE do not depend on any order when the links of each multicast have one direction, in particular without multicasts *)
Theorem C23_results_partial : forall ord ord' bord bord' (cfg : config (F f32A)) d (wl : workload (F f32A)), link_order ord -> link_order ord' -> bucket_order bord -> bucket_order bord' ->
  npeAPI_make f32A cfg = Ok d -> usable_workload d cfg wl -> straight_multicasts d wl -> runNPE f32A ord bord d cfg wl = runNPE f32A ord' bord' d cfg wl.
Proof. exact npe_order_free. Qed.
Print Assumptions C23_results_partial.
Theorem C23_unicasts : forall d (wl : workload spec_float), unicasts_only wl -> straight_multicasts d wl.
Proof. exact unicasts_straight. Qed.
Print Assumptions C23_unicasts.
Example C23_results_example : npeAPI_make f32A (api_config "fast" false one32) = Ok wormhole_b0 /\
  usable_workload wormhole_b0 (api_config "fast" false one32) wl_south /\ straight_multicasts wormhole_b0 wl_south /\ unicasts_only (wl_share f32A).
Proof. split; [vm_compute; reflexivity|]. split; [exact south_usable|]. split; [exact south_straight|exact share_unicasts]. Qed.

(* a multicast that turns joins the lane of whichever direction its set yields first *)
Theorem C23_order_refuted : exists ord ord' d cfg wl ts, link_order ord /\ link_order ord' /\ npeAPI_make f32A cfg = Ok d /\ built wl [ts] /\ usable_workload d cfg wl /\ validate d wl = Ok true /\
  spans (simulate f32A ord same_buckets d true (cf_cpt cfg) wl) = [(0, 2000); (0, 2000); (2000, 2900)] /\
  spans (simulate f32A ord' same_buckets d true (cf_cpt cfg) wl) = [(0, 3030); (0, 3030); (0, 3030)] /\
  estimates (runNPE f32A ord same_buckets d cfg wl) <> estimates (runNPE f32A ord' same_buckets d cfg wl).
Proof. exact bend_runs. Qed.
Print Assumptions C23_order_refuted.
