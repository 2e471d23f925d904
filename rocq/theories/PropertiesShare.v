(* C90: transfers that share no link and no interface are not slowed down. *)
From Coq Require Import ZArith String List Bool Lia Floats.SpecFloat.
From Verif Require Import Base Arith Util Device SpecDevice Workload SpecWorkload DepTracker Rates Stats Engine SpecRates SpecEngine Cases EngineWitness SpecAlone SpecShare ShareProofs CongestWitness ShareWitness.
Import ListNotations.
Local Open Scope string_scope.
Local Open Scope list_scope.
Open Scope Z_scope.

(* with congestion: a live transfer that has no link, source interface or destination interface in common with another live one gets its whole bandwidth *)
Theorem C90_rate : forall ord, link_order ord -> forall bord, bucket_order bord -> forall d, supported d -> forall cpt wl, proper_cpt cpt -> proper wl -> Forall sound_transfer (all_transfers wl) ->
  Forall (accepted d) (all_transfers wl) -> Forall at_most_one_rectangle (all_transfers wl) ->
  forall s s' i x, reach f32A ord bord d true cpt wl s -> timestep f32A d true cpt wl s = Ok s' -> takes_part s s' i -> nth_error (sm_sts f32A s') i = Some x ->
  (forall j y, takes_part s s' j -> j <> i -> nth_error (sm_sts f32A s') j = Some y -> ~ contend d x y) ->
  (forall b, own_bandwidth d (s_tr x) b -> within_capacity d (s_tr x) b) -> own_bandwidth d (s_tr x) (s_bw x).
Proof. exact sole_step. Qed.
Print Assumptions C90_rate.
Example C90_rate_case : exists s s' x, timestep f32A N300 true 100 wl_apart s = Ok s' /\ takes_part s s' 0 /\ takes_part s s' 1 /\ nth_error (sm_sts f32A s') 1 = Some x /\
  c_dev (t_src (s_tr x)) = 1 /\ own_bandwidth N300 (s_tr x) (s_bw x) /\ s_bw x = f_lit f32A 200 10.
Proof.
  destruct apart_step as (s & s' & x & R & T & P & Hx & D & B & N & C). exists s, s', x. split; [exact T|]. split; [apply P; lia|]. split; [apply P; lia|]. split; [exact Hx|]. split; [exact D|].
  split; [|exact B]. exact (C90_rate _ same_links_order _ same_buckets_order N300 N300_supported 100 wl_apart ltac:(cpt) apart_case apart_sound apart_accepted apart_single s s' 1%nat x R T (P 1%nat ltac:(lia)) Hx N C).
Qed.

(* when no two transfers of the workload do, every transfer starts and ends at the same cycle with and without congestion *)
Theorem C90_run : forall ord, link_order ord -> forall bord, bucket_order bord -> forall d, supported d -> forall cpt, proper_cpt cpt -> forall wl, proper wl -> Forall sound_transfer (all_transfers wl) ->
  Forall (accepted d) (all_transfers wl) -> Forall at_most_one_rectangle (all_transfers wl) ->
  forall s s', succeeds f32A ord bord d true cpt wl s -> succeeds f32A ord bord d false cpt wl s' ->
  (forall i j x y, i <> j -> nth_error (sm_sts f32A s) i = Some x -> nth_error (sm_sts f32A s) j = Some y -> ~ contend d x y) ->
  (forall i x b, nth_error (sm_sts f32A s) i = Some x -> own_bandwidth d (s_tr x) b -> within_capacity d (s_tr x) b) ->
  forall i x, nth_error (sm_sts f32A s) i = Some x -> same_times f32A s s' i i.
Proof. exact same_run. Qed.
Print Assumptions C90_run.
Example C90_run_case : exists s s' x, succeeds f32A same_links same_buckets N300 true 100 wl_apart s /\ succeeds f32A same_links same_buckets N300 false 100 wl_apart s' /\
  nth_error (sm_sts f32A s) 1 = Some x /\ s_end x = 95 /\ same_times f32A s s' 1 1.
Proof.
  destruct apart_runs as (s & s' & x & x' & S & S' & N & C & Hx & _ & E & _). exists s, s', x. split; [exact S|]. split; [exact S'|]. split; [exact Hx|]. split; [exact E|].
  exact (C90_run _ same_links_order _ same_buckets_order N300 N300_supported 100 ltac:(cpt) wl_apart apart_case apart_sound apart_accepted apart_single s s' S S' N C 1%nat x Hx).
Qed.

(* and every estimate is the same *)
Theorem C90_estimates : forall ord, link_order ord -> forall bord, bucket_order bord -> forall d, supported d -> forall cpt, proper_cpt cpt -> forall wl, proper wl -> Forall sound_transfer (all_transfers wl) ->
  Forall (accepted d) (all_transfers wl) -> Forall at_most_one_rectangle (all_transfers wl) ->
  forall model stt stt', (forall id g, getGoldenResultCycles wl id = Ok g -> 0 <= fst g) -> model <> "none" ->
  runSinglePerfSim f32A ord bord d model cpt wl = Ok (Stats stt) -> runSinglePerfSim f32A ord bord d "none" cpt wl = Ok (Stats stt') ->
  (forall s, succeeds f32A ord bord d true cpt wl s ->
    (forall i j x y, i <> j -> nth_error (sm_sts f32A s) i = Some x -> nth_error (sm_sts f32A s) j = Some y -> ~ contend d x y) /\
    (forall i x b, nth_error (sm_sts f32A s) i = Some x -> own_bandwidth d (s_tr x) b -> within_capacity d (s_tr x) b)) ->
  forall id ds ds', stats_get f32A stt id = Some ds -> stats_get f32A stt' id = Some ds' -> ds_est f32A ds' = ds_est f32A ds.
Proof. exact same_estimates. Qed.
Print Assumptions C90_estimates.
Example C90_estimates_case : exists stt stt' ds ds', runSinglePerfSim f32A same_links same_buckets N300 "fast" 100 wl_apart = Ok (Stats stt) /\
  runSinglePerfSim f32A same_links same_buckets N300 "none" 100 wl_apart = Ok (Stats stt') /\ stats_get f32A stt 1 = Some ds /\ stats_get f32A stt' 1 = Some ds' /\
  ds_est f32A ds = 95 /\ ds_est f32A ds' = ds_est f32A ds.
Proof.
  destruct (apart_stats _ _ (proj1 apart_estimates)) as (stt & ds & H & G & E). destruct (apart_stats _ _ (proj2 apart_estimates)) as (stt' & ds' & H' & G' & _).
  exists stt, stt', ds, ds'. do 5 (split; [assumption|]). destruct apart_runs as (s & s' & x & x' & S & S' & N & C & _).
  apply (C90_estimates _ same_links_order _ same_buckets_order N300 N300_supported 100 ltac:(cpt) wl_apart apart_case apart_sound apart_accepted apart_single "fast" stt stt' apart_golden ltac:(discriminate) H H') with (id := 1); [|exact G|exact G'].
  intros q Q. unfold succeeds in *. assert (Eq : inl (A := sim f32A) (B := npe_error) q = inl s) by congruence. injection Eq as ->. auto.
Qed.
