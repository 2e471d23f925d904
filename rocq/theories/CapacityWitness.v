(* Example for the capacities in floats. *)
From Coq Require Import ZArith Arith Reals Lra String List Bool Floats.SpecFloat.
From Flocq Require Import Core IEEE754.BinarySingleNaN.
From Verif Require Import Base Arith Util Device Workload Rates Engine SpecEngine SpecRates Cases EngineWitness RatesWitness.
Import ListNotations.
Local Open Scope string_scope.
Local Open Scope list_scope.
Open Scope Z_scope.

Definition load_view (r : outcome (list (tstate spec_float) * grids spec_float)) :=
  match r with Ok (sts, _) => Some (map (fun x => (s_start x, s_bw x, enters sink_core NOC0 x, crosses link128 x)) sts) | _ => None end.
Lemma meet_float : exists sts g, rate_all f32A wormhole_b0 (wl_meet f32A) all3 true = Ok (sts, g) /\
  float_load 0 100 (enters sink_core NOC0) sts all3 = (29464985 * bpow radix2 (-20))%R /\ uses (enters sink_core NOC0) sts all3 = 3%nat /\
  float_load 0 100 (crosses link128) sts all3 = (23571988 * bpow radix2 (-20))%R /\ uses (crosses link128) sts all3 = 2%nat /\
  real (abs_rate f32A wormhole_b0 WORKER) = (14732493 * bpow radix2 (-19))%R /\ getCoreType wormhole_b0 sink_core = Ok WORKER.
Proof.
  assert (H : load_view (rate_all f32A wormhole_b0 (wl_meet f32A) all3 true) = Some [(0, fl 11785994 (-20), 1%nat, 1%nat); (0, fl 11785994 (-20), 1%nat, 1%nat); (50, fl 11785994 (-20), 1%nat, 0%nat)]) by (vm_compute; reflexivity).
  destruct (rate_all f32A wormhole_b0 (wl_meet f32A) all3 true) as [[sts g]| | | | | |]; try discriminate H. exists sts, g. split; [reflexivity|]. unfold load_view in H.
  destruct sts as [|x0 [|x1 [|x2 [|x3 sts]]]]; try discriminate H. injection H as A1 A2 A3 A4 B1 B2 B3 B4 C1 C2 C3 C4.
  unfold float_load, uses, all3, part, real. cbn [fold_right nth_error]. rewrite A1, A2, A3, A4, B1, B2, B3, B4, C1, C2, C3, C4. unfold fl. cbn [INR SF2R]. unfold F2R. cbn [Fnum Fexp cond_Zopp]. 
  change (bpow radix2 (-20)) with (/ 1048576)%R. split; [cbn; lra|]. split; [reflexivity|]. split; [cbn; lra|]. split; [reflexivity|].
  split; [|reflexivity]. match goal with |- context [SF2R radix2 ?x] => let y := eval vm_compute in x in change x with y end. cbn [SF2R]. unfold F2R. cbn [Fnum Fexp cond_Zopp]. reflexivity.
Qed.
