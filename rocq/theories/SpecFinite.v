(* Specifications of the numbers in the statistics, in floats (C82, C43). *)
From Coq Require Import ZArith Reals String List Bool Floats.SpecFloat.
From Flocq Require Import Core IEEE754.BinarySingleNaN.
From Verif Require Import Base Arith Util Device Workload Rates Stats Engine SpecEngine SpecRates SpecStats SpecSummary.
Import ListNotations.
Local Open Scope list_scope.
Open Scope Z_scope.

(* a demand: a float that is a number from 0 to 2^32 bytes per cycle *)
Definition limited (x : spec_float) : Prop := number x /\ (real x <= bpow radix2 32)%R.
Definition limited_grids (d : device) (g : grids spec_float) : Prop :=
  Forall limited (g_link g) /\ Forall limited (g_mc g) /\ Forall limited (g_niu g) /\
  List.length (g_link g) = List.length (link_table d) /\ List.length (g_mc g) = List.length (link_table d) /\ List.length (g_niu g) = List.length (niu_table d).
(* the fields of a timestep *)
Definition timestep_numbers (t : tstats f32A) : list spec_float :=
  [ts_avg_ld f32A t; ts_max_ld f32A t; ts_avg_lu f32A t; ts_avg_nd f32A t; ts_max_nd f32A t; ts_avg_ld0 f32A t; ts_avg_lu0 f32A t; ts_max_ld0 f32A t;
   ts_avg_ld1 f32A t; ts_avg_lu1 f32A t; ts_max_ld1 f32A t; ts_avg_mc f32A t].
(* the fields of a result, but for the prediction error, which may be negative *)
Definition result_numbers (ds : dstats f32A) : list spec_float :=
  [ds_avg_ld f32A ds; ds_max_ld f32A ds; ds_avg_lu f32A ds; ds_max_lu f32A ds; ds_avg_nd f32A ds; ds_max_nd f32A ds; ds_avg_ld0 f32A ds; ds_avg_lu0 f32A ds; ds_max_ld0 f32A ds;
   ds_avg_ld1 f32A ds; ds_avg_lu1 f32A ds; ds_max_ld1 f32A ds; ds_avg_mc f32A ds; ds_dram f32A ds; ds_dram_sim f32A ds] ++ map snd (ds_eth f32A ds).
(* a double that is neither infinite nor NaN *)
Definition finite64 (x : spec_float) : Prop :=
  valid_binary 53 1024 x = true /\ match x with S754_zero _ | S754_finite _ _ _ => True | S754_infinity _ | S754_nan => False end.

(* average of values in percent of a bandwidth *)
Definition rpercent (bw : R) (l : list R) : R := (100 * rsum l / (bw * IZR (Z.of_nat (List.length l))))%R.
(* a double that is not negative and equals r up to 2^-22 *)
Definition about (x : spec_float) (r : R) : Prop :=
  number64 x /\ (Rabs (SF2R radix2 x - r) <= r * bpow radix2 (-22) + bpow radix2 (-1074))%R.
(* m is the greatest of the values, 0 if there are none *)
Definition rgreatest (l : list R) (m : R) : Prop := In m (0%R :: l) /\ forall x, In x l -> (x <= m)%R.
