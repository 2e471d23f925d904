(* Specifications for the statistics (C41-C43). *)
From Coq Require Import ZArith QArith Reals String List Bool Floats.SpecFloat.
From Flocq Require Import Core IEEE754.BinarySingleNaN.
From Verif Require Import Base Arith Util Device Workload Rates Stats Engine SpecEngine.
Import ListNotations.
Open Scope Z_scope.

(** * C41 *)
Definition intervals {A} (ds : dstats A) : list (Z * Z) := map (fun t => (ts_start A t, ts_end A t)) (ds_ts A ds).
(* n consecutive intervals of [cpt] cycles, from cycle [c] on *)
Fixpoint tiles (cpt c : Z) (n : nat) : list (Z * Z) :=
  match n with O => [] | S n => (c, c + cpt) :: tiles cpt (c + cpt) n end.
(* some timestep of the run covers this interval *)
Definition simulated A ord bord d congestion cpt wl (i : Z * Z) : Prop :=
  exists n s, begins A ord bord d congestion cpt wl n s /\ i = (sm_curr A s - cpt, sm_curr A s).
(* c is the start of the first timestep that ends at or after cycle g *)
Definition first_from (cpt g c : Z) : Prop :=
  (exists k, 0 <= k /\ c = k * cpt) /\ g <= c + cpt /\ (c = 0 \/ c < g).
(* the devices that have statistics *)
Definition has_stats (d : device) (id : Z) : Prop := In id (dv_device_ids d) \/ id = MESH_DEVICE.

(** * C42, C43 *)
(* the devices that the factory makes *)
Definition made (d : device) : Prop := exists name, createDeviceModel name = Ok d.
(* the values of a grid at the positions of a table that satisfy p *)
Definition select {X V} (p : X -> bool) (table : list X) (grid : list V) : list V :=
  map snd (filter (fun x => p (fst x)) (combine table grid)).
Definition link_on (id : Z) (a : link_attr) : bool := (id =? MESH_DEVICE) || (id =? c_dev (l_coord a)).
Definition niu_on (id : Z) (a : niu_attr) : bool := (id =? MESH_DEVICE) || (id =? c_dev (n_coord a)).
Definition on_noc0 (a : link_attr) : bool := match l_type a with NOC0_EAST | NOC0_SOUTH => true | _ => false end.
Definition qsum (l : list Q) : Q := fold_right Qplus 0%Q l.
(* average of the values, in percent of the bandwidth bw *)
Definition percent (bw : Q) (l : list Q) : Q := (100 * qsum l / (bw * inject_Z (Z.of_nat (List.length l))))%Q.
Definition qmin (a b : Q) : Q := if Qle_bool a b then a else b.
(* a float that is not negative; infinity and NaN are allowed *)
Definition not_negative (x : spec_float) : Prop :=
  valid_binary 24 128 x = true /\
  match x with S754_zero s | S754_infinity s | S754_finite s _ _ => s = false | S754_nan => True end.
(* a double between 0 and 100 *)
Definition percentage (x : spec_float) : Prop :=
  valid_binary 53 1024 x = true /\ (x = S754_zero false \/ exists m e, x = S754_finite false m e) /\ (0 <= SF2R radix2 x <= 100)%R.
(* the utilisations of a timestep *)
Definition percentages (t : tstats f32A) : Prop :=
  percentage (ts_avg_lu f32A t) /\ percentage (ts_avg_lu0 f32A t) /\ percentage (ts_avg_lu1 f32A t) /\ percentage (ts_avg_mc f32A t).
(* grids whose values are numbers *)
Definition exact_grids (d : device) (g : grids (F ratA)) (link mc niu : list Q) : Prop :=
  g_link g = map Some link /\ g_mc g = map Some mc /\ g_niu g = map Some niu /\
  List.length link = List.length (link_table d) /\ List.length mc = List.length (link_table d) /\ List.length niu = List.length (niu_table d).
