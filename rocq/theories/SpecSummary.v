(* Specifications of the summary statistics (C59, C60). *)
From Coq Require Import ZArith QArith Qreals Reals String List Bool Floats.SpecFloat.
From Flocq Require Import Core IEEE754.BinarySingleNaN.
From Verif Require Import Base Arith Util Device SpecDevice Workload SpecWorkload Stats SpecStats.
Import ListNotations.
Open Scope Z_scope.

(** * C59 *)
(* n is the sum of [w] over the elements of the list with [P] *)
Inductive sum_over {X} (P : X -> Prop) (w : X -> Z) : list X -> Z -> Prop :=
| sum_nil : sum_over P w [] 0
| sum_skip x l n : ~ P x -> sum_over P w l n -> sum_over P w (x :: l) n
| sum_take x l n : P x -> sum_over P w l n -> sum_over P w (x :: l) (w x + n).
(* the transfer counts for these statistics: those of the chip that issues it and those of the mesh *)
Definition issued {Fl} (id : Z) (t : transfer Fl) : Prop := id = MESH_DEVICE \/ id = c_dev (t_src t).
Definition core_at (d : device) (c : coord) (k : core_type) : Prop := on_chip_grid d c /\ layout (dv_arch d) (c_row c) (c_col c) = k.
(* reads from DRAM, or writes to it *)
Definition uses_dram {Fl} (d : device) (t : transfer Fl) : Prop := core_at d (t_src t) DRAM \/ exists c, t_dst t = Unicast c /\ core_at d c DRAM.
(* goes to the Ethernet core c *)
Definition to_eth {Fl} (d : device) (c : coord) (t : transfer Fl) : Prop := t_dst t = Unicast c /\ core_at d c ETH.
(* bytes per cycle: of the DRAM of one chip (banks times the mean of the rates of reading and writing), of an Ethernet core *)
Definition chip_dram (d : device) : Q :=
  match dv_arch d with
  | WormholeB0 => 12 * (((232 # 10) + 24) / 2)
  | Blackhole => inject_Z (dv_banks d) * (54 / (135 # 100))
  end.
Definition eth_link (d : device) : Q := match dv_arch d with WormholeB0 => 125 # 10 | Blackhole => 50 end.
Definition all_dram (d : device) : Q := inject_Z (Z.of_nat (dv_chips d)) * chip_dram d.
(* what [bytes] in [cycles] are of a bandwidth, in percent *)
Definition utilisation (bytes cycles : Z) (bw : Q) : Q := 100 * inject_Z bytes / (inject_Z cycles * bw).
(* a double that is not negative, and close to q *)
Definition number64 (x : spec_float) : Prop := valid_binary 53 1024 x = true /\ (x = S754_zero false \/ exists m e, x = S754_finite false m e).
Definition close_to (x : spec_float) (q : Q) : Prop :=
  number64 x /\ (Rabs (SF2R radix2 x - Q2R q) <= Q2R q * bpow radix2 (-21))%R.

(** * C60 *)
Definition mean (l : list Q) : Q := qsum l / inject_Z (Z.of_nat (List.length l)).
Definition greatest (l : list Q) (m : Q) : Prop := (exists x, In x l /\ x == m) /\ forall x, In x l -> (x <= m)%Q.
(* the summary fields that are averages, with the field of the timesteps *)
Definition average_fields A : list ((dstats A -> D A) * (tstats A -> D A)) :=
  [(ds_avg_ld A, ts_avg_ld A); (ds_avg_lu A, ts_avg_lu A); (ds_avg_nd A, ts_avg_nd A); (ds_avg_ld0 A, ts_avg_ld0 A); (ds_avg_lu0 A, ts_avg_lu0 A);
   (ds_avg_ld1 A, ts_avg_ld1 A); (ds_avg_lu1 A, ts_avg_lu1 A); (ds_avg_mc A, ts_avg_mc A)].
Definition maximum_fields A : list ((dstats A -> D A) * (tstats A -> D A)) :=
  [(ds_max_ld A, ts_avg_ld A); (ds_max_lu A, ts_avg_lu A); (ds_max_nd A, ts_avg_nd A); (ds_max_ld0 A, ts_avg_ld0 A); (ds_max_ld1 A, ts_avg_ld1 A)].
Definition rsum (l : list R) : R := fold_right Rplus 0%R l.
(* a double close to r, up to [k] roundings *)
Definition near (k : Z) (x : spec_float) (r : R) : Prop := (Rabs (SF2R radix2 x - r) <= r * IZR k * bpow radix2 (-53) + bpow radix2 (-1074))%R.
