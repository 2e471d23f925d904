(* Specifications for the rates (C38-C40, C53, C54). *)
From Coq Require Import ZArith QArith Reals String List Bool Floats.SpecFloat.
From Flocq Require Import Core IEEE754.BinarySingleNaN.
From Verif Require Import Base Arith Util Device Workload Rates Engine SpecEngine.
Import ListNotations.
Open Scope Z_scope.

(** * Floats *)
(* a non-negative number of the format binary32: +0 or positive and finite; neither -0 nor an infinity nor NaN *)
Definition number (x : spec_float) : Prop :=
  valid_binary 24 128 x = true /\ (x = S754_zero false \/ exists m e, x = S754_finite false m e).
(* its value as a real number *)
Definition real (x : spec_float) : R := SF2R radix2 x.
(* operator<= *)
Definition le_float (x y : spec_float) : Prop := SFleb x y = true.

(* a transfer as validation accepts it, with a non-negative injection rate *)
Definition sound_transfer (t : transfer spec_float) : Prop :=
  1 <= t_psize t < 2 ^ 32 /\ 1 <= t_npkts t < 2 ^ 32 /\ number (t_rate t).
(* a transfer that takes part in a timestep that ends at cycle [en] *)
Definition sound_state (en : Z) (x : tstate spec_float) : Prop := sound_transfer (s_tr x) /\ 0 <= s_start x <= en.
Definition sound_live (en : Z) (sts : list (tstate spec_float)) (live : list nat) : Prop :=
  NoDup live /\ forall i x, In i live -> nth_error sts i = Some x -> sound_state en x.
(* the cycles of a timestep *)
Definition timestep_window (st en : Z) : Prop := 0 <= st < en /\ en < 2 ^ 32.

(** * Runs *)
(* the transfers that are live in the timestep from [s] to [s']: live before, or activated *)
Definition takes_part {A} (s s' : sim A) (i : nat) : Prop :=
  is_live A s i \/ (is_queued A s i /\ ~ is_queued A s' i).

(** * Capacities, in exact arithmetic *)
Definition qval (x : qx) : Q := match x with Some q => q | None => 0%Q end.
(* a finite non-negative number *)
Definition qnumber (x : qx) : Prop := exists q, x = Some q /\ (0 <= q)%Q.
(* a live transfer of a timestep that ends at cycle [en] *)
Definition sound_rat (en : Z) (x : tstate qx) : Prop := qnumber (t_rate (s_tr x)) /\ qnumber (s_bw x) /\ 0 <= s_start x <= en.
Definition sound_rlive (en : Z) (sts : list (tstate qx)) (live : list nat) : Prop := forall i x, In i live -> nth_error sts i = Some x -> sound_rat en x.
(* the part of the timestep in which the transfer is active *)
Definition activity (st en : Z) (x : tstate qx) : Q := (inject_Z (en - Z.max st (s_start x)) / inject_Z (en - st))%Q.
(* sum of the activity weighted bandwidths of the live transfers, each counted [times x] times *)
Definition load (st en : Z) (times : tstate qx -> nat) (sts : list (tstate qx)) (live : list nat) : Q :=
  fold_right (fun i acc => match nth_error sts i with
    | Some x => (inject_Z (Z.of_nat (times x)) * (activity st en x * qval (s_bw x)) + acc)%Q
    | None => acc
    end) 0%Q live.
Definition same_noc (a b : noc_type) : bool := match a, b with NOC0, NOC0 | NOC1, NOC1 => true | _, _ => false end.
Definition same_core (a b : coord) : bool := (c_dev a =? c_dev b) && (c_row a =? c_row b) && (c_col a =? c_col b).
Definition crosses {X} (l : Z) (x : tstate X) : nat := count_occ Z.eq_dec (s_route x) l.
Definition leaves {X} (c : coord) (n : noc_type) (x : tstate X) : nat :=
  if same_noc (t_noc (s_tr x)) n && same_core (t_src (s_tr x)) c then 1%nat else 0%nat.
Definition enters {X} (c : coord) (n : noc_type) (x : tstate X) : nat :=
  match t_dst (s_tr x) with
  | Unicast c' => if same_noc (t_noc (s_tr x)) n && same_core c' c then 1%nat else 0%nat
  | Multicast _ => 0%nat
  end.
(* multicasts that have the core [c] as one of their destinations *)
Definition enters_multicast (c : coord) (n : noc_type) (x : tstate qx) : nat :=
  match t_dst (s_tr x) with
  | Unicast _ => 0%nat
  | Multicast m => match mcast_coords m with
                   | Ok cs => if same_noc (t_noc (s_tr x)) n && existsb (same_core c) cs then 1%nat else 0%nat
                   | _ => 0%nat
                   end
  end.

(** * Capacities, in binary32 *)
(* the part of the timestep in which the transfer is active, as a real number *)
Definition part (st en : Z) (x : tstate spec_float) : R := (IZR (en - Z.max st (s_start x)) / IZR (en - st))%R.
(* the sum of the values of the bandwidths, weighted with these parts; each transfer counts [times x] times *)
Definition float_load (st en : Z) (times : tstate spec_float -> nat) (sts : list (tstate spec_float)) (live : list nat) : R :=
  fold_right (fun i acc => match nth_error sts i with
    | Some x => (INR (times x) * (part st en x * real (s_bw x)) + acc)%R
    | None => acc
    end) 0%R live.
(* the number of summands *)
Definition uses (times : tstate spec_float -> nat) (sts : list (tstate spec_float)) (live : list nat) : nat :=
  fold_right (fun i acc => match nth_error sts i with Some x => (times x + acc)%nat | None => acc end) 0%nat live.
