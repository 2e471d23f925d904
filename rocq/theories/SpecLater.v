(* Specification of a workload that runs later (C87): every start cycle and every golden window is moved by the same number of cycles.
   Independent of the engine's helpers: a workload, states and statistics are compared field by field. *)
From Coq Require Import ZArith String List Bool.
From Verif Require Import Base Arith Util Device Workload DepTracker Rates Stats Engine.
Import ListNotations.
Open Scope Z_scope.

Definition later_transfer {Fl} (k : Z) (t : transfer Fl) : transfer Fl :=
  mkTr (t_psize t) (t_npkts t) (t_src t) (t_dst t) (t_rate t) (t_off t + k) (t_noc t) (t_event t) (t_bytes t) (t_zone t)
       (t_gid t) (t_gix t) (t_gpar t) (t_phase t) (t_id t).
Definition later_window (k : Z) (w : Z * Z) : Z * Z := (fst w + k, snd w + k).
(* the zones are left alone, the simulation does not read them *)
Definition later_workload {Fl} (k : Z) (wl : workload Fl) : workload Fl :=
  mkWl (wl_path wl) (map (fun p => mkPhase (ph_id p) (map (later_transfer k) (ph_trs p))) (wl_phases wl)) (wl_next wl) (wl_groups wl)
       (map (fun e => (fst e, later_window k (snd e))) (wl_golden wl)) (wl_zones wl).

Section Later.
  Context (A : arith) (k : Z).
  (* a finished transfer: the same cycles, later *)
  Definition later_finish (x x' : tstate (F A)) : Prop :=
    s_tr x' = later_transfer k (s_tr x) /\ s_start x' = s_start x + k /\ s_end x' = s_end x + k /\
    s_bw x' = s_bw x /\ s_done x' = s_done x /\ s_route x' = s_route x.
  (* the last states of two runs *)
  Definition later_run (s s' : sim A) : Prop :=
    sm_curr A s' = sm_curr A s + k /\ Forall2 later_finish (sm_sts A s) (sm_sts A s').

  (* a timestep of the statistics: everything but the two cycles is the same *)
  Definition later_ts (t : tstats A) : tstats A :=
    mkTst A (ts_start A t + k) (ts_end A t + k) (ts_avg_ld A t) (ts_max_ld A t) (ts_avg_lu A t) (ts_avg_nd A t) (ts_max_nd A t)
      (ts_avg_ld0 A t) (ts_avg_lu0 A t) (ts_max_ld0 A t) (ts_avg_ld1 A t) (ts_avg_lu1 A t) (ts_max_ld1 A t) (ts_avg_mc A t)
      (ts_link A t) (ts_niu A t) (ts_live A t).
  (* padding timesteps (npeStats.cpp:84) have the cycles 0 and 0 in both *)
  Definition later_timestep (t t' : tstats A) : Prop := t' = later_ts t \/ (t = fresh_ts A 0 0 /\ t' = t).
  (* the statistics of a device: all numbers are the same *)
  Definition later_device (ds ds' : dstats A) : Prop :=
    exists l w, ds' = with_ts A (with_worst A ds w) l /\ Forall2 later_timestep (ds_ts A ds) l /\
      w = (if ds_worst A ds =? 0 then 0 else ds_worst A ds + k).
  Definition later_stats (st st' : stats A) : Prop :=
    Forall2 (fun e e' => fst e' = fst e /\ later_device (snd e) (snd e')) st st'.
End Later.

(* no transfer and no golden window starts at cycle 0 *)
Definition starts_after_zero {Fl} (wl : workload Fl) : Prop :=
  Forall (fun t => 0 < t_off t) (flat_map ph_trs (wl_phases wl)) /\ Forall (fun e => 0 < fst (snd e)) (wl_golden wl).
