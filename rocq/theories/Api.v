(* Model of tt_npe/cpp/src/npeAPI.cpp. No proofs in this file. *)
From Coq Require Import ZArith String List Bool.
From Verif Require Import Base Arith Util Device Workload Stats Engine.
Import ListNotations.
Local Open Scope string_scope.
Local Open Scope list_scope.
Open Scope Z_scope.

Section Api.
  Context (A : arith).
  Context (ord : Z -> list Z -> list Z) (bord : list bucket -> list bucket).

  (* 15-27 *)
  Definition validateConfig (cfg : config (F A)) : outcome unit :=
    if cf_cpt cfg <=? 0 then Throw INVALID_CONFIG
    else if negb (String.eqb (cf_model cfg) "none") && negb (String.eqb (cf_model cfg) "fast")
    then Throw INVALID_CONFIG
    else Ok tt.

  (* 11-13: the engine (npeEngine.cpp:21-23) is built before the configuration is checked *)
  Definition npeAPI_make (cfg : config (F A)) : outcome device :=
    let! d := createDeviceModel (cf_device cfg) in
    let! _ := validateConfig cfg in
    Ok d.

  (* 32: scale != 0.0f; true for NaN *)
  Definition scale_set (s : F A) : bool := f_nan A s || f_lt A s (f_zero A) || f_lt A (f_zero A) s.

  (* 29-40 *)
  Definition preprocessWorkload (d : device) (cfg : config (F A)) (wl : workload (F A)) : outcome (workload (F A)) :=
    let! wl := if cf_infer cfg then inferInjectionRates A d wl else Ok wl in
    let! wl := if scale_set (cf_scale cfg) then scaleWorkloadSchedule A (cf_scale cfg) wl else Ok wl in
    if cf_remove_local cfg then removeLocalUnicastTransfers wl else Ok wl.

  (* 42-54: an npeException thrown by the engine becomes the result *)
  Definition runNPE (d : device) (cfg : config (F A)) (wl : workload (F A)) : outcome (npe_result A) :=
    let! wl := preprocessWorkload d cfg wl in
    let! ok := validate d wl in
    if ok then
      match runPerfEstimation A ord bord d cfg wl with
      | Throw e => Ok (Failure e)
      | r => r
      end
    else Ok (Failure WORKLOAD_VALIDATION_FAILED).
End Api.
