(* Model of the reports on the statistics of a device that depend on the order of a hash map: the utilisation of the Ethernet cores in
   words, tt_npe/cpp/src/npeStats.cpp:887-905. The entries of the map come in the order of [ds_eth]; [reordered] gives the same statistics
   with another order. How fmt writes a double with one digit is an argument. No proofs in this file. *)
From Coq Require Import ZArith String List Bool.
From Verif Require Import Base Arith Util Device Workload Rates Stats Files.
Import ListNotations.
Local Open Scope string_scope.
Local Open Scope list_scope.
Open Scope Z_scope.

Section Report.
  Context (A : arith).
  Definition reordered (ds : dstats A) (l : list (coord * D A)) : dstats A :=
    mkDs A (ds_completed A ds) (ds_est A ds) (ds_congfree A ds) (ds_golden A ds) (ds_err A ds) (ds_avg_ld A ds) (ds_max_ld A ds)
         (ds_avg_lu A ds) (ds_max_lu A ds) (ds_avg_nd A ds) (ds_max_nd A ds) (ds_avg_ld0 A ds) (ds_avg_lu0 A ds)
         (ds_max_ld0 A ds) (ds_avg_ld1 A ds) (ds_avg_lu1 A ds) (ds_max_ld1 A ds) (ds_avg_mc A ds) (ds_dram A ds)
         (ds_dram_sim A ds) l (ds_ts A ds) (ds_worst A ds).
  (* 894-898: std::tie(device_id, row, col) < std::tie(...) *)
  Definition core_lt (a b : coord * D A) : bool :=
    let '(x, y) := (fst a, fst b) in
    (c_dev x <? c_dev y) || ((c_dev x =? c_dev y) && ((c_row x <? c_row y) || ((c_row x =? c_row y) && (c_col x <? c_col y)))).
  (* fmt "{}" of an int16_t *)
  Definition signed (n : Z) : string := if n <? 0 then String.append "-" (decimal (- n)) else decimal n.
  (* 902: "({},{},{}):{:.1f}%" *)
  Definition core_str (one_digit : D A -> string) (e : coord * D A) : string :=
    String.concat "" ["("; signed (c_dev (fst e)); ","; signed (c_row (fst e)); ","; signed (c_col (fst e)); "):"; one_digit (snd e); "%"].
  (* 887-905 *)
  Definition getEthBwUtilPerCoreStr (one_digit : D A -> string) (ds : dstats A) : string :=
    match ds_eth A ds with
    | [] => "-"
    | l => fold_left (fun result e => String.append (if String.eqb result "" then result else String.append result " ") (core_str one_digit e))
             (sort core_lt l) ""
    end.
End Report.
