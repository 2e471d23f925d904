(* Specification of the texts (C92, C93): numbers with one decimal, lines. *)
From Coq Require Import ZArith QArith Qabs String List Bool Ascii Floats.SpecFloat.
From Verif Require Import Base Arith Util Device Workload Rates Stats SpecFiles Text.
Import ListNotations.
Local Open Scope string_scope.
Open Scope Z_scope.

(* the value of a finite float *)
Definition exact (x : spec_float) : Q :=
  match x with
  | S754_finite s m e => ((if s then - 1 else 1) * inject_Z (Zpos m) * Qpower 2 e)%Q
  | _ => 0%Q
  end.
Definition finite (x : spec_float) : Prop := match x with S754_zero _ | S754_finite _ _ _ => True | _ => False end.
Inductive blanks : string -> Prop :=
| no_blank : blanks ""
| more_blanks s : blanks s -> blanks (String " " s).
(* [s] is the number [q] with one digit [d] after the point, filled up with blanks to five characters *)
Definition one_decimal (q : Q) (d : Z) (s : string) : Prop :=
  exists pad (neg : bool) n num, blanks pad /\ (pad = "" \/ String.length s = 5%nat) /\ (5 <= String.length s)%nat /\ numeral n num /\ 0 <= d < 10 /\
    s = pad ++ (if neg then "-" else "") ++ num ++ "." ++ digit d /\ (q == (if neg then - 1 else 1) * (inject_Z n + inject_Z d / 10))%Q.
(* [s] is the tenth nearest to [v]; of two the one with an even digit *)
Definition nearest_tenth (v : Q) (s : string) : Prop :=
  exists q d, one_decimal q d s /\ (Qabs (q - v) <= 1 # 20)%Q /\ ((Qabs (q - v) == 1 # 20)%Q -> Z.even d = true).
(* [s] is the integer [n], filled up with blanks to five characters *)
Definition integer_text (n : Z) (s : string) : Prop :=
  exists pad num, blanks pad /\ (pad = "" \/ String.length s = 5%nat) /\ (5 <= String.length s)%nat /\ numeral n num /\ s = pad ++ num.

Definition newline : string := String (ascii_of_nat 10) "".
(* [text] has a line with [label], then [value], then [tail] *)
Definition has_line (text label value tail : string) : Prop :=
  exists before sp after, blanks sp /\ newline ++ text = before ++ newline ++ sp ++ label ++ ": " ++ value ++ tail ++ newline ++ after.
Definition lacks (c : ascii) (s : string) : Prop := forall a b, s <> a ++ String c b.

(* what the report on a device shows in percent: label, value, what follows the percent sign *)
Definition shown (ds : dstats f32A) : list (string * spec_float * string) :=
  ([("congestion impact", getCongestionImpact f32A ds, "%")] ++
   (if 0 <? ds_golden f32A ds then [("cycle pred error", ds_err f32A ds, "%")] else []) ++
   [("DRAM BW Util", ds_dram f32A ds, "% (using golden)"); ("DRAM BW Util", ds_dram_sim f32A ds, "% (using estimated)");
    ("ETH BW Util", getAggregateEthBwUtil f32A ds, "%");
    ("avg Link util", ds_avg_lu f32A ds, "%"); ("avg Mcast link util", ds_avg_mc f32A ds, "%"); ("max Link util", ds_max_lu f32A ds, "%");
    ("avg Link demand", ds_avg_ld f32A ds, "%"); ("max Link demand", ds_max_ld f32A ds, "%");
    ("avg NIU  demand", ds_avg_nd f32A ds, "%"); ("max NIU  demand", ds_max_nd f32A ds, "%")])%list.
(* cycle counts are not negative and the values to show are finite *)
Definition showable (ds : dstats f32A) : Prop :=
  0 <= ds_est f32A ds /\ 0 <= ds_golden f32A ds /\ Forall (fun e => finite (snd (fst e))) (shown ds).
(* no text in the configuration has more than one line *)
Definition one_line (c : npe_config) : Prop :=
  lacks (ascii_of_nat 10) (nc_device c) /\ lacks (ascii_of_nat 10) (nc_model c) /\ lacks (ascii_of_nat 10) (nc_workload c) /\ lacks (ascii_of_nat 10) (nc_timeline c) /\ lacks (ascii_of_nat 10) (nc_topology c).
