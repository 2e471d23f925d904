(* Cases for C86. *)
From Coq Require Import ZArith Ascii String List Bool Floats.SpecFloat.
From Verif Require Import Base Arith Cli SpecCli Timeline Stats Engine Ingest CliArgs SpecArgs ArgsProofs ArgsLines.
Import ListNotations.
Local Open Scope string_scope.
Local Open Scope list_scope.
Open Scope Z_scope.

Definition some_int (s : string) : option Z := if String.eqb s "12" then Some 12 else if String.eqb s "-5" then Some (-5) else None.
Definition some_float (s : string) : option spec_float := if String.eqb s "1.5" then Some (S754_finite false 6755399441055744 (-52)) else None.
(* switches, a letter with its value, an abbreviation, a value with a space, a number with a minus sign *)
Definition some_words : list string := ["-etc=12"; "--dev"; "T3K"; "-w"; "a b.json"; "--scale-workload-schedule=1.5"; "-c"; "-5"; "-v"; "--cong-m=none"].
Definition some_options : options := mkOpt (-5) "T3K" "none" "a b.json" false true true false (S754_finite false 6755399441055744 (-52)) "npe_timeline.json" false 1 "".
Lemma some_parsed : parse_cli_args some_int some_float some_words = Values some_options.
Proof. vm_compute. reflexivity. Qed.
(* an ambiguous beginning, a stray word, a value that is not a choice, a missing value, help *)
Lemma some_refused : map (parse_cli_args some_int some_float) [["--work"; "x"]; ["x"]; ["-d"; "TG"]; ["-w"; "-e"]; ["-c12"; "--he"; "-d=T"]; ["-e=1"]; ["--"; "-e"]] =
  [Leaves 2; Leaves 2; Leaves 2; Leaves 2; Leaves 0; Leaves 2; Leaves 2].
Proof. vm_compute. reflexivity. Qed.

Lemma program_cases int_text float_text ord bord gord zord file_at topology_at accept ws :
  let run := program int_text float_text ord bord gord zord file_at topology_at accept ws in
  let accepted := fun o => exists ls, line ws ls /\ Forall (valid int_text float_text) ls /\ sets int_text float_text ls o in
  (exists o, accepted o /\ chosen o /\ run = main ord bord gord zord file_at topology_at accept o) \/
  ((forall o, ~ accepted o) /\ (run = Ok (Exits 2, None, []) \/ (run = Ok (Exits 0, None, []) /\ exists w, In w ws /\ asks w))).
Proof.
  cbn zeta. unfold program. destruct (parse_cli_args int_text float_text ws) as [n|o] eqn:E.
  - right. split; [intros o H; apply parse_accepts in H; congruence|]. destruct (parse_status _ _ _ _ E) as [->|[-> H]]; auto.
  - left. exists o. split; [apply parse_accepts; exact E|]. split; [exact (parse_chosen _ _ _ _ E)|reflexivity].
Qed.
