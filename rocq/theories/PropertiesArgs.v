(* C86: the words of the command line. *)
From Coq Require Import ZArith Ascii String List Bool Permutation Floats.SpecFloat.
From Verif Require Import Base Arith Cli SpecCli CliArgs SpecArgs ArgsProofs ArgsLines ArgsWitness.
Import ListNotations.
Local Open Scope string_scope.
Local Open Scope list_scope.
Open Scope Z_scope.

(** * C86: The words of the command line *)
(* exactly the lines of the grammar with valid values are accepted; the last value of each option counts, otherwise its default *)
Theorem C86_accepted : forall int_text float_text ws o, parse_cli_args int_text float_text ws = Values o <->
  exists ls, line ws ls /\ Forall (valid int_text float_text) ls /\ sets int_text float_text ls o.
Proof. exact parse_accepts. Qed.
Print Assumptions C86_accepted.
(* all other lines end with status 2, or with status 0 if a word asks for help *)
Theorem C86_refused : forall int_text float_text ws n, parse_cli_args int_text float_text ws = Leaves n -> n = 2 \/ (n = 0 /\ exists w, In w ws /\ asks w).
Proof. exact parse_status. Qed.
Print Assumptions C86_refused.
(* a word that asks for help, after words that are valid and before words of the grammar: status 0 *)
Theorem C86_help : forall int_text float_text ws1 ls1 w ss ws2 ls2, line ws1 ls1 -> Forall (valid int_text float_text) ls1 -> spells w ss "--help" -> line ws2 ls2 ->
  parse_cli_args int_text float_text (ws1 ++ w :: ws2) = Leaves 0.
Proof. exact parse_help. Qed.
Print Assumptions C86_help.
(* the order of different options does not matter *)
Theorem C86_order : forall int_text float_text ws1 ws2 ls1 ls2, line ws1 ls1 -> line ws2 ls2 -> Permutation ls1 ls2 -> NoDup (map fst ls1) ->
  forall o, parse_cli_args int_text float_text ws1 = Values o <-> parse_cli_args int_text float_text ws2 = Values o.
Proof. exact parse_order. Qed.
Print Assumptions C86_order.
(* the program for the words of the command line; C79 says how it goes on *)
Theorem C86_program : forall int_text float_text ord bord gord zord file_at topology_at accept ws,
  let run := program int_text float_text ord bord gord zord file_at topology_at accept ws in
  let accepted := fun o => exists ls, line ws ls /\ Forall (valid int_text float_text) ls /\ sets int_text float_text ls o in
  (exists o, accepted o /\ chosen o /\ run = main ord bord gord zord file_at topology_at accept o) \/
  ((forall o, ~ accepted o) /\ (run = Ok (Exits 2, None, []) \/ (run = Ok (Exits 0, None, []) /\ exists w, In w ws /\ asks w))).
Proof. exact program_cases. Qed.
Print Assumptions C86_program.
Example C86_ex : parse_cli_args some_int some_float ["-etc=12"; "--dev"; "T3K"; "-w"; "a b.json"; "--scale-workload-schedule=1.5"; "-c"; "-5"; "-v"; "--cong-m=none"] =
    Values (mkOpt (-5) "T3K" "none" "a b.json" false true true false (S754_finite false 6755399441055744 (-52)) "npe_timeline.json" false 1 "") /\
  map (parse_cli_args some_int some_float) [["--work"; "x"]; ["x"]; ["-d"; "TG"]; ["-w"; "-e"]; ["-c12"; "--he"; "-d=T"]; ["-e=1"]; ["--"; "-e"]] =
    [Leaves 2; Leaves 2; Leaves 2; Leaves 2; Leaves 0; Leaves 2; Leaves 2].
Proof. exact (conj some_parsed some_refused). Qed.
