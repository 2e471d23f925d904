(* Specification of the words of the command line (C86): which lines are accepted, and what they set. *)
From Coq Require Import ZArith Ascii String List Bool Floats.SpecFloat.
From Verif Require Import Cli.
Import ListNotations.
Local Open Scope string_scope.
Local Open Scope list_scope.
Open Scope Z_scope.

(** * The options *)
Definition with_value : list string :=
  ["--cycles-per-timestep"; "--device"; "--cong-model"; "--workload"; "--scale-workload-schedule"; "--timeline-json-filepath"; "--topology-json"].
Definition switches : list string :=
  ["--no-injection-rate-inference"; "--emit-timeline-file"; "--workload-is-noc-trace"; "--compress-timeline-output-file"; "--use-legacy-timeline-format"].
Definition all_names : list string := "--help" :: "--verbose" :: with_value ++ switches.
Definition letters : list (ascii * string) :=
  [("h"%char, "--help"); ("c"%char, "--cycles-per-timestep"); ("d"%char, "--device"); ("w"%char, "--workload"); ("e"%char, "--emit-timeline-file");
   ("t"%char, "--workload-is-noc-trace"); ("v"%char, "--verbose")].
Definition valued (n : string) : Prop := In n with_value \/ n = "--verbose".

(** * Words *)
Definition begins (p s : string) : Prop := exists r, s = (p ++ r)%string.
Fixpoint lacks (c : ascii) (s : string) : Prop := match s with EmptyString => True | String a r => a <> c /\ lacks c r end.
Fixpoint decimal (s : string) : Prop := match s with EmptyString => True | String a r => (48 <= nat_of_ascii a <= 57)%nat /\ decimal r end.
(* a long name in full, or the beginning of only one *)
Definition long_name (w n : string) : Prop :=
  In n all_names /\ begins "--" w /\ begins w n /\ (w = n \/ forall m, In m all_names -> begins w m -> m = n).
(* letters of switches one after the other *)
Inductive switch_letters : string -> list (string * option string) -> Prop :=
| no_letters : switch_letters "" []
| one_letter c n s ss : In (c, n) letters -> In n switches -> switch_letters s ss -> switch_letters (String c s) ((n, None) :: ss).
(* a word that sets switches and then names an option *)
Inductive by_letter : string -> list (string * option string) -> string -> Prop :=
| letter_word s ss c n : switch_letters s ss -> In (c, n) letters -> by_letter (String "-" (s ++ String c "")%string) ss n.
Inductive spells : string -> list (string * option string) -> string -> Prop :=
| spells_long w n : long_name w n -> spells w [] n
| spells_letter w ss n : by_letter w ss n -> spells w ss n.
(* a number with a minus sign, perhaps before an end of line *)
Definition negative (w : string) : Prop :=
  exists e, (e = "" \/ e = String (ascii_of_nat 10) "") /\
    ((exists a, a <> "" /\ decimal a /\ w = ("-" ++ a ++ e)%string) \/ (exists a b, b <> "" /\ decimal a /\ decimal b /\ w = ("-" ++ a ++ "." ++ b ++ e)%string)).
(* a word that begins like an option of the program *)
Definition like_option (w : string) : Prop :=
  (exists c n r, In (c, n) letters /\ w = String "-" (String c r)) \/
  (exists h n, In n all_names /\ begins "--" h /\ begins h n /\ (w = h \/ exists v, w = (h ++ "=" ++ v)%string)).
(* a word that is taken as a value *)
Definition plain (w : string) : Prop := ~ begins "-" w \/ w = "-" \/ ((negative w \/ ~ lacks " " w) /\ ~ like_option w).

(** * Lines *)
Inductive line : list string -> list (string * option string) -> Prop :=
| line_end : line [] []
| line_next w ss n v ws ls : spells w ss n -> valued n -> plain v -> line ws ls -> line (w :: v :: ws) (ss ++ (n, Some v) :: ls)
| line_equals w ss n v ws ls : spells w ss n -> valued n -> line ws ls -> line ((w ++ "=" ++ v)%string :: ws) (ss ++ (n, Some v) :: ls)
| line_attached w ss n v ws ls : by_letter w ss n -> valued n -> v <> "" -> ~ begins "=" v -> line ws ls -> line ((w ++ v)%string :: ws) (ss ++ (n, Some v) :: ls)
| line_switch w ss n ws ls : spells w ss n -> In n switches -> line ws ls -> line (w :: ws) (ss ++ (n, None) :: ls)
| line_verbose w ss ws ls : spells w ss "--verbose" -> (forall v r, ws = v :: r -> ~ plain v) -> line ws ls -> line (w :: ws) (ss ++ ("--verbose", None) :: ls).
(* a word that asks for help *)
Definition asks (w : string) : Prop :=
  long_name w "--help" \/ exists s ss r, switch_letters s ss /\ w = String "-" (s ++ String "h" r)%string.

(** * Values *)
Section Values.
  Context (int_text : string -> option Z) (float_text : string -> option spec_float).
  Definition valid (x : string * option string) : Prop :=
    match snd x with
    | None => True
    | Some v =>
        (fst x = "--cycles-per-timestep" \/ fst x = "--verbose" -> int_text v <> None) /\
        (fst x = "--device" -> In v ["wormhole_b0"; "N150"; "N300"; "T3K"; "blackhole"; "P100"; "P150"]) /\
        (fst x = "--cong-model" -> v = "none" \/ v = "fast") /\
        (fst x = "--scale-workload-schedule" -> float_text v <> None)
    end.
  (* the last value of an option *)
  Fixpoint last_of (n : string) (ls : list (string * option string)) : option (option string) :=
    match ls with
    | [] => None
    | (m, v) :: r => match last_of n r with Some x => Some x | None => if String.eqb m n then Some v else None end
    end.
  Definition text_of (n : string) (default : string) ls : string := match last_of n ls with Some (Some v) => v | _ => default end.
  Definition given (n : string) ls : bool := match last_of n ls with Some _ => true | None => false end.
  Definition sets (ls : list (string * option string)) (o : options) : Prop :=
    Some (op_cpt o) = match last_of "--cycles-per-timestep" ls with Some (Some v) => int_text v | _ => Some 32 end /\
    op_device o = text_of "--device" "wormhole_b0" ls /\
    op_model o = text_of "--cong-model" "fast" ls /\
    op_workload o = text_of "--workload" "" ls /\
    op_no_infer o = given "--no-injection-rate-inference" ls /\
    op_emit o = given "--emit-timeline-file" ls /\
    op_trace o = given "--workload-is-noc-trace" ls /\
    op_compress o = given "--compress-timeline-output-file" ls /\
    Some (op_scale o) = match last_of "--scale-workload-schedule" ls with Some (Some v) => float_text v | _ => Some (S754_zero false) end /\
    op_timeline o = text_of "--timeline-json-filepath" "npe_timeline.json" ls /\
    op_legacy o = given "--use-legacy-timeline-format" ls /\
    Some (op_verbose o) = match last_of "--verbose" ls with Some (Some v) => int_text v | Some None => Some 1 | None => Some 0 end /\
    op_topology o = text_of "--topology-json" "" ls.
End Values.
