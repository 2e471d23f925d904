(* Model of the text of the command line: parse_cli_args of tt_npe/py/pycli/tt_npe.py, that is, the table of its arguments and what
   argparse (Python 3.11.10, Lib/argparse.py) does with the words. int() and float() of Python are arguments. Words are strings of
   bytes; digits are those of ASCII. Messages are not modelled. No proofs in this file. *)
From Coq Require Import ZArith Arith Ascii String List Bool Floats.SpecFloat.
From Verif Require Import Base Arith Util Json Device Workload Rates Stats Engine Api Bindings Ingest Timeline Cli.
Import ListNotations.
Local Open Scope string_scope.
Local Open Scope list_scope.
Open Scope Z_scope.

(* tt_npe.py:17-107, -h of argparse.py:1789-1793 *)
Inductive action : Type := AHelp | ACycles | ADevice | AModel | AWorkload | ANoInfer | AEmit | ATrace | ACompress | AScale | ATimeline | ALegacy | AVerbose | ATopology.
Definition option_strings : list (string * action) :=
  [("-h", AHelp); ("--help", AHelp); ("-c", ACycles); ("--cycles-per-timestep", ACycles); ("-d", ADevice); ("--device", ADevice); ("--cong-model", AModel);
   ("-w", AWorkload); ("--workload", AWorkload); ("--no-injection-rate-inference", ANoInfer); ("-e", AEmit); ("--emit-timeline-file", AEmit);
   ("-t", ATrace); ("--workload-is-noc-trace", ATrace); ("--compress-timeline-output-file", ACompress); ("--scale-workload-schedule", AScale);
   ("--timeline-json-filepath", ATimeline); ("--use-legacy-timeline-format", ALegacy); ("-v", AVerbose); ("--verbose", AVerbose); ("--topology-json", ATopology)].
(* nargs: one value, none (store_true, help), nargs="?" *)
Inductive arity : Type := One | Zero | Maybe.
Definition takes (a : action) : arity :=
  match a with
  | ACycles | ADevice | AModel | AWorkload | AScale | ATimeline | ATopology => One
  | AHelp | ANoInfer | AEmit | ATrace | ACompress | ALegacy => Zero
  | AVerbose => Maybe
  end.

(* str.startswith *)
Fixpoint starts (p s : string) : bool :=
  match p, s with
  | EmptyString, _ => true
  | String a p, String b s => Ascii.eqb a b && starts p s
  | _, _ => false
  end.
(* str.partition('='): the part before, and the part after if there is the sign *)
Fixpoint partition (s : string) : string * option string :=
  match s with
  | EmptyString => (EmptyString, None)
  | String c r => if Ascii.eqb c "=" then (EmptyString, Some r) else let q := partition r in (String c (fst q), snd q)
  end.
Definition lookup (s : string) : option action := option_map snd (find (fun e => String.eqb (fst e) s) option_strings).

(* argparse.py:1386: -\d+ or -\d*\.\d+, and then the end or one end of line *)
Definition digit (c : ascii) : bool := Nat.leb 48 (nat_of_ascii c) && Nat.leb (nat_of_ascii c) 57.
Fixpoint skip_digits (s : string) : string :=
  match s with String c r => if digit c then skip_digits r else s | EmptyString => s end.
Definition at_end (s : string) : bool := String.eqb s "" || String.eqb s (String (ascii_of_nat 10) "").
Definition some_digits (s : string) : bool := match s with String c r => digit c && at_end (skip_digits r) | EmptyString => false end.
Definition negative_number (s : string) : bool :=
  match s with
  | String "-" r => some_digits r || match skip_digits r with String "." q => some_digits q | _ => false end
  | _ => false
  end.
Fixpoint has_space (s : string) : bool :=
  match s with String c r => Ascii.eqb c " " || has_space r | EmptyString => false end.

(* action (None: no such option), whether the name begins with two dashes, whether an explicit argument follows "=", explicit argument *)
Record hit : Type := mkHit { h_action : option action; h_long : bool; h_sep : bool; h_arg : option string }.
Definition is_long (s : string) : bool := starts "--" s.
(* argparse.py:2300-2340 *)
Definition option_tuples (w : string) : list hit :=
  if is_long w then
    let q := partition w in
    map (fun e => mkHit (Some (snd e)) (is_long (fst e)) (match snd q with Some _ => true | None => false end) (snd q)) (filter (fun e => starts (fst q) (fst e)) option_strings)
  else
    flat_map (fun e =>
      if String.eqb (fst e) (substring 0 2 w) then [mkHit (Some (snd e)) (is_long (fst e)) false (Some (substring 2 (String.length w - 2) w))]
      else if starts w (fst e) then [mkHit (Some (snd e)) (is_long (fst e)) false None] else []) option_strings.
(* a word that is an argument, an option, or ambiguous; 2243-2298 *)
Inductive class : Type := Argument | Option : hit -> class | Ambiguous.
Definition parse_optional (w : string) : class :=
  match w with
  | String "-" r =>
      match lookup w with
      | Some a => Option (mkHit (Some a) (is_long w) false None)
      | None =>
          if String.eqb r "" then Argument
          else
            let q := partition w in
            match snd q, lookup (fst q) with
            | Some v, Some a => Option (mkHit (Some a) (is_long (fst q)) true (Some v))
            | _, _ =>
                match option_tuples w with
                | _ :: _ :: _ => Ambiguous
                | [h] => Option h
                | [] => if negative_number w then Argument else if has_space w then Argument else Option (mkHit None false false None)
                end
            end
      end
  | _ => Argument
  end.
(* 1933-1959: the words with their classes up to "--", and whether that occurs (the words after it are never taken); None: ambiguous *)
Fixpoint classify (ws : list string) : option (list (string * option hit) * bool) :=
  match ws with
  | [] => Some ([], false)
  | w :: r =>
      if String.eqb w "--" then Some ([], true)
      else
        match parse_optional w with
        | Ambiguous => None
        | Argument => match classify r with Some (xs, b) => Some ((w, None) :: xs, b) | None => None end
        | Option h => match classify r with Some (xs, b) => Some ((w, Some h) :: xs, b) | None => None end
        end
  end.

(* 1992-2062: the actions of a word. Wrong: an error. Whole: with their own arguments, and whether letters are left over. Next: the
   last one looks at the words that follow. *)
Inductive chain : Type := Wrong | Whole (l : list (action * option string)) (left : bool) | Next (l : list (action * option string)) (a : action).
Definition after (a : action) (c : chain) : chain :=
  match c with Wrong => Wrong | Whole l b => Whole ((a, None) :: l) b | Next l b => Next ((a, None) :: l) b end.
Fixpoint consume (a : action) (long sep : bool) (ex : string) {struct ex} : chain :=
  match takes a with
  | Zero =>
      match ex with
      | EmptyString => Wrong
      | String c r =>
          if long then Wrong
          else if sep || Ascii.eqb c "-" then Wrong
          else
            match lookup (String "-" (String c "")) with
            | None => Whole [(a, None)] true
            | Some a' =>
                match r with
                | EmptyString => after a (Next [] a')
                | String e r' => if Ascii.eqb e "=" then after a (consume a' false true r') else after a (consume a' false false r)
                end
            end
      end
  | _ => Whole [(a, Some ex)] false
  end.

Section Parse.
  Context (int_text : string -> option Z) (float_text : string -> option spec_float).
  (* SystemExit with its status, or the values *)
  Inductive parsed : Type := Leaves (status : Z) | Values (o : options).

  (* 2475-2570 and the actions: store, store_true, help; the choices of tt_npe.py:31, 39 *)
  Definition act (a : action) (v : option string) (o : options) : parsed :=
    match o with
    | mkOpt cpt dev model wl ni em tr co sc ti le ve to =>
        match a, v with
        | AHelp, _ => Leaves 0
        | ACycles, Some s => match int_text s with Some n => Values (mkOpt n dev model wl ni em tr co sc ti le ve to) | None => Leaves 2 end
        | ADevice, Some s => if mem_choice device_choices s then Values (mkOpt cpt s model wl ni em tr co sc ti le ve to) else Leaves 2
        | AModel, Some s => if mem_choice model_choices s then Values (mkOpt cpt dev s wl ni em tr co sc ti le ve to) else Leaves 2
        | AWorkload, Some s => Values (mkOpt cpt dev model s ni em tr co sc ti le ve to)
        | ANoInfer, _ => Values (mkOpt cpt dev model wl true em tr co sc ti le ve to)
        | AEmit, _ => Values (mkOpt cpt dev model wl ni true tr co sc ti le ve to)
        | ATrace, _ => Values (mkOpt cpt dev model wl ni em true co sc ti le ve to)
        | ACompress, _ => Values (mkOpt cpt dev model wl ni em tr true sc ti le ve to)
        | AScale, Some s => match float_text s with Some x => Values (mkOpt cpt dev model wl ni em tr co x ti le ve to) | None => Leaves 2 end
        | ATimeline, Some s => Values (mkOpt cpt dev model wl ni em tr co sc s le ve to)
        | ALegacy, _ => Values (mkOpt cpt dev model wl ni em tr co sc ti true ve to)
        | AVerbose, None => Values (mkOpt cpt dev model wl ni em tr co sc ti le 1 to)
        | AVerbose, Some s => match int_text s with Some n => Values (mkOpt cpt dev model wl ni em tr co sc ti le n to) | None => Leaves 2 end
        | ATopology, Some s => Values (mkOpt cpt dev model wl ni em tr co sc ti le ve s)
        | _, None => Leaves 2
        end
    end.
  Fixpoint acts (l : list (action * option string)) (o : options) : parsed :=
    match l with
    | [] => Values o
    | (a, v) :: r => match act a v o with Values o => acts r o | e => e end
    end.
  (* 2054-2062, for the words after an option without explicit argument: 2205-2225 *)
  Definition next_value (a : action) (ws : list (string * option hit)) : option (option string) :=
    match takes a, ws with
    | Zero, _ => Some None
    | _, (w, None) :: _ => Some (Some w)
    | One, _ => None
    | Maybe, _ => Some None
    end.
  (* 2094-2134 and parse_args: without positional arguments every word that is not taken is an error at the end. [skip]: the word has
     been taken as a value *)
  Fixpoint walk (ws : list (string * option hit)) (skip extras : bool) (o : options) : parsed :=
    match ws with
    | [] => if extras then Leaves 2 else Values o
    | (w, None) :: r => walk r false (if skip then extras else true) o
    | (w, Some h) :: r =>
        match h_action h with
        | None => walk r false true o
        | Some a =>
            match match h_arg h with Some ex => consume a (h_long h) (h_sep h) ex | None => Next [] a end with
            | Wrong => Leaves 2
            | Whole l b => match acts l o with Values o => walk r false (extras || b) o | e => e end
            | Next l a =>
                match next_value a r with
                | None => Leaves 2
                | Some v => match acts (l ++ [(a, v)]) o with Values o => walk r (match v with Some _ => true | None => false end) extras o | e => e end
                end
            end
        end
    end.
  Definition parse_cli_args (ws : list string) : parsed :=
    match classify ws with
    | None => Leaves 2
    | Some (xs, dashes) => walk xs false dashes default_options
    end.
End Parse.

(* tt_npe.py:117-168 for the words of the command line *)
Definition program int_text float_text ord bord gord zord file_at topology_at accept (ws : list string) : outcome (ending * option (npe_result f32A) * list (content f32A)) :=
  match parse_cli_args int_text float_text ws with
  | Leaves n => Ok (Exits n, None, [])
  | Values o => main ord bord gord zord file_at topology_at accept o
  end.
