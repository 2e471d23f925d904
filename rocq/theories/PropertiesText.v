(* C92: the report on a device. C93: the text of a configuration, its verbosity, and the messages of exceptions. *)
From Coq Require Import ZArith QArith Qabs Lia Bool String Ascii List Floats.SpecFloat.
From Verif Require Import Base Arith Util Device SpecDevice Workload SpecWorkload Rates Stats Engine SpecEngine SpecFiles SpecText Text TextProofs TextReport TextConfig TextWitness Cases EngineWitness ReportWitness.
Import ListNotations.
Local Open Scope string_scope.
Local Open Scope list_scope.
Open Scope Z_scope.

(* every percentage has a line of its own with the nearest tenth, the two cycle counts have lines with all their digits *)
Theorem C92_lines : forall nonfinite verbose us ds, showable ds ->
  (forall label v tail, In (label, v, tail) (shown ds) -> exists s, nearest_tenth (exact v) s /\ has_line (stats_to_string nonfinite verbose us ds) label s tail) /\
  (exists s, integer_text (ds_est f32A ds) s /\ has_line (stats_to_string nonfinite verbose us ds) "estimated cycles" s "") /\
  (exists s, integer_text (ds_golden f32A ds) s /\ has_line (stats_to_string nonfinite verbose us ds) "golden cycles" s "").
Proof. exact report_shows. Qed.
Print Assumptions C92_lines.
Example C92_lines_case : exists stt ds, runSinglePerfSim f32A same_links same_buckets wormhole_b0 "fast" 100 (wl_cores f32A) = Ok (Stats stt) /\ stats_get f32A stt 0 = Some ds /\ showable ds /\
  stats_to_string no_text true 42 ds = cores_text /\ exists s, nearest_tenth (exact (ds_err f32A ds)) s /\ has_line cores_text "cycle pred error" s "%".
Proof.
  destruct cores_report as (stt & ds & H & G & S & T & N). exists stt, ds. split; [exact H|]. split; [exact G|]. split; [exact S|]. split; [exact T|]. rewrite <- T.
  apply (proj1 (C92_lines no_text true 42 ds S)). unfold shown. rewrite N. right. left. reflexivity.
Qed.
(* ties go to the even digit, small negative values are shown as -0.0 *)
Example C92_ties : percent no_text (S754_finite false 1 (-2)) = "  0.2" /\ percent no_text (S754_finite false 3 (-2)) = "  0.8" /\ percent no_text (S754_finite true 1 (-5)) = " -0.0" /\ percent no_text (S754_finite false 123456 0) = "123456.0".
Proof. vm_compute. repeat split. Qed.

(* equal reports: equal cycle counts and percentages at most a tenth apart *)
Theorem C92_equal : forall nonfinite verbose us us' ds ds', showable ds -> showable ds' -> 0 <= us -> 0 <= us' ->
  stats_to_string nonfinite verbose us ds = stats_to_string nonfinite verbose us' ds' ->
  ds_est f32A ds' = ds_est f32A ds /\ ds_golden f32A ds' = ds_golden f32A ds /\ (verbose = true -> us' = us) /\
  Forall2 (fun a b => fst (fst a) = fst (fst b) /\ snd a = snd b /\ (Qabs (exact (snd (fst a)) - exact (snd (fst b))) <= 1 # 10)%Q) (shown ds) (shown ds').
Proof. exact report_equal. Qed.
Print Assumptions C92_equal.
(* different statistics with the same report *)
Example C92_equal_case : forall ds, stats_to_string no_text false 0 (with_avg (sixteenths 1) ds) = stats_to_string no_text false 0 (with_avg (sixteenths 2) ds) /\ sixteenths 1 <> sixteenths 2 /\
  (Qabs (exact (sixteenths 1) - exact (sixteenths 2)) == 1 # 16)%Q.
Proof. intros ds. split; [reflexivity|]. split; [discriminate|reflexivity]. Qed.

(* the error of the prediction is shown only if golden cycles are known *)
Theorem C92_error : forall nonfinite verbose us ds, showable ds -> 0 <= us -> (occurs "cycle pred error" (stats_to_string nonfinite verbose us ds) <-> 0 < ds_golden f32A ds).
Proof. exact report_error. Qed.
Print Assumptions C92_error.
Example C92_error_case : exists ds, showable ds /\ ds_golden f32A ds = 1000 /\ occurs "cycle pred error" (stats_to_string no_text true 42 ds).
Proof.
  destruct cores_report as (stt & ds & _ & _ & S & _ & N). exists ds. split; [exact S|]. split; [exact N|]. apply (C92_error no_text true 42 ds S ltac:(lia)). rewrite N. reflexivity.
Qed.
(* more words: one line more, at the end *)
Theorem C92_verbose : forall nonfinite us us' ds, 0 <= us ->
  exists s, integer_text us s /\ stats_to_string nonfinite true us ds = (stats_to_string nonfinite false us' ds ++ newline ++ "   wallclock time: " ++ s ++ " us" ++ newline)%string.
Proof. exact report_verbose. Qed.
Print Assumptions C92_verbose.
Example C92_verbose_case : integer_text 42 "   42".
Proof. exact (int5_text 42 ltac:(lia)). Qed.

(* the text of a configuration names it, if its strings have one line each; [shortest] is what fmt does with a float *)
Theorem C93_config : forall shortest, (forall x, lacks (ascii_of_nat 10) (shortest x)) -> (forall x y, shortest x = shortest y -> x = y) ->
  forall c c', one_line c -> one_line c' -> 0 <= nc_cpt c -> 0 <= nc_cpt c' -> 0 <= nc_split c -> 0 <= nc_split c' -> config_to_string shortest c = config_to_string shortest c' -> c = c'.
Proof. exact config_equal. Qed.
Print Assumptions C93_config.
Example C93_config_case : config_to_string raw_text (plain_config "wormhole_b0" "a.json") <> config_to_string raw_text (plain_config "wormhole_b0" "b.json").
Proof.
  intros E. apply (C93_config raw_text raw_lacks raw_inj) in E; [discriminate E|..|cbn; lia|cbn; lia|cbn; lia|cbn; lia]; repeat split; apply lacksb_iff; reflexivity.
Qed.
(* in general it does not *)
Theorem C93_config_refuted : exists c c', c <> c' /\ forall shortest, config_to_string shortest c = config_to_string shortest c'.
Proof. exact config_same. Qed.
Print Assumptions C93_config_refuted.

(* the verbosity is cut to 0 to 3 and nothing else changes *)
Theorem C93_verbosity : forall c v, let c' := setVerbosityLevel c v in
  Z.of_nat (verbosity_number (nc_verbosity c')) = Z.max 0 (Z.min v 3) /\ nc_device c' = nc_device c /\ nc_model c' = nc_model c /\ nc_workload c' = nc_workload c /\ nc_cpt c' = nc_cpt c /\
  nc_visualize c' = nc_visualize c /\ nc_infer c' = nc_infer c /\ nc_emit c' = nc_emit c /\ nc_impact c' = nc_impact c /\ nc_is_trace c' = nc_is_trace c /\ nc_remove_local c' = nc_remove_local c /\
  nc_compress c' = nc_compress c /\ nc_legacy c' = nc_legacy c /\ nc_timeline c' = nc_timeline c /\ nc_scale c' = nc_scale c /\ nc_topology c' = nc_topology c /\ nc_split c' = nc_split c.
Proof. exact verbosity_levels. Qed.
Print Assumptions C93_verbosity.
Example C93_verbosity_case : nc_verbosity (setVerbosityLevel (plain_config "a" "b") (-7)) = Normal /\ nc_verbosity (setVerbosityLevel (plain_config "a" "b") 2) = MoreVerbose /\ nc_verbosity (setVerbosityLevel (plain_config "a" "b") 9) = MostVerbose.
Proof. repeat split. Qed.

(* the message of an exception names its code and its text *)
Theorem C93_what : forall e m e' m', what e m = what e' m' -> e = e' /\ m = m'.
Proof. exact what_equal. Qed.
Print Assumptions C93_what.
Example C93_what_case : what INVALID_CONFIG "no device" = "INVALID_CONFIG - no device" /\ what INVALID_CONFIG "" = "INVALID_CONFIG".
Proof. split; reflexivity. Qed.
