(* The text of a configuration and the message of an exception (C93). *)
From Coq Require Import ZArith Arith Lia ZifyBool ZifyNat String List Bool Ascii Floats.SpecFloat.
From Verif Require Import Base Arith Util Device Workload Rates Stats SpecFiles Files FilesProofs SpecText Text TextProofs TextReport.
Import ListNotations.
Local Open Scope string_scope.
Open Scope Z_scope.
Ltac Zify.zify_post_hook ::= idtac.

Section Config.
  Context (shortest : F f32A -> string) (SL : forall x, lacks (ascii_of_nat 10) (shortest x)) (SI : forall x y, shortest x = shortest y -> x = y).
  Definition config_lines (c : npe_config) : list string :=
    ["Config {";
     "  verbosity                          = " ++ copies (verbosity_number (nc_verbosity c)) "v";
     "  device_name                        = " ++ nc_device c; "";
     "  workload_is_noc_trace              = " ++ bool_text (nc_is_trace c);
     "  workload_json                      = " ++ quote ++ nc_workload c ++ quote;
     "  emit_timeline_file                 = " ++ bool_text (nc_emit c);
     "  timeline_filepath                  = " ++ quote ++ nc_timeline c ++ quote; "";
     "  congestion_model_name              = " ++ nc_model c;
     "  estimate_cong_impact               = " ++ bool_text (nc_impact c);
     "  cycles_per_timestep                = " ++ decimal (nc_cpt c);
     "  infer_injection_rate_from_src      = " ++ bool_text (nc_infer c); "";
     "  compress_timeline_output_file      = " ++ bool_text (nc_compress c);
     "  enable_visualizations              = " ++ bool_text (nc_visualize c);
     "  remove_localized_unicast_transfers = " ++ bool_text (nc_remove_local c);
     "  scale_workload_schedule            = " ++ shortest (nc_scale c);
     "  use_legacy_timeline_format         = " ++ bool_text (nc_legacy c);
     "  topology_json                      = " ++ quote ++ nc_topology c ++ quote;
     "  timeline_split_threshold_timesteps = " ++ decimal (nc_split c); "}"].
  Lemma config_text c : config_to_string shortest c ++ nl = lines_text (config_lines c).
  Proof. unfold config_to_string, config_lines, lines_text. cbn [fold_right]. rewrite !sapp_assoc. rewrite sapp_nil. reflexivity. Qed.
  Lemma verbosity_inj v w : copies (verbosity_number v) "v" = copies (verbosity_number w) "v" -> v = w.
  Proof. destruct v, w; intros E; try reflexivity; discriminate E. Qed.
  Lemma bool_inj a b : bool_text a = bool_text b -> a = b. Proof. destruct a, b; intros E; try reflexivity; discriminate E. Qed.
  Lemma bool_plain a : lacksb (ascii_of_nat 10) (bool_text a) = true. Proof. destruct a; reflexivity. Qed.
  Lemma verb_plain v : lacksb (ascii_of_nat 10) (copies (verbosity_number v) "v") = true. Proof. destruct v; reflexivity. Qed.
  Lemma dec_plain n : 0 <= n -> lacksb (ascii_of_nat 10) (decimal n) = true. Proof. intros H. exact (numeral_lacks (ascii_of_nat 10) n _ eq_refl (decimal_numeral n H)). Qed.
  Lemma config_plain c : one_line c -> 0 <= nc_cpt c -> 0 <= nc_split c -> Forall (fun x => lacksb (ascii_of_nat 10) x = true) (config_lines c).
  Proof.
    intros (H1 & H2 & H3 & H4 & H5) N1 N2. apply lacksb_iff in H1, H2, H3, H4, H5. pose proof (proj2 (lacksb_iff _ _) (SL (nc_scale c))) as H6. unfold config_lines.
    repeat (apply Forall_cons; [rewrite ?lacksb_app, ?H1, ?H2, ?H3, ?H4, ?H5, ?H6, ?bool_plain, ?verb_plain, ?dec_plain by assumption; reflexivity|]). constructor.
  Qed.
  Theorem config_equal c c' : one_line c -> one_line c' -> 0 <= nc_cpt c -> 0 <= nc_cpt c' -> 0 <= nc_split c -> 0 <= nc_split c' ->
    config_to_string shortest c = config_to_string shortest c' -> c = c'.
  Proof.
    intros O O' N1 N1' N2 N2' E. apply (f_equal (fun s => s ++ nl)) in E. cbv beta in E. rewrite !config_text in E.
    apply lines_inj in E; [|apply config_plain; assumption|apply config_plain; assumption]. unfold config_lines in E.
    do 21 (apply cons_both in E; let K := fresh "K" in destruct E as [K E]; try (apply sapp_inj_l in K)). clear E.
    repeat match goal with
    | K : quote ++ _ ++ quote = quote ++ _ ++ quote |- _ => apply sapp_inj_l in K; apply sapp_inj_r in K
    | K : bool_text _ = bool_text _ |- _ => apply bool_inj in K
    | K : copies _ _ = copies _ _ |- _ => apply verbosity_inj in K
    | K : decimal _ = decimal _ |- _ => apply decimal_inj in K; [|assumption|assumption]
    | K : shortest _ = shortest _ |- _ => apply SI in K
    end.
    destruct c as [a0 a1 a2 a3 a4 a5 a6 a7 a8 a9 a10 a11 a12 a13 a14 a15 a16], c' as [b0 b1 b2 b3 b4 b5 b6 b7 b8 b9 b10 b11 b12 b13 b14 b15 b16]. cbn [nc_device nc_model nc_workload nc_cpt nc_verbosity nc_visualize nc_infer nc_emit nc_impact nc_is_trace nc_remove_local nc_compress nc_legacy nc_timeline nc_scale nc_topology nc_split] in *.
    subst. reflexivity.
  Qed.
End Config.

(** * Verbosity *)
Theorem verbosity_levels c v : let c' := setVerbosityLevel c v in
  Z.of_nat (verbosity_number (nc_verbosity c')) = Z.max 0 (Z.min v 3) /\ nc_device c' = nc_device c /\ nc_model c' = nc_model c /\ nc_workload c' = nc_workload c /\ nc_cpt c' = nc_cpt c /\
  nc_visualize c' = nc_visualize c /\ nc_infer c' = nc_infer c /\ nc_emit c' = nc_emit c /\ nc_impact c' = nc_impact c /\ nc_is_trace c' = nc_is_trace c /\ nc_remove_local c' = nc_remove_local c /\
  nc_compress c' = nc_compress c /\ nc_legacy c' = nc_legacy c /\ nc_timeline c' = nc_timeline c /\ nc_scale c' = nc_scale c /\ nc_topology c' = nc_topology c /\ nc_split c' = nc_split c.
Proof.
  cbv zeta. split; [|repeat split]. unfold setVerbosityLevel. cbn [nc_verbosity].
  destruct (Z.ltb_spec v 0); [cbn; lia|]. destruct (Z.ltb_spec 3 v); [cbn; lia|]. unfold verbosity_of.
  destruct (Z.eqb_spec v 0); [cbn; lia|]. destruct (Z.eqb_spec v 1); [cbn; lia|]. destruct (Z.eqb_spec v 2); cbn; lia.
Qed.

(** * Messages *)
Lemma name_plain e : lacksb " " (error_name e) = true. Proof. destruct e; reflexivity. Qed.
Lemma name_inj e e' : error_name e = error_name e' -> e = e'. Proof. destruct e, e'; intros E; try reflexivity; discriminate E. Qed.
Theorem what_equal e m e' m' : what e m = what e' m' -> e = e' /\ m = m'.
Proof.
  unfold what. destruct (String.eqb_spec m "") as [->|N], (String.eqb_spec m' "") as [->|N']; intros E.
  - split; [exact (name_inj _ _ E)|reflexivity].
  - exfalso. pose proof (name_plain e) as P. rewrite E, lacksb_app in P. apply andb_prop in P as [_ P]. discriminate P.
  - exfalso. pose proof (name_plain e') as P. rewrite <- E, lacksb_app in P. apply andb_prop in P as [_ P]. discriminate P.
  - cbn [String.append] in E. destruct (peel " " _ _ _ _ (name_plain e) (name_plain e') E) as [E1 E2]. split; [exact (name_inj _ _ E1)|]. injection E2. auto.
Qed.

(** * Texts that are equal although the configurations differ *)
Definition plain_config (device workload : string) : npe_config :=
  mkConfig device "fast" workload 128 Normal false true false true false false false false "" (S754_zero false) "" 10000.
Definition inner : string := newline ++ newline ++ "  workload_is_noc_trace              = false" ++ newline ++ "  workload_json                      = " ++ quote.
Theorem config_same : exists c c', c <> c' /\ forall shortest, config_to_string shortest c = config_to_string shortest c'.
Proof.
  exists (plain_config ("a" ++ inner ++ "b") "c"), (plain_config "a" ("b" ++ inner ++ "c")). split; [intros E; discriminate E|]. intros shortest.
  unfold config_to_string, plain_config, inner. cbn [nc_device nc_model nc_workload nc_cpt nc_verbosity nc_visualize nc_infer nc_emit nc_impact nc_is_trace nc_remove_local nc_compress nc_legacy nc_timeline nc_scale nc_topology nc_split bool_text].
  rewrite !sapp_assoc. reflexivity.
Qed.
