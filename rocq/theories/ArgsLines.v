(* Proofs for C86: lines and values of the command line. *)
From Coq Require Import ZArith Arith Lia Ascii String List Bool Permutation Floats.SpecFloat ZifyBool ZifyNat.
From Verif Require Import Base Arith Util Json Device Workload Rates Stats Engine Api Bindings Ingest Timeline Cli SpecCli CliArgs SpecArgs ArgsProofs.
Import ListNotations.
Local Open Scope string_scope.
Local Open Scope list_scope.
Open Scope Z_scope.
Ltac Zify.zify_post_hook ::= idtac.

Lemma settings_app a b : settings (a ++ b) = settings a ++ settings b. Proof. apply map_app. Qed.
Lemma chain_of w h a : parse_optional w = Option h -> h_action h = Some a -> word w = Some (match h_arg h with Some ex => consume a (h_long h) (h_sep h) ex | None => Next [] a end).
Proof. intros H1 H2. unfold word. rewrite H1, H2. reflexivity. Qed.
Lemma word_hit w k : word w = Some k -> exists h a, parse_optional w = Option h /\ h_action h = Some a /\ k = match h_arg h with Some ex => consume a (h_long h) (h_sep h) ex | None => Next [] a end.
Proof. unfold word. destruct (parse_optional w) as [|h|] eqn:E; try discriminate. destruct (h_action h) as [a|] eqn:F; [|discriminate]. intros H. injection H as <-. eauto. Qed.
Lemma word_dashes w k : word w = Some k -> String.eqb w "--" = false.
Proof. intros H. apply String.eqb_neq. intros ->. discriminate H. Qed.

Section Lines.
  Context (int_text : string -> option Z) (float_text : string -> option spec_float).
  Notation act := (act int_text float_text). Notation acts := (acts int_text float_text). Notation walk := (walk int_text float_text).
  Lemma acts_app l1 l2 : forall o, acts (l1 ++ l2) o = match acts l1 o with Values o1 => acts l2 o1 | e => e end.
  Proof. induction l1 as [|[a v] l1 IH]; intros o; [reflexivity|]. cbn [app CliArgs.acts]. destruct (act a v o); [reflexivity|apply IH]. Qed.
  Lemma acts_help l : forall o o', acts l o = Values o' -> forall v, ~ In (AHelp, v) l.
  Proof. induction l as [|[a v] l IH]; intros o o' H x Hx; [destruct Hx|]. cbn [CliArgs.acts] in H. destruct (act a v o) as [|o1] eqn:E; [discriminate|]. destruct Hx as [Hx|Hx]; [injection Hx as -> ->; destruct o; discriminate E|exact (IH _ _ H x Hx)]. Qed.
  Lemma walk_extras xs : forall skip e o o', walk xs skip e o = Values o' -> e = false.
  Proof.
    induction xs as [|[w [h|]] xs IH]; intros skip e o o' H; cbn [CliArgs.walk] in H.
    - destruct e; [discriminate|reflexivity].
    - destruct (h_action h) as [a|]; [|apply IH in H; discriminate]. destruct (match h_arg h with Some _ => _ | None => _ end) as [|l b|l b]; [discriminate| |].
      + destruct (acts l o); [discriminate|]. apply IH in H. apply orb_false_iff in H. tauto.
      + destruct (next_value b xs) as [v|]; [|discriminate]. destruct (acts _ o); [discriminate|]. exact (IH _ _ _ _ H).
    - apply IH in H. destruct skip; [exact H|discriminate].
  Qed.
  (* accepted lines are lines of the grammar *)
  Lemma walk_line k : forall ws xs, (List.length ws <= k)%nat -> classify ws = Some (xs, false) -> forall o o', walk xs false false o = Values o' ->
    exists L, line ws (settings L) /\ acts L o = Values o'.
  Proof.
    induction k as [|k IH]; intros ws xs HK HC o o' HW.
    { destruct ws; [|cbn in HK; lia]. injection HC as <-. cbn in HW. exists []. split; [constructor|exact HW]. }
    destruct ws as [|w ws]; [injection HC as <-; cbn in HW; exists []; split; [constructor|exact HW]|]. cbn [List.length] in HK. cbn [classify] in HC. destruct (String.eqb w "--") eqn:ED; [discriminate|].
    destruct (parse_optional w) as [|h|] eqn:P; [| |discriminate].
    - destruct (classify ws) as [[ys b]|]; [|discriminate]. injection HC as <- ->. cbn [CliArgs.walk] in HW. apply walk_extras in HW. discriminate.
    - destruct (classify ws) as [[ys b]|] eqn:C; [|discriminate]. injection HC as <- ->. cbn [CliArgs.walk] in HW. destruct (h_action h) as [a|] eqn:HA; [|apply walk_extras in HW; discriminate].
      pose proof (chain_of w h a P HA) as W. revert W HW. generalize (match h_arg h with Some ex => consume a (h_long h) (h_sep h) ex | None => Next [] a end). intros [|l b|l b] W HW; [discriminate| |].
      + destruct (acts l o) as [|o1] eqn:E; [discriminate|]. pose proof (walk_extras _ _ _ _ _ HW) as Hb. cbn in Hb. subst b. cbn [orb] in HW. destruct (IH ws ys ltac:(lia) C o1 o' HW) as (L & HL & HA2).
        exists (l ++ L). split; [|rewrite acts_app, E; exact HA2]. rewrite settings_app. destruct (whole_spells w l W (acts_help l o o1 E)) as (h' & ss & n & v & S1 & S2 & S3). rewrite S1, <- app_assoc. cbn [app]. destruct S3 as [[S3 ->]|(S3 & S4 & S5 & ->)]; constructor; assumption.
      + destruct (next_value b ys) as [v|] eqn:NV; [|discriminate]. destruct (acts (l ++ [(b, v)]) o) as [|o1] eqn:E; [discriminate|]. pose proof (acts_help _ _ _ E) as NH.
        assert (SP : spells w (settings l) (name_of b)) by (apply next_spells; [exact W|intros x Hx; apply (NH x); apply in_or_app; left; exact Hx]).
        assert (NHb : b <> AHelp) by (intros ->; apply (NH v); apply in_or_app; right; left; reflexivity).
        unfold next_value in NV. destruct (takes b) eqn:T.
        * destruct ys as [|[v0 [h0|]] ys]; try discriminate. injection NV as <-. destruct ws as [|v1 ws]; [discriminate C|]. cbn [classify] in C. destruct (String.eqb v1 "--") eqn:ED1; [discriminate|]. destruct (parse_optional v1) as [|h1|] eqn:P1; [|destruct (classify ws) as [[zs b']|]; discriminate|discriminate]. destruct (classify ws) as [[zs b']|] eqn:C1; [|discriminate]. injection C as -> -> ->.
          cbn [CliArgs.walk] in HW. cbn [List.length] in HK. destruct (IH ws ys ltac:(lia) C1 o1 o' HW) as (L & HL & HA2). exists ((l ++ [(b, Some v0)]) ++ L). split; [|rewrite acts_app, E; exact HA2]. rewrite !settings_app, <- app_assoc. cbn [app settings map fst snd]. apply line_next; [exact SP|apply valued_iff; congruence|apply argument_iff; exact P1|exact HL].
        * injection NV as <-. destruct (IH ws ys ltac:(lia) C o1 o' HW) as (L & HL & HA2). exists ((l ++ [(b, None)]) ++ L). split; [|rewrite acts_app, E; exact HA2]. rewrite !settings_app, <- app_assoc. cbn [app settings map fst snd]. apply line_switch; [exact SP|apply switch_iff; auto|exact HL].
        * assert (Eb : b = AVerbose) by (destruct b; try discriminate T; reflexivity). subst b. destruct ys as [|[v0 [h0|]] ys].
          -- injection NV as <-. destruct (IH ws [] ltac:(lia) C o1 o' HW) as (L & HL & HA2). exists ((l ++ [(AVerbose, None)]) ++ L). split; [|rewrite acts_app, E; exact HA2]. rewrite !settings_app, <- app_assoc. cbn [app settings map fst snd]. apply line_verbose; [exact SP| |exact HL].
             intros v r -> Pl. cbn [classify] in C. apply argument_iff in Pl. destruct (String.eqb v "--") eqn:ED1; [discriminate|]. rewrite Pl in C. destruct (classify r) as [[zs b']|]; discriminate.
          -- injection NV as <-. destruct (IH ws _ ltac:(lia) C o1 o' HW) as (L & HL & HA2). exists ((l ++ [(AVerbose, None)]) ++ L). split; [|rewrite acts_app, E; exact HA2]. rewrite !settings_app, <- app_assoc. cbn [app settings map fst snd]. apply line_verbose; [exact SP| |exact HL].
             intros v r -> Pl. cbn [classify] in C. apply argument_iff in Pl. destruct (String.eqb v "--") eqn:ED1; [discriminate|]. rewrite Pl in C. destruct (classify r) as [[zs b']|]; discriminate.
          -- injection NV as <-. destruct ws as [|v1 ws]; [discriminate C|]. cbn [classify] in C. destruct (String.eqb v1 "--") eqn:ED1; [discriminate|]. destruct (parse_optional v1) as [|h1|] eqn:P1; [|destruct (classify ws) as [[zs b']|]; discriminate|discriminate]. destruct (classify ws) as [[zs b']|] eqn:C1; [|discriminate]. injection C as -> -> ->.
             cbn [CliArgs.walk] in HW. cbn [List.length] in HK. destruct (IH ws ys ltac:(lia) C1 o1 o' HW) as (L & HL & HA2). exists ((l ++ [(AVerbose, Some v0)]) ++ L). split; [|rewrite acts_app, E; exact HA2]. rewrite !settings_app, <- app_assoc. cbn [app settings map fst snd]. apply line_next; [exact SP|right; reflexivity|apply argument_iff; exact P1|exact HL].
  Qed.

  (* lines of the grammar are walked *)
  Definition ordered (x : action * option string) : Prop := fst x <> AHelp /\ (takes (fst x) = One -> snd x <> None) /\ (takes (fst x) = Zero -> snd x = None).
  Lemma plain_dashes v : plain v -> String.eqb v "--" = false.
  Proof. intros H. apply String.eqb_neq. intros ->. apply argument_iff in H. discriminate H. Qed.
  Lemma classify_option w k ws xs b : word w = Some k -> classify ws = Some (xs, b) -> exists h a, classify (w :: ws) = Some ((w, Some h) :: xs, b) /\ h_action h = Some a /\ k = match h_arg h with Some ex => consume a (h_long h) (h_sep h) ex | None => Next [] a end.
  Proof. intros W C. destruct (word_hit w k W) as (h & a & P & HA & E). exists h, a. split; [|auto]. cbn [classify]. rewrite (word_dashes w k W), P, C. reflexivity. Qed.
  Lemma classify_plain v ws xs b : plain v -> classify ws = Some (xs, b) -> classify (v :: ws) = Some ((v, None) :: xs, b).
  Proof. intros P C. cbn [classify]. rewrite (plain_dashes v P), (proj2 (argument_iff v) P), C. reflexivity. Qed.
  Lemma quiet_ordered l : quiet l -> Forall ordered l.
  Proof. intros H. apply Forall_forall. intros x Hx. destruct (H x Hx) as (H1 & H2 & H3). split; [exact H3|]. split; [congruence|auto]. Qed.
  Lemma line_classify ws ls rest ys d : line ws ls -> classify rest = Some (ys, d) -> (forall v r, rest = v :: r -> ~ plain v) ->
    exists L xs, settings L = ls /\ Forall ordered L /\ classify (ws ++ rest) = Some (xs, d) /\ forall e o, walk xs false e o = match acts L o with Values o' => walk ys false e o' | x => x end.
  Proof.
    intros H CR NR. induction H as [|w ss n v ws ls SP V Pv H (L & xs & E & HO & C & HW)|w ss n v ws ls SP V H (L & xs & E & HO & C & HW)|w ss n v ws ls SP V NE NB H (L & xs & E & HO & C & HW)|w ss n ws ls SP S H (L & xs & E & HO & C & HW)|w ss ws ls SP NP H (L & xs & E & HO & C & HW)].
    - exists [], ys. split; [reflexivity|]. split; [constructor|]. split; [exact CR|intros e o; reflexivity].
    - destruct (spells_next w ss n SP) as (l & b & W & El & -> & Q). apply valued_iff in V. pose proof (classify_plain v (ws ++ rest) xs _ Pv C) as C1. destruct (classify_option w _ _ _ _ W C1) as (h & a & C2 & HA & K). exists ((l ++ [(b, Some v)]) ++ L), ((w, Some h) :: (v, None) :: xs).
      split; [rewrite !settings_app, <- app_assoc; cbn; rewrite El, E; reflexivity|]. split; [rewrite !Forall_app; split; [split; [apply quiet_ordered; exact Q|constructor; [|constructor]]|exact HO]; split; [intros K2; cbn in K2; subst b; apply V; reflexivity|split; [intros _; discriminate|intros K2; contradiction]]|]. split; [exact C2|].
      intros e o. cbn [CliArgs.walk]. rewrite HA, <- K. replace (next_value b ((v, None) :: xs)) with (Some (Some v)) by (unfold next_value; destruct (takes b); [reflexivity|contradiction|reflexivity]). rewrite (acts_app _ L). destruct (acts _ o); [reflexivity|]. apply HW.
    - destruct (spells_equals w ss n v SP V) as (l & b & W & El & -> & Q & T). destruct (classify_option _ _ _ _ _ W C) as (h & a & C2 & HA & K). exists ((l ++ [(b, Some v)]) ++ L), (((w ++ "=" ++ v)%string, Some h) :: xs).
      split; [rewrite !settings_app, <- app_assoc; cbn; rewrite El, E; reflexivity|]. split; [rewrite !Forall_app; split; [split; [apply quiet_ordered; exact Q|constructor; [|constructor]]|exact HO]; split; [intros K2; cbn in K2; subst b; apply T; reflexivity|split; [intros _; discriminate|intros K2; contradiction]]|]. split; [exact C2|].
      intros e o. cbn [CliArgs.walk]. rewrite HA, <- K. rewrite (acts_app _ L). destruct (acts _ o); [reflexivity|]. rewrite orb_false_r. apply HW.
    - destruct (spells_attached w ss n v SP V NE NB) as (l & b & W & El & -> & Q & T). destruct (classify_option _ _ _ _ _ W C) as (h & a & C2 & HA & K). exists ((l ++ [(b, Some v)]) ++ L), (((w ++ v)%string, Some h) :: xs).
      split; [rewrite !settings_app, <- app_assoc; cbn; rewrite El, E; reflexivity|]. split; [rewrite !Forall_app; split; [split; [apply quiet_ordered; exact Q|constructor; [|constructor]]|exact HO]; split; [intros K2; cbn in K2; subst b; apply T; reflexivity|split; [intros _; discriminate|intros K2; contradiction]]|]. split; [exact C2|].
      intros e o. cbn [CliArgs.walk]. rewrite HA, <- K. rewrite (acts_app _ L). destruct (acts _ o); [reflexivity|]. rewrite orb_false_r. apply HW.
    - destruct (spells_next w ss n SP) as (l & b & W & El & -> & Q). apply switch_iff in S as [T NH]. destruct (classify_option w _ _ _ _ W C) as (h & a & C2 & HA & K). exists ((l ++ [(b, None)]) ++ L), ((w, Some h) :: xs).
      split; [rewrite !settings_app, <- app_assoc; cbn; rewrite El, E; reflexivity|]. split; [rewrite !Forall_app; split; [split; [apply quiet_ordered; exact Q|constructor; [|constructor]]|exact HO]; split; [exact NH|split; [cbn; congruence|reflexivity]]|]. split; [exact C2|].
      intros e o. cbn [CliArgs.walk]. rewrite HA, <- K. replace (next_value b xs) with (Some (@None string)) by (unfold next_value; rewrite T; reflexivity). rewrite (acts_app _ L). destruct (acts _ o); [reflexivity|]. apply HW.
    - destruct (spells_next w ss _ SP) as (l & b & W & El & Eb & Q). assert (b = AVerbose) by (apply name_inj; symmetry; exact Eb). subst b. destruct (classify_option w _ _ _ _ W C) as (h & a & C2 & HA & K). exists ((l ++ [(AVerbose, None)]) ++ L), ((w, Some h) :: xs).
      split; [rewrite !settings_app, <- app_assoc; cbn; rewrite El, E; reflexivity|]. split; [rewrite !Forall_app; split; [split; [apply quiet_ordered; exact Q|constructor; [|constructor]]|exact HO]; split; [discriminate|split; discriminate]|]. split; [exact C2|].
      intros e o. cbn [CliArgs.walk]. rewrite HA, <- K. replace (next_value AVerbose xs) with (Some (@None string)); [rewrite (acts_app _ L); destruct (acts _ o); [reflexivity|]; apply HW|].
      assert (NP' : forall v r, ws ++ rest = v :: r -> ~ plain v) by (intros v r Ev; destruct ws as [|v0 ws]; [exact (NR v r Ev)|injection Ev as -> _; exact (NP v ws eq_refl)]).
      unfold next_value. cbn. destruct xs as [|[v0 [h0|]] xs]; try reflexivity. exfalso. destruct (ws ++ rest) as [|v tl] eqn:ET; [discriminate C|]. apply (NP' v tl eq_refl). apply argument_iff. cbn [classify] in C. destruct (String.eqb v "--"); [discriminate|]. destruct (parse_optional v); [reflexivity| |discriminate]. destruct (classify tl) as [[? ?]|]; discriminate.
  Qed.
  Lemma line_walk ws ls : line ws ls -> exists L xs, settings L = ls /\ Forall ordered L /\ classify ws = Some (xs, false) /\ forall o, walk xs false false o = acts L o.
  Proof.
    intros H. destruct (line_classify ws ls [] [] false H eq_refl ltac:(discriminate)) as (L & xs & E & HO & C & HW). rewrite app_nil_r in C. exists L, xs. split; [exact E|]. split; [exact HO|]. split; [exact C|]. intros o. rewrite HW. destruct (acts L o); reflexivity.
  Qed.

  (** * Values *)
  Definition sets_from (o0 : options) (ls : list (string * option string)) (o : options) : Prop :=
    Some (op_cpt o) = match last_of "--cycles-per-timestep" ls with Some (Some v) => int_text v | _ => Some (op_cpt o0) end /\
    op_device o = text_of "--device" (op_device o0) ls /\
    op_model o = text_of "--cong-model" (op_model o0) ls /\
    op_workload o = text_of "--workload" (op_workload o0) ls /\
    op_no_infer o = given "--no-injection-rate-inference" ls || op_no_infer o0 /\
    op_emit o = given "--emit-timeline-file" ls || op_emit o0 /\
    op_trace o = given "--workload-is-noc-trace" ls || op_trace o0 /\
    op_compress o = given "--compress-timeline-output-file" ls || op_compress o0 /\
    Some (op_scale o) = match last_of "--scale-workload-schedule" ls with Some (Some v) => float_text v | _ => Some (op_scale o0) end /\
    op_timeline o = text_of "--timeline-json-filepath" (op_timeline o0) ls /\
    op_legacy o = given "--use-legacy-timeline-format" ls || op_legacy o0 /\
    Some (op_verbose o) = match last_of "--verbose" ls with Some (Some v) => int_text v | Some None => Some 1 | None => Some (op_verbose o0) end /\
    op_topology o = text_of "--topology-json" (op_topology o0) ls.
  Lemma last_ordered a L : Forall ordered L -> takes a = One -> last_of (name_of a) (settings L) <> Some None.
  Proof.
    intros H T. induction H as [|[b v] L [_ [H1 _]] HL IH]; [discriminate|]. cbn [settings map fst snd last_of]. destruct (last_of (name_of a) (map _ L)) as [x|] eqn:E; [intros K; apply IH; unfold settings; rewrite E; congruence|].
    destruct (String.eqb (name_of b) (name_of a)) eqn:N; [|discriminate]. apply String.eqb_eq, name_inj in N. subst b. intros K. injection K as ->. apply H1; [exact T|reflexivity].
  Qed.
  Lemma mem_devices v : mem_choice device_choices v = true <-> In v ["wormhole_b0"; "N150"; "N300"; "T3K"; "blackhole"; "P100"; "P150"].
  Proof. unfold mem_choice. rewrite existsb_exists. split; [intros (x & H & E); apply String.eqb_eq in E; subst; exact H|intros H; exists v; split; [exact H|apply String.eqb_refl]]. Qed.
  Lemma mem_models v : mem_choice model_choices v = true <-> v = "none" \/ v = "fast".
  Proof. unfold mem_choice. rewrite existsb_exists. split; [intros (x & H & E); apply String.eqb_eq in E; subst; cbn in H; intuition congruence|intros H; exists v; split; [cbn; intuition congruence|apply String.eqb_refl]]. Qed.
  Ltac fields := unfold sets_from, text_of, given; cbn [last_of String.eqb Ascii.eqb Bool.eqb op_cpt op_device op_model op_workload op_no_infer op_emit op_trace op_compress op_scale op_timeline op_legacy op_verbose op_topology].
  Lemma and_iff (P P' Q Q' : Prop) : (P <-> P') -> (Q <-> Q') -> (P /\ Q <-> P' /\ Q'). Proof. tauto. Qed.
  Lemma act_valid a v o0 : ordered (a, v) -> (valid int_text float_text (name_of a, v) <-> exists o1, act a v o0 = Values o1).
  Proof.
    intros (N & N1 & N0). cbn [fst snd] in *. unfold valid. cbn [fst snd]. destruct o0 as [cpt dev model wl ni em tr co sc ti le ve to]. cbn [CliArgs.act]. destruct a; cbn [takes name_of] in *; try contradiction; (destruct v as [v|]; [|try (exfalso; apply N1; reflexivity)]); try (discriminate (N0 eq_refl)).
    - destruct (int_text v); split; intros H; [eauto|intuition discriminate|exfalso; apply (proj1 H); auto|destruct H; discriminate].
    - pose proof (mem_devices v). destruct (mem_choice device_choices v); split; intros H0; [eauto|intuition discriminate|exfalso; destruct H0 as (_ & H0 & _); specialize (H0 eq_refl); apply H in H0; discriminate|destruct H0; discriminate].
    - pose proof (mem_models v). destruct (mem_choice model_choices v); split; intros H0; [eauto|intuition discriminate|exfalso; destruct H0 as (_ & _ & H0 & _); specialize (H0 eq_refl); apply H in H0; discriminate|destruct H0; discriminate].
    - split; [eauto|intuition discriminate].
    - split; [eauto|auto].
    - split; [eauto|auto].
    - split; [eauto|auto].
    - split; [eauto|auto].
    - destruct (float_text v); split; intros H; [eauto|intuition discriminate|exfalso; destruct H as (_ & _ & _ & H); apply H; reflexivity|destruct H; discriminate].
    - split; [eauto|intuition discriminate].
    - split; [eauto|auto].
    - destruct (int_text v); split; intros H; [eauto|intuition discriminate|exfalso; apply (proj1 H); auto|destruct H; discriminate].
    - split; [eauto|auto].
    - split; [eauto|intuition discriminate].
  Qed.
  Ltac one_field := first [reflexivity | match goal with |- context [last_of ?n ?l] => destruct (last_of n l) as [[?|]|] eqn:?; cbn [orb]; first [reflexivity | congruence | (split; congruence) | (exfalso; congruence) | (match goal with H : float_text _ = Some _ |- _ => rewrite H; reflexivity end)] end].
  Lemma sets_step a v o0 o1 L o : Forall ordered L -> ordered (a, v) -> act a v o0 = Values o1 -> (sets_from o1 (settings L) o <-> sets_from o0 ((name_of a, v) :: settings L) o).
  Proof.
    intros HL (N & N1 & N0). cbn [fst snd] in *.
    assert (LO : forall b, takes b = One -> last_of (name_of b) (settings L) <> Some None) by (intros b; apply last_ordered; exact HL).
    pose proof (LO ACycles eq_refl) as L1. pose proof (LO ADevice eq_refl) as L2. pose proof (LO AModel eq_refl) as L3. pose proof (LO AWorkload eq_refl) as L4. pose proof (LO AScale eq_refl) as L5. pose proof (LO ATimeline eq_refl) as L6. pose proof (LO ATopology eq_refl) as L7. cbn [name_of] in L1, L2, L3, L4, L5, L6, L7. clear LO HL.
    destruct o0 as [cpt dev model wl ni em tr co sc ti le ve to]. cbn [CliArgs.act]. generalize dependent (settings L). intros ls L1 L2 L3 L4 L5 L6 L7.
    destruct a; cbn [takes] in *; try contradiction; (destruct v as [v|]; [|try (exfalso; apply N1; reflexivity)]); try (discriminate (N0 eq_refl));
      repeat match goal with |- context [match int_text ?s with _ => _ end] => destruct (int_text s) eqn:?; [|discriminate] | |- context [match float_text ?s with _ => _ end] => destruct (float_text s) eqn:?; [|discriminate] | |- context [if mem_choice ?a ?b then _ else _] => destruct (mem_choice a b); [|discriminate] end;
      intros E; injection E as <-; cbn [name_of]; fields; repeat (apply and_iff; [one_field|]); one_field.
  Qed.
  Lemma acts_sets L : Forall ordered L -> forall o0 o, acts L o0 = Values o <-> Forall (valid int_text float_text) (settings L) /\ sets_from o0 (settings L) o.
  Proof.
    intros HO. induction HO as [|[a v] L Hx HL IH]; intros o0 o.
    - cbn [CliArgs.acts settings map]. split.
      + intros H. injection H as ->. split; [constructor|]. fields. repeat split.
      + intros [_ H]. revert H. fields. cbn [orb]. intros (H1 & H2 & H3 & H4 & H5 & H6 & H7 & H8 & H9 & H10 & H11 & H12 & H13). destruct o, o0. cbn in *. congruence.
    - cbn [CliArgs.acts settings map fst snd]. fold (settings L). rewrite Forall_cons_iff. pose proof (act_valid a v o0 Hx) as AV. destruct (act a v o0) as [n|o1] eqn:E.
      + split; [discriminate|]. intros [[V _] _]. apply AV in V as [o1 K]. discriminate.
      + rewrite IH, (sets_step a v o0 o1 L o HL Hx E). assert (valid int_text float_text (name_of a, v)) by (apply AV; eauto). tauto.
  Qed.
  Lemma settings_inj L1 : forall L2, settings L1 = settings L2 -> L1 = L2.
  Proof. induction L1 as [|[a v] L1 IH]; intros [|[b u] L2] H; try discriminate; [reflexivity|]. cbn in H. injection H as H1 H2 H3. apply name_inj in H1. subst. f_equal. apply IH. exact H3. Qed.
  Lemma sets_default ls o : sets_from default_options ls o <-> sets int_text float_text ls o.
  Proof. unfold sets_from, sets. cbn [default_options op_cpt op_device op_model op_workload op_no_infer op_emit op_trace op_compress op_scale op_timeline op_legacy op_verbose op_topology]. rewrite !orb_false_r. reflexivity. Qed.

  Notation parse := (parse_cli_args int_text float_text).
  Theorem parse_accepts ws o : parse ws = Values o <-> exists ls, line ws ls /\ Forall (valid int_text float_text) ls /\ sets int_text float_text ls o.
  Proof.
    split.
    - unfold parse_cli_args. destruct (classify ws) as [[xs d]|] eqn:C; [|discriminate]. intros H. pose proof (walk_extras _ _ _ _ _ H). subst d. destruct (walk_line (List.length ws) ws xs (le_n _) C _ _ H) as (L & HL & HA).
      exists (settings L). split; [exact HL|]. destruct (line_walk ws _ HL) as (L' & xs' & E & HO & _ & _). apply settings_inj in E. subst L'. apply (acts_sets L HO) in HA as [HV HS]. split; [exact HV|]. apply sets_default. exact HS.
    - intros (ls & HL & HV & HS). destruct (line_walk ws ls HL) as (L & xs & <- & HO & C & HW). unfold parse_cli_args. rewrite C, HW. apply (acts_sets L HO). split; [exact HV|]. apply sets_default. exact HS.
  Qed.
  (* a line has one reading *)
  Theorem line_unique ws ls1 ls2 : line ws ls1 -> line ws ls2 -> Forall (valid int_text float_text) ls1 -> Forall (valid int_text float_text) ls2 -> forall o, sets int_text float_text ls1 o <-> sets int_text float_text ls2 o.
  Proof.
    intros H1 H2 V1 V2 o. pose proof (parse_accepts ws o) as P. split; intros S.
    - assert (K : parse ws = Values o) by (apply P; eauto). destruct (line_walk ws ls2 H2) as (L & xs & <- & HO & C & HW). unfold parse_cli_args in K. rewrite C, HW in K. apply (acts_sets L HO) in K. apply sets_default. tauto.
    - assert (K : parse ws = Values o) by (apply P; eauto). destruct (line_walk ws ls1 H1) as (L & xs & <- & HO & C & HW). unfold parse_cli_args in K. rewrite C, HW in K. apply (acts_sets L HO) in K. apply sets_default. tauto.
  Qed.

  (** * Order *)
  Lemma last_none n ls : last_of n ls = None <-> forall v, ~ In (n, v) ls.
  Proof.
    induction ls as [|[m v] ls IH]; [split; [intros _ v []|reflexivity]|]. cbn [last_of]. destruct (last_of n ls) as [x|].
    - split; [discriminate|]. intros H. exfalso. assert (K : Some x = None) by (apply IH; intros u Hu; apply (H u); right; exact Hu). discriminate.
    - destruct (String.eqb m n) eqn:E; [apply String.eqb_eq in E; subst m; split; [discriminate|intros H; exfalso; apply (H v); left; reflexivity]|]. apply String.eqb_neq in E. split; [|reflexivity]. intros _ u [K|K]; [injection K as -> _; contradiction|]. apply (proj1 IH eq_refl u K).
  Qed.
  Lemma last_nodup n v ls : NoDup (map fst ls) -> (last_of n ls = Some v <-> In (n, v) ls).
  Proof.
    induction ls as [|[m u] ls IH]; intros N; [split; [discriminate|intros []]|]. cbn [map fst] in N. apply NoDup_cons_iff in N as [N1 N2]. specialize (IH N2). cbn [last_of]. destruct (last_of n ls) as [x|] eqn:E.
    - split.
      + intros H. injection H as ->. right. apply IH. reflexivity.
      + intros [H|H]; [|apply IH; exact H]. injection H as -> ->. exfalso. apply N1. destruct (last_none n ls) as [_ K]. destruct (in_dec string_dec n (map fst ls)) as [I|I]; [exact I|]. assert (last_of n ls = None) by (apply K; intros y Hy; apply I; apply (in_map fst) in Hy; exact Hy). congruence.
    - destruct (String.eqb m n) eqn:Q; [apply String.eqb_eq in Q; subst m|apply String.eqb_neq in Q].
      + split; [intros H; injection H as ->; left; reflexivity|]. intros [H|H]; [injection H as ->; reflexivity|]. exfalso. apply (proj1 (last_none n ls) E v H).
      + split; [discriminate|]. intros [H|H]; [injection H as -> _; contradiction|]. exfalso. apply (proj1 (last_none n ls) E v H).
  Qed.
  Lemma last_perm n ls1 ls2 : Permutation ls1 ls2 -> NoDup (map fst ls1) -> last_of n ls1 = last_of n ls2.
  Proof.
    intros P N. assert (N2 : NoDup (map fst ls2)) by (apply (Permutation_NoDup (Permutation_map fst P)); exact N). destruct (last_of n ls1) as [v|] eqn:E.
    - symmetry. apply (last_nodup n v ls2 N2). apply (Permutation_in _ P). apply (last_nodup n v ls1 N). exact E.
    - symmetry. apply last_none. intros v H. apply (proj1 (last_none n ls1) E v). apply (Permutation_in _ (Permutation_sym P)). exact H.
  Qed.
  Theorem parse_order ws1 ws2 ls1 ls2 : line ws1 ls1 -> line ws2 ls2 -> Permutation ls1 ls2 -> NoDup (map fst ls1) -> forall o, parse ws1 = Values o <-> parse ws2 = Values o.
  Proof.
    intros H1 H2 P N o. destruct (line_walk ws1 ls1 H1) as (L1 & xs1 & E1 & HO1 & C1 & HW1). destruct (line_walk ws2 ls2 H2) as (L2 & xs2 & E2 & HO2 & C2 & HW2). unfold parse_cli_args. rewrite C1, C2, HW1, HW2. rewrite (acts_sets L1 HO1), (acts_sets L2 HO2), E1, E2.
    assert (V : Forall (valid int_text float_text) ls1 <-> Forall (valid int_text float_text) ls2) by (split; intros H; [exact (Permutation_Forall P H)|exact (Permutation_Forall (Permutation_sym P) H)]). rewrite V. unfold sets_from, text_of, given. rewrite !(fun n => last_perm n ls1 ls2 P N). reflexivity.
  Qed.

  (** * Statuses *)
  Lemma act_status a v o n : act a v o = Leaves n -> n = 2 \/ (n = 0 /\ a = AHelp).
  Proof.
    destruct o as [cpt dev model wl ni em tr co sc ti le ve to]. cbn [CliArgs.act]. destruct a; try (destruct v as [v|]); repeat match goal with |- context [match int_text ?s with _ => _ end] => destruct (int_text s) | |- context [match float_text ?s with _ => _ end] => destruct (float_text s) | |- context [if mem_choice ?a ?b then _ else _] => destruct (mem_choice a b) end; intros H; try discriminate H; injection H as <-; auto.
  Qed.
  Lemma acts_status l : forall o n, acts l o = Leaves n -> n = 2 \/ (n = 0 /\ exists v, In (AHelp, v) l).
  Proof. induction l as [|[a v] l IH]; intros o n H; [discriminate|]. cbn [CliArgs.acts] in H. destruct (act a v o) as [m|o1] eqn:E; [injection H as ->; destruct (act_status _ _ _ _ E) as [|[? ->]]; [auto|right; split; [assumption|exists v; left; reflexivity]]|]. destruct (IH _ _ H) as [|[? [u Hu]]]; [auto|right; split; [assumption|exists u; right; exact Hu]]. Qed.
  Definition acts_of (k : chain) : list action := match k with Wrong => [] | Whole l _ => map fst l | Next l b => map fst l ++ [b] end.
  Lemma g_help r : forall c a, letter c = Some a -> In AHelp (acts_of (g a r)) -> exists s ss r', switch_letters s ss /\ String c r = (s ++ String "h" r')%string.
  Proof.
    induction r as [|e v IH]; intros c a L H.
    - cbn in H. destruct H as [->|[]]. assert (K : In (c, "--help") letters) by (apply letter_iff; exists AHelp; auto). cbn in K. destruct K as [K|K]; [injection K as <-; exists "", [], ""; split; [constructor|reflexivity]|]. repeat (destruct K as [K|K]; [discriminate K|]). destruct K.
    - assert (CH : a = AHelp -> exists s ss r', switch_letters s ss /\ String c (String e v) = (s ++ String "h" r')%string).
      { intros ->. assert (K : In (c, "--help") letters) by (apply letter_iff; exists AHelp; auto). cbn in K. destruct K as [K|K]; [injection K as <-; exists "", [], (String e v); split; [constructor|reflexivity]|]. repeat (destruct K as [K|K]; [discriminate K|]). destruct K. }
      rewrite g_cases in H. destruct (Ascii.eqb e "="); [destruct (takes a); cbn in H; try contradiction; destruct H as [H|[]]; auto|]. destruct (takes a) eqn:T; [cbn in H; destruct H as [H|[]]; auto| |cbn in H; destruct H as [H|[]]; auto].
      destruct (Ascii.eqb e "-"); [destruct H|]. destruct (letter e) as [b|] eqn:Le; [|cbn in H; destruct H as [H|[]]; auto]. assert (D : {a = AHelp} + {a <> AHelp}) by (destruct a; ((left; reflexivity) || (right; discriminate))). destruct D as [->|NA]; [auto|].
      assert (K : In AHelp (acts_of (g b v))). { destruct (g b v) as [|l x|l x]; cbn in H |- *; [exact H|destruct H as [H|H]; [contradiction|exact H]|destruct H as [H|H]; [contradiction|exact H]]. }
      destruct (IH e b Le K) as (s & ss & r' & HS & E). exists (String c s), ((name_of a, None) :: ss), r'. split; [constructor; [apply letter_iff; eauto|apply switch_iff; auto|exact HS]|cbn; f_equal; exact E].
  Qed.
  Lemma word_help w k : word w = Some k -> In AHelp (acts_of k) -> asks w.
  Proof.
    intros W H. destruct (word_inv w k W) as [(L & a & R)|(c & r & a & -> & L)].
    - rewrite (word_long w a L R) in W. injection W as <-. destruct (partition_spec w) as [_ P2]. destruct (snd (partition w)); [destruct a; cbn in H; destruct H as [H|[]] || destruct H; discriminate|]. cbn in H. destruct H as [->|[]]. left. rewrite <- P2 in R. apply (resolve_iff w AHelp L) in R. exact R.
    - rewrite (word_short c r a L) in W. injection W as <-. right. destruct (g_help r c a L H) as (s & ss & r' & HS & E). exists s, ss, r'. split; [exact HS|]. f_equal. exact E.
  Qed.
  Lemma walk_status ws : forall xs d, classify ws = Some (xs, d) -> forall skip e o n, walk xs skip e o = Leaves n -> n = 2 \/ (n = 0 /\ exists w, In w ws /\ asks w).
  Proof.
    induction ws as [|w ws IH]; intros xs d C skip e o n H.
    - injection C as <- <-. cbn in H. destruct e; [injection H as <-; auto|discriminate].
    - cbn [classify] in C. destruct (String.eqb w "--"); [injection C as <- <-; cbn in H; destruct e; [injection H as <-; auto|discriminate]|].
      assert (UP : (n = 2 \/ (n = 0 /\ exists w, In w ws /\ asks w)) -> n = 2 \/ (n = 0 /\ exists x, In x (w :: ws) /\ asks x)) by (intros [K|(K & x & K1 & K2)]; [auto|right; split; [exact K|exists x; split; [right; exact K1|exact K2]]]).
      destruct (parse_optional w) as [|h|] eqn:P; [| |discriminate].
      + destruct (classify ws) as [[ys b]|]; [|discriminate]. injection C as <- <-. cbn [CliArgs.walk] in H. apply UP. exact (IH _ _ eq_refl _ _ _ _ H).
      + destruct (classify ws) as [[ys b]|]; [|discriminate]. injection C as <- <-. cbn [CliArgs.walk] in H. destruct (h_action h) as [a|] eqn:HA; [|apply UP; exact (IH _ _ eq_refl _ _ _ _ H)].
        pose proof (chain_of w h a P HA) as W. revert W H. generalize (match h_arg h with Some ex => consume a (h_long h) (h_sep h) ex | None => Next [] a end). intros [|l x|l x] W H; [injection H as <-; auto| |].
        * destruct (acts l o) as [m|o1] eqn:E; [|apply UP; exact (IH _ _ eq_refl _ _ _ _ H)]. injection H as ->. destruct (acts_status _ _ _ E) as [|[? [v Hv]]]; [auto|]. right. split; [assumption|]. exists w. split; [left; reflexivity|]. apply (word_help w _ W). cbn. apply (in_map fst) in Hv. exact Hv.
        * destruct (next_value x ys) as [v|]; [|injection H as <-; auto]. destruct (acts _ o) as [m|o1] eqn:E; [|apply UP; exact (IH _ _ eq_refl _ _ _ _ H)]. injection H as ->. destruct (acts_status _ _ _ E) as [|[? [u Hu]]]; [auto|]. right. split; [assumption|]. exists w. split; [left; reflexivity|]. apply (word_help w _ W). cbn. apply (in_map fst) in Hu. rewrite map_app in Hu. exact Hu.
  Qed.
  Theorem parse_status ws n : parse ws = Leaves n -> n = 2 \/ (n = 0 /\ exists w, In w ws /\ asks w).
  Proof. unfold parse_cli_args. destruct (classify ws) as [[xs d]|] eqn:C; [|intros H; injection H as <-; auto]. apply (walk_status ws xs d C). Qed.
  (* help after a valid part of the line *)
  Lemma quiet_acts l : quiet l -> forall o, exists o', acts l o = Values o'.
  Proof.
    induction l as [|[a v] l IH]; intros Q o; [exists o; reflexivity|]. destruct (Q (a, v) (or_introl eq_refl)) as (E & T & N). cbn in E, T, N. subst v. cbn [CliArgs.acts]. assert (exists o1, act a None o = Values o1) as [o1 ->] by (destruct o; destruct a; try discriminate T; try contradiction; eexists; reflexivity). apply IH. intros x Hx. apply Q. right. exact Hx.
  Qed.
  Theorem parse_help ws1 ls1 w ss ws2 ls2 : line ws1 ls1 -> Forall (valid int_text float_text) ls1 -> spells w ss "--help" -> line ws2 ls2 -> parse (ws1 ++ w :: ws2) = Leaves 0.
  Proof.
    intros H1 V SP H2. destruct (line_walk ws2 ls2 H2) as (L2 & xs2 & _ & _ & C2 & _). destruct (spells_next w ss _ SP) as (l & b & W & El & Eb & Q). assert (b = AHelp) by (apply name_inj; symmetry; exact Eb). subst b. destruct (classify_option w _ _ _ _ W C2) as (h & a & C & HA & K).
    assert (NP : forall v r, w :: ws2 = v :: r -> ~ plain v) by (intros v r Ev Pl; injection Ev as -> _; apply argument_iff in Pl; unfold word in W; rewrite Pl in W; discriminate).
    destruct (line_classify ws1 ls1 (w :: ws2) _ _ H1 C NP) as (L & xs & E & HO & C' & HW). unfold parse_cli_args. rewrite C', HW. subst ls1.
    assert (exists o, acts L default_options = Values o) as [o ->]. { clear - V HO. revert V. generalize default_options. induction HO as [|[x v] L Hx HL IH]; intros o0 V; [exists o0; reflexivity|]. cbn [settings map fst snd] in V. apply Forall_cons_iff in V as [V1 V2]. cbn [CliArgs.acts]. apply (act_valid x v o0 Hx) in V1 as [o1 ->]. apply IH. exact V2. }
    cbn [CliArgs.walk]. rewrite HA, <- K. replace (next_value AHelp xs2) with (Some (@None string)) by reflexivity. rewrite acts_app. destruct (quiet_acts l Q o) as [o' ->]. destruct o'. reflexivity.
  Qed.
  (* values that parse_args returns pass the checks of the choices *)
  Theorem parse_chosen ws o : parse ws = Values o -> chosen o.
  Proof.
    intros H. apply parse_accepts in H as (ls & _ & V & S). unfold sets, text_of in S. destruct S as (_ & S1 & S2 & _). split.
    - rewrite S1. destruct (last_of "--device" ls) as [[v|]|] eqn:E; try (left; reflexivity). assert (K : In ("--device", Some v) ls).
      { clear - E. induction ls as [|[m u] ls IH]; [discriminate|]. cbn [last_of] in E. destruct (last_of "--device" ls); [right; apply IH; exact E|]. destruct (String.eqb m "--device") eqn:Q; [|discriminate]. apply String.eqb_eq in Q. injection E as ->. subst m. left. reflexivity. }
      rewrite Forall_forall in V. apply (V _ K). reflexivity.
    - rewrite S2. destruct (last_of "--cong-model" ls) as [[v|]|] eqn:E; try (right; reflexivity). assert (K : In ("--cong-model", Some v) ls).
      { clear - E. induction ls as [|[m u] ls IH]; [discriminate|]. cbn [last_of] in E. destruct (last_of "--cong-model" ls); [right; apply IH; exact E|]. destruct (String.eqb m "--cong-model") eqn:Q; [|discriminate]. apply String.eqb_eq in Q. injection E as ->. subst m. left. reflexivity. }
      rewrite Forall_forall in V. apply (V _ K). reflexivity.
  Qed.
End Lines.
