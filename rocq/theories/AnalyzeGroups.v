(* Lemmas: grouping of trace files (C75). *)
From Coq Require Import ZArith Lia Bool String Ascii List Permutation.
From Verif Require Import Util Files SpecFiles Fabric Analyze SpecAnalyze FilesProofs FabricProofs FabricTopology AnalyzeNames.
Import ListNotations.
Local Open Scope string_scope.
Local Open Scope list_scope.
Open Scope Z_scope.

Lemma uid_eqb_spec a b : uid_eqb a b = true <-> a = b.
Proof.
  destruct a as [n [t|]], b as [m [u|]]; unfold uid_eqb, trace_eqb; cbn [uid_op uid_trace]; rewrite ?andb_true_iff, ?Z.eqb_eq; split; try (intros [? ?]; congruence); try (intros E; injection E; auto; congruence).
Qed.
Definition op_of (file : string) : option (op_uid * string) :=
  match extractDataFromFilename file with Some (dev, op, id, t) => Some (mkUid (get_ttnn_op_id id) t, op) | None => None end.
Lemma belongs_spec u op file : belongs u op file <-> op_of file = Some (u, op).
Proof.
  unfold belongs, op_of. split.
  - intros (dir & name & dev & id & F & N & D). rewrite (proj2 (extract_name _ _ _ _ _ _ _ F) N). rewrite ttnn_div, <- D. destruct u. reflexivity.
  - destruct (extractDataFromFilename file) as [[[[dev o] id] t]|] eqn:E; [|discriminate]. intros H. injection H as <- <-.
    destruct (file_in_basename file) as (dir & F). exists dir, (basename file), dev, id. cbn. split; [exact F|]. split; [apply extract_spec; exact E|apply ttnn_div].
Qed.
Definition in_op (u : op_uid) (file : string) : bool := match op_of file with Some (v, _) => uid_eqb v u | None => false end.
Lemma in_op_spec u file : in_op u file = true <-> exists o, belongs u o file.
Proof.
  unfold in_op. split.
  - destruct (op_of file) as [[v o]|] eqn:E; [|discriminate]. rewrite uid_eqb_spec. intros ->. exists o. apply belongs_spec. exact E.
  - intros (o & B). apply belongs_spec in B. rewrite B. apply uid_eqb_spec. reflexivity.
Qed.
Lemma select_filter u l : select (fun f => exists o, belongs u o f) l (filter (in_op u) l).
Proof.
  induction l as [|f l IH]; [constructor|]. cbn [filter]. destruct (in_op u f) eqn:E.
  - apply sel_in; [apply in_op_spec; exact E|exact IH].
  - apply sel_out; [|exact IH]. rewrite <- in_op_spec. congruence.
Qed.
Definition grouped_inv (l : list string) (m : list group) : Prop :=
  NoDup (map fst m) /\
  (forall u op fs, In (u, (op, fs)) m -> fs = filter (in_op u) l /\ exists f r, fs = f :: r /\ op_of f = Some (u, op)) /\
  (forall u op f, In f l -> op_of f = Some (u, op) -> In u (map fst m)).
Lemma step_op m file : group_step m file = match op_of file with None => m | Some (u, op) =>
  let g := match dict_get uid_eqb m u with Some g => g | None => (op, []) end in dict_set uid_eqb m u (fst g, snd g ++ [file]) end.
Proof. unfold group_step, op_of. destruct (extractDataFromFilename file) as [[[[dev o] id] t]|]; reflexivity. Qed.

Lemma group_inv_step l m file : grouped_inv l m -> grouped_inv (l ++ [file]) (group_step m file).
Proof.
  intros (ND & G & C). rewrite step_op. destruct (op_of file) as [[u op]|] eqn:E.
  - cbn zeta. set (g := match dict_get uid_eqb m u with Some g => g | None => (op, []) end).
    destruct (dict_set_keys uid_eqb uid_eqb_spec m u (fst g, snd g ++ [file]) ND) as [ND' K]. split; [exact ND'|]. split.
    + intros v o fs H. apply (proj1 (dict_set_in uid_eqb uid_eqb_spec m u _ ND _ _)) in H. rewrite filter_app. cbn [filter].
      destruct H as [[-> H]|[N H]].
      * assert (I : in_op u file = true) by (unfold in_op; rewrite E; apply uid_eqb_spec; reflexivity). rewrite I. injection H as -> ->. subst g.
        destruct (dict_get uid_eqb m u) as [[o' fs']|] eqn:D.
        -- apply (dict_get_iff uid_eqb uid_eqb_spec m u _ ND) in D. destruct (G _ _ _ D) as [F (f & r & R & P)]. cbn [fst snd]. rewrite <- F. split; [reflexivity|]. rewrite R. exists f, (r ++ [file]). auto.
        -- assert (F : filter (in_op u) l = []).
           { apply (dict_get_none uid_eqb uid_eqb_spec) in D. destruct (filter (in_op u) l) as [|x r] eqn:F; [reflexivity|]. exfalso. apply D.
             assert (X : In x (filter (in_op u) l)) by (rewrite F; left; reflexivity). apply filter_In in X. destruct X as [X Y]. apply in_op_spec in Y. destruct Y as (o & Y). apply belongs_spec in Y. exact (C _ _ _ X Y). }
           rewrite F. cbn [fst snd app]. split; [reflexivity|]. exists file, []. auto.
      * assert (I : in_op v file = false).
        { unfold in_op. rewrite E. destruct (uid_eqb u v) eqn:Q; [|reflexivity]. apply uid_eqb_spec in Q. congruence. }
        rewrite I, app_nil_r. exact (G _ _ _ H).
    + intros v o f H P. apply K. apply in_app_iff in H. destruct H as [H|[<-|[]]]; [right; exact (C _ _ _ H P)|left; congruence].
  - split; [exact ND|]. split.
    + intros v o fs H. rewrite filter_app. cbn [filter]. assert (I : in_op v file = false) by (unfold in_op; rewrite E; reflexivity). rewrite I, app_nil_r. exact (G _ _ _ H).
    + intros v o f H P. apply in_app_iff in H. destruct H as [H|[<-|[]]]; [exact (C _ _ _ H P)|congruence].
Qed.
Lemma group_inv_all l : grouped_inv l (group_traces_ttnn l).
Proof.
  unfold group_traces_ttnn. induction l as [|f l IH] using rev_ind.
  - split; [constructor|]. split; intros ? ? ? []. 
  - rewrite fold_left_app. apply group_inv_step. exact IH.
Qed.
Theorem groups_spec files : NoDup (map fst (group_traces_ttnn files)) /\
  (forall u op fs, In (u, (op, fs)) (group_traces_ttnn files) -> select (fun f => exists o, belongs u o f) files fs /\ exists f r, fs = f :: r /\ belongs u op f) /\
  (forall u op f, In f files -> belongs u op f -> exists op' fs, In (u, (op', fs)) (group_traces_ttnn files) /\ In f fs).
Proof.
  destruct (group_inv_all files) as (ND & G & C). split; [exact ND|]. split.
  - intros u op fs H. destruct (G _ _ _ H) as [F (f & r & R & P)]. split; [rewrite F; apply select_filter|]. exists f, r. split; [exact R|]. apply belongs_spec. exact P.
  - intros u op f H B. apply belongs_spec in B. pose proof (C _ _ _ H B) as I. apply in_map_iff in I. destruct I as ([v [o fs]] & <- & I). exists o, fs. cbn [fst] in *. split; [exact I|].
    rewrite (proj1 (G _ _ _ I)). apply filter_In. split; [exact H|]. unfold in_op. rewrite B. apply uid_eqb_spec. reflexivity.
Qed.
(* the grouping for programs without operations never gives a dictionary *)
Theorem metal_never files l : group_traces_metal files <> Val (AsDict l).
Proof.
  unfold group_traces_metal. intros H. apply (proj1 (pbind_val _ _ _)) in H. destruct H as (m & _ & H). destruct (fold_left (fun n (e : Z * list (Z * string)) => Nat.max n (List.length (snd e))) m O); discriminate.
Qed.

(** * The outcome of the grouping for programs without operations *)
Definition metal_step (m : list (Z * list (Z * string))) (file : string) : py (list (Z * list (Z * string))) :=
  match extractDataFromFilename file with
  | None => Val m
  | Some (dev, op, id, t) =>
      if negb (String.eqb op "UnknownOP") then Raised "AssertionError" else
      match t with
      | Some _ => Raised "AssertionError"
      | None => Val (dict_set Z.eqb m dev ((match dict_get Z.eqb m dev with Some l => l | None => [] end) ++ [(id, file)]))
      end
  end.
Definition odd_file (f : string) : Prop := exists u op, belongs u op f /\ (op <> "UnknownOP" \/ uid_trace u <> None).
Definition some_files (e : Z * list (Z * string)) : Prop := snd e <> [].
Lemma set_files m k v : v <> [] -> Forall some_files m -> Forall some_files (dict_set Z.eqb m k v) /\ dict_set Z.eqb m k v <> [].
Proof.
  intros V. induction 1 as [|[j l] m H F (IH & _)]; cbn [dict_set].
  - split; [repeat constructor; exact V|discriminate].
  - destruct (j =? k); (split; [|discriminate]); constructor; auto.
Qed.
Lemma metal_step_spec m f : Forall some_files m ->
  (odd_file f /\ metal_step m f = Raised "AssertionError") \/
  (~ odd_file f /\ exists m', metal_step m f = Val m' /\ Forall some_files m' /\ (m' = [] <-> m = [] /\ forall u op, ~ belongs u op f)).
Proof.
  intros F. unfold metal_step. assert (B : forall u op, belongs u op f <-> op_of f = Some (u, op)) by (intros; apply belongs_spec). unfold op_of in B.
  destruct (extractDataFromFilename f) as [[[[dev op] id] t]|].
  - destruct (String.eqb op "UnknownOP") eqn:O; cbn [negb].
    + apply String.eqb_eq in O. subst op. destruct t as [t|].
      * left. split; [|reflexivity]. eexists _, _. split; [apply B; reflexivity|]. right. cbn. discriminate.
      * right. split. { intros (u & op & H & K). apply B in H. injection H as <- <-. cbn in K. destruct K; congruence. }
        eexists. split; [reflexivity|]. destruct (set_files m dev ((match dict_get Z.eqb m dev with Some l => l | None => [] end) ++ [(id, f)])) as (S1 & S2); [destruct (match dict_get Z.eqb m dev with Some l => l | None => [] end); discriminate|exact F|].
        split; [exact S1|]. split; [contradiction|]. intros (_ & K). exfalso. eapply K, B. reflexivity.
    + left. split; [|reflexivity]. eexists _, _. split; [apply B; reflexivity|]. left. intros ->. rewrite String.eqb_refl in O. discriminate.
  - right. split. { intros (u & op & H & _). apply B in H. discriminate. } exists m. split; [reflexivity|]. split; [exact F|]. split; [|tauto]. intros E. split; [exact E|]. intros u op H. apply B in H. discriminate.
Qed.
Lemma metal_raised l e : fold_left (fun m x => let? s := m in metal_step s x) l (Raised e) = Raised e.
Proof. induction l as [|x l IH]; cbn; [reflexivity|exact IH]. Qed.
Lemma metal_fold l : forall m, Forall some_files m ->
  (Exists odd_file l /\ pfold metal_step l m = Raised "AssertionError") \/
  (~ Exists odd_file l /\ exists m', pfold metal_step l m = Val m' /\ Forall some_files m' /\ (m' = [] <-> m = [] /\ forall f u op, In f l -> ~ belongs u op f)).
Proof.
  unfold pfold. induction l as [|f l IH]; intros m F; cbn [fold_left].
  - right. split; [intros H; inversion H|]. exists m. split; [reflexivity|]. split; [exact F|]. split; [intros E; split; [exact E|intros f u op []]|tauto].
  - destruct (metal_step_spec m f F) as [(O & E)|(O & m1 & E & F1 & Z1)]; cbn [pbind]; rewrite E.
    + left. split; [left; exact O|apply metal_raised].
    + destruct (IH m1 F1) as [(O2 & E2)|(O2 & m2 & E2 & F2 & Z2)]; rewrite E2.
      * left. split; [right; exact O2|reflexivity].
      * right. split; [intros H; inversion H; subst; contradiction|]. exists m2. split; [reflexivity|]. split; [exact F2|]. rewrite Z2, Z1. split.
        -- intros ((A & B) & C). split; [exact A|]. intros g u op [<-|H]; [apply B|eapply C, H].
        -- intros (A & B). split; [split; [exact A|]; intros u op; apply (B f); left; reflexivity|]. intros g u op H. apply B. right. exact H.
Qed.
Lemma most_files (m : list (Z * list (Z * string))) : Forall some_files m -> fold_left (fun n e => Nat.max n (List.length (snd e))) m O = O <-> m = [].
Proof.
  intros F. split; [|intros ->; reflexivity]. assert (G : forall (m : list (Z * list (Z * string))) n, (n <= fold_left (fun n e => Nat.max n (List.length (snd e))) m n)%nat).
  { clear. induction m as [|e m IH]; intros n; cbn [fold_left]; [lia|]. etransitivity; [|apply IH]. lia. }
  destruct m as [|e m]; [reflexivity|]. cbn [fold_left]. intros H. specialize (G m (Nat.max 0 (List.length (snd e)))). inversion F as [|? ? K _]; subst. unfold some_files in K. destruct (snd e); [congruence|]. cbn [List.length] in *. lia.
Qed.
Theorem metal_outcome files :
  ((forall f u op, In f files -> ~ belongs u op f) -> group_traces_metal files = Val (AsList [])) /\
  ((exists f u op, In f files /\ belongs u op f /\ (op <> "UnknownOP" \/ uid_trace u <> None)) -> group_traces_metal files = Raised "AssertionError") /\
  ((exists f u op, In f files /\ belongs u op f) -> (forall f u op, In f files -> belongs u op f -> op = "UnknownOP" /\ uid_trace u = None) -> group_traces_metal files = Raised "TypeError").
Proof.
  unfold group_traces_metal. change (fun (m : list (Z * list (Z * string))) file => _) with metal_step.
  destruct (metal_fold files [] (Forall_nil _)) as [(O & ->)|(O & m & -> & F & Z)]; cbn [pbind].
  - apply Exists_exists in O as (f & I & u & op & B & K). split; [|split].
    + intros H. destruct (H f u op I B).
    + reflexivity.
    + intros _ H. destruct (H f u op I B). destruct K; contradiction.
  - pose proof (most_files m F) as M. split; [|split].
    + intros H. rewrite (proj2 M); [reflexivity|]. apply Z. auto.
    + intros (f & u & op & I & B & K). destruct O. apply Exists_exists. exists f. split; [exact I|]. exists u, op. auto.
    + intros (f & u & op & I & B) _. destruct (fold_left _ m 0%nat) eqn:E; [|reflexivity]. pose proof (proj1 Z (proj1 M eq_refl)) as (_ & K). destruct (K f u op I B).
Qed.
