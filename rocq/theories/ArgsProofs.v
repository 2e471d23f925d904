(* Proofs for C86: the words of the command line. *)
From Coq Require Import ZArith Arith Lia Ascii String List Bool Permutation Floats.SpecFloat ZifyBool ZifyNat.
From Verif Require Import Base Arith Util Json Device Workload Rates Stats Engine Api Bindings Ingest Timeline Cli SpecCli CliArgs SpecArgs.
Import ListNotations.
Local Open Scope string_scope.
Local Open Scope list_scope.
Open Scope Z_scope.
Ltac Zify.zify_post_hook ::= idtac.

(** * Strings *)
Lemma starts_iff p : forall s, starts p s = true <-> begins p s.
Proof.
  induction p as [|a p IH]; intros s; cbn [starts].
  - split; [intros _; exists s; reflexivity|reflexivity].
  - destruct s as [|b s]; [split; [discriminate|intros [r E]; discriminate]|]. rewrite andb_true_iff, Ascii.eqb_eq, IH. split.
    + intros [-> [r ->]]. exists r. reflexivity.
    + intros [r E]. injection E as -> ->. split; [reflexivity|exists r; reflexivity].
Qed.
Lemma sapp_nil s : (s ++ "")%string = s. Proof. induction s as [|a s IH]; [reflexivity|cbn; f_equal; exact IH]. Qed.
Lemma sapp_assoc a b c : ((a ++ b) ++ c)%string = (a ++ b ++ c)%string. Proof. induction a as [|x a IH]; [reflexivity|cbn; f_equal; exact IH]. Qed.
Lemma lacks_app c a b : lacks c (a ++ b)%string <-> lacks c a /\ lacks c b.
Proof. induction a as [|x a IH]; cbn; [tauto|rewrite IH; tauto]. Qed.
Lemma partition_none s : lacks "=" s -> partition s = (s, None).
Proof. induction s as [|a s IH]; cbn; [reflexivity|]. intros [N H]. apply Ascii.eqb_neq in N. rewrite N, (IH H). reflexivity. Qed.
Lemma partition_some h v : lacks "=" h -> partition (h ++ "=" ++ v)%string = (h, Some v).
Proof. change ("=" ++ v)%string with (String "=" v). induction h as [|a h IH]; [reflexivity|]. cbn [lacks append partition]. intros [N H]. apply Ascii.eqb_neq in N. rewrite N, (IH H). reflexivity. Qed.
Lemma partition_spec s : lacks "=" (fst (partition s)) /\ match snd (partition s) with None => s = fst (partition s) | Some v => s = (fst (partition s) ++ "=" ++ v)%string end.
Proof.
  induction s as [|a s [IH1 IH2]]; cbn; [auto|]. destruct (Ascii.eqb a "=") eqn:E.
  - apply Ascii.eqb_eq in E. subst a. cbn. auto.
  - apply Ascii.eqb_neq in E. cbn. split; [auto|]. destruct (snd (partition s)); cbn; f_equal; exact IH2.
Qed.
Lemma begins_trans a b c : begins a b -> begins b c -> begins a c.
Proof. intros [r ->] [s ->]. exists (r ++ s)%string. apply sapp_assoc. Qed.
Lemma begins_refl a : begins a a. Proof. exists "". symmetry. apply sapp_nil. Qed.
Lemma begins_lacks c a b : begins a b -> lacks c b -> lacks c a.
Proof. intros [r ->]. rewrite lacks_app. tauto. Qed.
Lemma sub0 r : substring 0 (String.length r) r = r.
Proof. induction r as [|a r IH]; [reflexivity|cbn; f_equal; exact IH]. Qed.

(** * The table *)
Definition name_of (a : action) : string :=
  match a with
  | AHelp => "--help" | ACycles => "--cycles-per-timestep" | ADevice => "--device" | AModel => "--cong-model" | AWorkload => "--workload"
  | ANoInfer => "--no-injection-rate-inference" | AEmit => "--emit-timeline-file" | ATrace => "--workload-is-noc-trace" | ACompress => "--compress-timeline-output-file"
  | AScale => "--scale-workload-schedule" | ATimeline => "--timeline-json-filepath" | ALegacy => "--use-legacy-timeline-format" | AVerbose => "--verbose" | ATopology => "--topology-json"
  end.
Lemma name_inj a b : name_of a = name_of b -> a = b.
Proof. destruct a, b; intros H; try reflexivity; discriminate H. Qed.
Lemma name_in a : In (name_of a) all_names. Proof. destruct a; cbn; tauto. Qed.
Lemma in_name n : In n all_names -> exists a, n = name_of a.
Proof.
  intros H. cbn in H. repeat (destruct H as [<-|H]; [first [solve [exists AHelp; reflexivity]|solve [exists AVerbose; reflexivity]|solve [exists ACycles; reflexivity]|solve [exists ADevice; reflexivity]|solve [exists AModel; reflexivity]|solve [exists AWorkload; reflexivity]|solve [exists AScale; reflexivity]|solve [exists ATimeline; reflexivity]|solve [exists ATopology; reflexivity]|solve [exists ANoInfer; reflexivity]|solve [exists AEmit; reflexivity]|solve [exists ATrace; reflexivity]|solve [exists ACompress; reflexivity]|solve [exists ALegacy; reflexivity]]|]). destruct H.
Qed.
Lemma name_long a : is_long (name_of a) = true. Proof. destruct a; reflexivity. Qed.
Lemma lacks_eqb c s : (fix f s := match s with EmptyString => true | String a r => negb (Ascii.eqb a c) && f r end) s = true -> lacks c s.
Proof. induction s as [|a s IH]; cbn; [auto|]. rewrite andb_true_iff, negb_true_iff, Ascii.eqb_neq. intros [? ?]. auto. Qed.
Lemma name_lacks a : lacks "=" (name_of a). Proof. destruct a; apply lacks_eqb; reflexivity. Qed.
Lemma valued_iff a : valued (name_of a) <-> takes a <> Zero.
Proof. unfold valued. destruct a; cbn; split; intros H; try discriminate; try (exfalso; intuition discriminate); try tauto; try (exfalso; apply H; reflexivity). Qed.
Lemma switch_iff a : In (name_of a) switches <-> takes a = Zero /\ a <> AHelp.
Proof. destruct a; cbn; split; intros H; try (split; [reflexivity|discriminate]); try tauto; try (exfalso; intuition discriminate). Qed.

(* table entries: long names and letters *)
Definition letter (c : ascii) : option action := lookup (String "-" (String c "")).
Lemma letter_iff c n : In (c, n) letters <-> exists a, letter c = Some a /\ n = name_of a.
Proof.
  split.
  - intros H. cbn in H. repeat (destruct H as [H|H]; [injection H as <- <-; eexists; split; [reflexivity|reflexivity]|]). destruct H.
  - intros (a & H & ->). unfold letter, lookup in H. destruct (find _ _) as [[s b]|] eqn:E; [|discriminate]. injection H as ->. apply find_some in E as [E1 E2]. apply String.eqb_eq in E2. cbn [fst] in E2. subst s.
    cbn in E1. repeat (destruct E1 as [E1|E1]; [first [discriminate E1|injection E1 as <- <-; cbn; tauto]|]). destruct E1.
Qed.
Lemma long_entry s : is_long s = true -> forall a, In (s, a) option_strings <-> s = name_of a.
Proof.
  intros L a. split.
  - intros H. cbn in H. repeat (destruct H as [H|H]; [injection H as <- <-; first [discriminate L|reflexivity]|]). destruct H.
  - intros ->. destruct a; cbn; tauto.
Qed.
Lemma keys_nodup : NoDup (map fst option_strings).
Proof. cbn. repeat (constructor; [intros H; repeat (destruct H as [H|H]; [discriminate H|]); destruct H|]). constructor. Qed.
Lemma table_nodup : NoDup option_strings. Proof. apply NoDup_map_inv with (f := fst). exact keys_nodup. Qed.
Lemma lookup_iff s a : lookup s = Some a <-> In (s, a) option_strings.
Proof.
  unfold lookup. split.
  - destruct (find _ _) as [[t b]|] eqn:E; [|discriminate]. cbn. intros H. injection H as ->. apply find_some in E as [E1 E2]. apply String.eqb_eq in E2. cbn in E2. subst t. exact E1.
  - intros H. destruct (find (fun e => String.eqb (fst e) s) option_strings) as [[t b]|] eqn:E.
    + pose proof (find_some _ _ E) as [E1 E2]. apply String.eqb_eq in E2. cbn in E2. subst t. cbn. f_equal. pose proof keys_nodup as N. clear E. induction option_strings as [|[k x] l IH]; [destruct H|]. cbn in N. apply NoDup_cons_iff in N as [N1 N2].
      destruct H as [H|H], E1 as [E1|E1].
      * congruence.
      * injection H as -> ->. exfalso. apply N1. apply (in_map fst) in E1. exact E1.
      * injection E1 as -> ->. exfalso. apply N1. apply (in_map fst) in H. exact H.
      * auto.
    + exfalso. pose proof (find_none _ _ E _ H) as K. cbn in K. rewrite String.eqb_refl in K. discriminate.
Qed.
Lemma filter_one {T} (f : T -> bool) (l : list T) x : NoDup l -> (filter f l = [x] <-> In x l /\ f x = true /\ forall y, In y l -> f y = true -> y = x).
Proof.
  intros N. split.
  - intros E. assert (K : In x (filter f l)) by (rewrite E; left; reflexivity). apply filter_In in K as [K1 K2]. split; [exact K1|]. split; [exact K2|]. intros y H1 H2. assert (K : In y (filter f l)) by (apply filter_In; auto). rewrite E in K. destruct K as [K|[]]; congruence.
  - intros (K1 & K2 & K3). induction l as [|z l IH]; [destruct K1|]. apply NoDup_cons_iff in N as [N1 N2]. cbn. destruct K1 as [->|K1].
    + rewrite K2. f_equal. destruct (filter f l) as [|y r] eqn:E; [reflexivity|]. exfalso. assert (K : In y (filter f l)) by (rewrite E; left; reflexivity). apply filter_In in K as [Q1 Q2]. apply N1. rewrite <- (K3 y (or_intror Q1) Q2). exact Q1.
    + destruct (f z) eqn:E; [exfalso; apply N1; rewrite (K3 z (or_introl eq_refl) E); exact K1|]. apply IH; auto. intros y H1 H2. apply K3; [right; exact H1|exact H2].
Qed.
Lemma long_starts h s : is_long h = true -> starts h s = true -> is_long s = true.
Proof. unfold is_long. rewrite !starts_iff. apply begins_trans. Qed.
(* entries that begin with a long word *)
Lemma matches_one h a : is_long h = true -> (filter (fun e => starts h (fst e)) option_strings = [(name_of a, a)] <-> begins h (name_of a) /\ forall m, In m all_names -> begins h m -> m = name_of a).
Proof.
  intros L. rewrite filter_one by exact table_nodup. cbn [fst]. rewrite starts_iff. split.
  - intros (_ & K2 & K3). split; [exact K2|]. intros m Hm Hb. destruct (in_name m Hm) as [b ->]. assert (E : (name_of b, b) = (name_of a, a)) by (apply K3; [apply (long_entry _ (name_long b)); reflexivity|apply starts_iff; exact Hb]). congruence.
  - intros [K1 K2]. split; [apply (long_entry _ (name_long a)); reflexivity|]. split; [exact K1|]. intros [s b] Hin Hs. cbn [fst] in Hs. pose proof (long_starts _ _ L Hs) as Ls. apply (long_entry s Ls) in Hin. subst s. apply starts_iff in Hs. assert (E := K2 _ (name_in b) Hs). apply name_inj in E. subst b. reflexivity.
Qed.
Lemma matches_none h : is_long h = true -> (filter (fun e => starts h (fst e)) option_strings = [] <-> forall m, In m all_names -> ~ begins h m).
Proof.
  intros L. split.
  - intros E m Hm Hb. destruct (in_name m Hm) as [a ->]. assert (K : In (name_of a, a) (filter (fun e => starts h (fst e)) option_strings)) by (apply filter_In; split; [apply (long_entry _ (name_long a)); reflexivity|apply starts_iff; exact Hb]). rewrite E in K. destruct K.
  - intros H. destruct (filter _ _) as [|[s a] r] eqn:E; [reflexivity|]. exfalso. assert (K : In (s, a) (filter (fun e => starts h (fst e)) option_strings)) by (rewrite E; left; reflexivity). apply filter_In in K as [K1 K2]. cbn [fst] in K2. pose proof (long_starts _ _ L K2) as Ls. apply (long_entry s Ls) in K1. subst s. apply starts_iff in K2. exact (H _ (name_in a) K2).
Qed.
(* the action of a long word, before "=" if there is one *)
Definition resolve (h : string) : option (option action) :=
  match lookup h with
  | Some a => Some (Some a)
  | None => match filter (fun e => starts h (fst e)) option_strings with [] => None | [e] => Some (Some (snd e)) | _ => Some None end
  end.
Lemma resolve_iff h a : is_long h = true -> (resolve h = Some (Some a) <-> long_name h (name_of a)).
Proof.
  intros L. unfold resolve, long_name. assert (LB : begins "--" h) by (apply starts_iff; exact L). destruct (lookup h) as [b|] eqn:E.
  - apply lookup_iff in E. apply (long_entry h L) in E. subst h. split.
    + intros H. injection H as ->. split; [apply name_in|]. split; [exact LB|]. split; [apply begins_refl|left; reflexivity].
    + intros (_ & _ & _ & [H|H]); [apply name_inj in H; subst; reflexivity|]. assert (name_of b = name_of a) as K by (apply H; [apply name_in|apply begins_refl]). apply name_inj in K. subst. reflexivity.
  - assert (NE : h <> name_of a). { intros ->. assert (K : lookup (name_of a) = Some a) by (apply lookup_iff; apply (long_entry _ L); reflexivity). congruence. }
    split.
    + intros H. destruct (filter _ _) as [|e [|e2 r]] eqn:F; try discriminate. injection H as H. destruct e as [s b]. cbn in H. subst b.
      assert (K : In (s, a) (filter (fun e => starts h (fst e)) option_strings)) by (rewrite F; left; reflexivity). apply filter_In in K as [K1 K2]. pose proof (long_starts _ _ L K2) as Ls. apply (long_entry s Ls) in K1. subst s. apply (matches_one h a L) in F. destruct F. split; [apply name_in|]. auto.
    + intros (_ & _ & B & [H|H]); [contradiction|]. assert (F := proj2 (matches_one h a L) (conj B H)). rewrite F. reflexivity.
Qed.
Lemma resolve_none h : is_long h = true -> (resolve h = None <-> forall m, In m all_names -> ~ begins h m).
Proof.
  intros L. unfold resolve. rewrite <- (matches_none h L). destruct (lookup h) as [b|] eqn:E.
  - apply lookup_iff in E. split; [discriminate|]. intros F. exfalso. apply (long_entry h L) in E. subst h. rewrite (matches_none _ L) in F. exact (F _ (name_in b) (begins_refl _)).
  - destruct (filter _ _) as [|e [|e2 r]]; split; intros H; try discriminate; reflexivity.
Qed.

(** * Classes of words *)
Lemma long_class w : is_long w = true -> parse_optional w =
  let q := partition w in
  match resolve (fst q) with
  | Some (Some a) => Option (mkHit (Some a) true (match snd q with Some _ => true | None => false end) (snd q))
  | Some None => Ambiguous
  | None => if negative_number w then Argument else if has_space w then Argument else Option (mkHit None false false None)
  end.
Proof.
  intros L. assert (exists r, w = String "-" (String "-" r)) as [r Er]. { apply starts_iff in L. destruct L as [r ->]. exists r. reflexivity. }
  assert (U : parse_optional w = match lookup w with
    | Some a => Option (mkHit (Some a) (is_long w) false None)
    | None =>
        match snd (partition w), lookup (fst (partition w)) with
        | Some v, Some a => Option (mkHit (Some a) (is_long (fst (partition w))) true (Some v))
        | _, _ => match option_tuples w with
                  | _ :: _ :: _ => Ambiguous
                  | [h] => Option h
                  | [] => if negative_number w then Argument else if has_space w then Argument else Option (mkHit None false false None)
                  end
        end
    end) by (clear L; subst w; unfold parse_optional; cbv beta iota; change (String.eqb (String "-" r) "") with false; cbv beta iota zeta; reflexivity).
  rewrite U. clear U. destruct (partition_spec w) as [P1 P2]. cbn zeta. unfold resolve.
  assert (Lq : is_long (fst (partition w)) = true). { rewrite Er. cbn. reflexivity. }
  destruct (lookup w) as [a|] eqn:E.
  - pose proof E as E'. apply lookup_iff, (long_entry w L) in E'. rewrite (partition_none w) by (rewrite E'; apply name_lacks). cbn [fst snd]. rewrite E, L. reflexivity.
  - destruct (snd (partition w)) as [v|] eqn:S.
    + destruct (lookup (fst (partition w))) as [a|]; [rewrite Lq; reflexivity|]. unfold option_tuples. rewrite L. cbn zeta. rewrite S.
      destruct (filter _ _) as [|e [|e2 l]] eqn:F; cbn [map]; try reflexivity. assert (K : In e (filter (fun e => starts (fst (partition w)) (fst e)) option_strings)) by (rewrite F; left; reflexivity). apply filter_In in K as [_ K]. rewrite (long_starts _ _ Lq K). reflexivity.
    + rewrite <- P2, E. unfold option_tuples. rewrite L. cbn zeta. rewrite S, <- P2.
      destruct (filter _ _) as [|e [|e2 l]] eqn:F; cbn [map]; try reflexivity. assert (K : In e (filter (fun e => starts w (fst e)) option_strings)) by (rewrite F; left; reflexivity). apply filter_In in K as [_ K]. rewrite (long_starts _ _ L K). reflexivity.
Qed.
Lemma short_tuples c r : c <> "-"%char -> letter c = None \/ r <> "" -> option_tuples (String "-" (String c r)) = match letter c with Some a => [mkHit (Some a) false false (Some r)] | None => [] end.
Proof.
  intros N R. unfold option_tuples. replace (is_long (String "-" (String c r))) with false by (symmetry; apply not_true_iff_false; intros L; apply starts_iff in L; destruct L as [x E]; injection E as E _; contradiction).
  assert (S2 : substring 0 2 (String "-" (String c r)) = String "-" (String c "")) by (destruct r; reflexivity). rewrite S2.
  replace (substring 2 (String.length (String "-" (String c r)) - 2) (String "-" (String c r))) with r by (cbn [String.length substring]; replace (S (S (String.length r)) - 2)%nat with (String.length r) by lia; symmetry; apply sub0).
  destruct (letter c) as [a|] eqn:E.
  - assert (HR : r <> "") by (destruct R as [R|R]; [discriminate|exact R]). destruct r as [|x r]; [contradiction|]. assert (K := proj2 (letter_iff c _) (ex_intro _ a (conj E eq_refl))). cbn in K. repeat (destruct K as [K|K]; [injection K as <- K; apply (f_equal (fun n => n)) in K; destruct a; try discriminate K; reflexivity|]). destruct K.
  - clear R. assert (H : forall b, ~ In (String "-" (String c ""), b) option_strings) by (intros b Hb; apply lookup_iff in Hb; unfold letter in E; congruence).
    assert (G : forall l, incl l option_strings -> flat_map (fun e => if String.eqb (fst e) (String "-" (String c "")) then [mkHit (Some (snd e)) (is_long (fst e)) false (Some r)] else if starts (String "-" (String c r)) (fst e) then [mkHit (Some (snd e)) (is_long (fst e)) false None] else []) l = []).
    { induction l as [|[s b] l IH]; intros HI; [reflexivity|]. cbn [flat_map fst snd]. rewrite IH by (intros x Hx; apply HI; right; exact Hx). assert (Hs : In (s, b) option_strings) by (apply HI; left; reflexivity).
      destruct (String.eqb s (String "-" (String c ""))) eqn:Q; [apply String.eqb_eq in Q; subst s; exfalso; exact (H b Hs)|]. destruct (starts (String "-" (String c r)) s) eqn:T; [|reflexivity].
      exfalso. apply starts_iff in T. destruct T as [x ->]. apply String.eqb_neq in Q. destruct (is_long ((String "-" (String c r)) ++ x)%string) eqn:L; [apply starts_iff in L; destruct L as [y L]; injection L as L _; contradiction|].
      cbn in Hs. repeat (destruct Hs as [Hs|Hs]; [first [injection Hs as Hs; congruence|injection Hs as Hc Hr _; destruct r; [destruct x; [subst c; apply Q; reflexivity|discriminate Hr]|discriminate Hr]]|]). destruct Hs. }
    apply G. intros x Hx. exact Hx.
Qed.
Lemma short_class c r : c <> "-"%char -> parse_optional (String "-" (String c r)) =
  match letter c with
  | Some a => Option (match r with EmptyString => mkHit (Some a) false false None | String e v => if Ascii.eqb e "=" then mkHit (Some a) false true (Some v) else mkHit (Some a) false false (Some r) end)
  | None => if negative_number (String "-" (String c r)) then Argument else if has_space (String "-" (String c r)) then Argument else Option (mkHit None false false None)
  end.
Proof.
  intros N. unfold parse_optional.
  assert (NL : forall s, is_long (String "-" (String c s)) = false) by (intros s; apply not_true_iff_false; intros L; apply starts_iff in L; destruct L as [x E]; injection E as E _; contradiction).
  assert (LK : forall s, s <> "" -> lookup (String "-" (String c s)) = None).
  { intros s Hs. destruct (lookup _) as [b|] eqn:E; [|reflexivity]. exfalso. apply lookup_iff in E. destruct (is_long (String "-" (String c s))) eqn:L; [rewrite NL in L; discriminate|]. cbn in E. repeat (destruct E as [E|E]; [first [injection E as E; congruence|injection E as Ec Es _; destruct s; [contradiction|discriminate Es]]|]). destruct E. }
  destruct r as [|e r'].
  - fold (letter c). destruct (letter c) as [a|] eqn:E; [rewrite NL; reflexivity|]. replace (String.eqb (String c "") "") with false by reflexivity. cbn [partition fst snd]. replace (Ascii.eqb "-" "=") with false by reflexivity.
    destruct (Ascii.eqb c "=") eqn:C; cbn [fst snd].
    + apply Ascii.eqb_eq in C. subst c. reflexivity.
    + rewrite (short_tuples c "" N (or_introl E)), E. reflexivity.
  - rewrite (LK (String e r')) by discriminate. replace (String.eqb (String c (String e r')) "") with false by reflexivity. cbn zeta.
    assert (CE : letter c <> None -> Ascii.eqb c "=" = false). { intros K. apply Ascii.eqb_neq. intros ->. apply K. reflexivity. }
    destruct (Ascii.eqb c "=") eqn:C.
    { apply Ascii.eqb_eq in C. subst c. cbn [partition]. replace (Ascii.eqb "-" "=") with false by reflexivity. replace (Ascii.eqb "=" "=") with true by reflexivity. cbn [fst snd]. replace (lookup "-") with (@None action) by reflexivity. rewrite short_tuples by (first [exact N|left; reflexivity]). reflexivity. }
    cbn [partition]. replace (Ascii.eqb "-" "=") with false by reflexivity. rewrite C. destruct (Ascii.eqb e "=") eqn:EE.
    + cbn [fst snd]. fold (letter c). destruct (letter c) as [a|] eqn:E; [rewrite NL; reflexivity|]. rewrite (short_tuples c (String e r') N (or_introl E)), E. reflexivity.
    + cbn [fst snd]. rewrite (LK (String e (fst (partition r')))) by discriminate.
      replace (match snd (partition r') with Some _ | None => match option_tuples (String "-" (String c (String e r'))) with [] => if negative_number (String "-" (String c (String e r'))) then Argument else if has_space (String "-" (String c (String e r'))) then Argument else Option (mkHit None false false None) | [h] => Option h | _ => Ambiguous end end) with
        (match option_tuples (String "-" (String c (String e r'))) with [] => if negative_number (String "-" (String c (String e r'))) then Argument else if has_space (String "-" (String c (String e r'))) then Argument else Option (mkHit None false false None) | [h] => Option h | _ => Ambiguous end) by (destruct (snd (partition r')); reflexivity).
      assert (NE : String e r' <> "") by discriminate. pose proof (short_tuples c (String e r') N (or_intror NE)) as ST. clear - ST. revert ST. generalize (option_tuples (String "-" (String c (String e r')))). intros l ->. destruct (letter c) as [a|]; cbv beta iota; reflexivity.
Qed.

(** * Values and options *)
Lemma digit_iff c : digit c = true <-> (48 <= nat_of_ascii c <= 57)%nat.
Proof. unfold digit. rewrite andb_true_iff, !Nat.leb_le. tauto. Qed.
Lemma skip_spec s : exists a, decimal a /\ s = (a ++ skip_digits s)%string.
Proof.
  induction s as [|c s (a & D & E)]; [exists ""; split; [exact I|reflexivity]|]. cbn [skip_digits]. destruct (digit c) eqn:Q; [|exists ""; split; [exact I|reflexivity]].
  exists (String c a). split; [split; [apply digit_iff; exact Q|exact D]|]. cbn [append]. f_equal. exact E.
Qed.
Lemma skip_app a s : decimal a -> skip_digits (a ++ s)%string = skip_digits s.
Proof. induction a as [|c a IH]; [reflexivity|]. intros [H1 H2]. cbn [append skip_digits]. rewrite (proj2 (digit_iff c) H1). auto. Qed.
Lemma at_end_iff s : at_end s = true <-> s = "" \/ s = String (ascii_of_nat 10) "".
Proof. unfold at_end. rewrite orb_true_iff, !String.eqb_eq. tauto. Qed.
Lemma some_digits_iff s : some_digits s = true <-> exists a e, a <> "" /\ decimal a /\ s = (a ++ e)%string /\ (e = "" \/ e = String (ascii_of_nat 10) "").
Proof.
  unfold some_digits. split.
  - destruct s as [|c r]; [discriminate|]. rewrite andb_true_iff, digit_iff, at_end_iff. intros [H1 H2]. destruct (skip_spec r) as (a & D & E). exists (String c a), (skip_digits r). split; [discriminate|]. split; [split; assumption|]. split; [cbn; f_equal; exact E|exact H2].
  - intros (a & e & N & D & -> & H). destruct a as [|c a]; [contradiction|]. destruct D as [D1 D2]. cbn [append]. rewrite (proj2 (digit_iff c) D1). rewrite (skip_app a e D2). destruct H as [-> | ->]; reflexivity.
Qed.
Lemma dot_match s (f : string -> bool) : match s with String "." q => f q | _ => false end = match s with String c q => Ascii.eqb c "." && f q | EmptyString => false end.
Proof. destruct s as [|c q]; [reflexivity|]. destruct c as [[] [] [] [] [] [] [] []]; reflexivity. Qed.
Lemma negative_iff r : negative_number (String "-" r) = true <-> negative (String "-" r).
Proof.
  cbn [negative_number]. rewrite dot_match, orb_true_iff, some_digits_iff. unfold negative. split.
  - intros [(a & e & N & D & -> & H)|H].
    + exists e. split; [exact H|]. left. exists a. auto.
    + destruct (skip_digits r) as [|c q] eqn:E; [discriminate|]. rewrite andb_true_iff, Ascii.eqb_eq, some_digits_iff in H. destruct H as [-> (b & e & N & D & -> & H)]. destruct (skip_spec r) as (a & Da & Er). exists e. split; [exact H|]. right. exists a, b. split; [exact N|]. split; [exact Da|]. split; [exact D|]. cbn. f_equal. rewrite Er at 1. rewrite E. reflexivity.
  - intros (e & H & [(a & N & D & E)|(a & b & N & Da & Db & E)]).
    + left. exists a, e. injection E as ->. auto.
    + right. cbn in E. injection E as ->. rewrite (skip_app a _ Da). change (skip_digits (String "." (b ++ e))) with (String "." (b ++ e)). cbv beta iota. change (Ascii.eqb "." ".") with true. cbn [andb]. rewrite some_digits_iff. exists b, e. auto.
Qed.
Lemma space_iff s : has_space s = true <-> ~ lacks " " s.
Proof.
  induction s as [|c s IH]; cbn; [split; [discriminate|intros H; exfalso; apply H; exact I]|]. rewrite orb_true_iff, Ascii.eqb_eq, IH. destruct (ascii_dec c " "); tauto.
Qed.
Lemma short_like c r : c <> "-"%char -> (like_option (String "-" (String c r)) <-> letter c <> None).
Proof.
  intros N. split.
  - intros [(c' & n & r' & H & E)|(h & n & _ & [x ->] & _ & [E|[v E]])].
    + injection E as -> ->. apply letter_iff in H as (a & H & _). congruence.
    + exfalso. injection E as E _. contradiction.
    + exfalso. injection E as E _. contradiction.
  - intros H. left. destruct (letter c) as [a|] eqn:E; [|contradiction]. exists c, (name_of a), r. split; [apply letter_iff; eauto|reflexivity].
Qed.
Lemma all_lack n : In n all_names -> lacks "=" n.
Proof. intros H. destruct (in_name n H) as [a ->]. apply name_lacks. Qed.
Lemma long_head w : is_long w = true -> is_long (fst (partition w)) = true.
Proof. intros L. apply starts_iff in L. destruct L as [r ->]. reflexivity. Qed.
Lemma long_like w : is_long w = true -> (like_option w <-> resolve (fst (partition w)) <> None).
Proof.
  intros L. pose proof (long_head w L) as Lh. destruct (partition_spec w) as [P1 P2]. split.
  - intros [(c & n & r & H & E)|(h & n & Hn & Hb & Hh & E)].
    + exfalso. subst w. apply starts_iff in L. destruct L as [x E]. injection E as -> _. cbn in H. repeat (destruct H as [H|H]; [discriminate H|]). destruct H.
    + assert (LH : lacks "=" h) by (exact (begins_lacks _ _ _ Hh (all_lack n Hn))). assert (EH : fst (partition w) = h) by (destruct E as [->|[v ->]]; [rewrite (partition_none h LH)|rewrite (partition_some h v LH)]; reflexivity). rewrite EH. intros K. rewrite EH in Lh. apply (resolve_none h Lh) with (m := n) in K; [exact (K Hh)|exact Hn].
  - intros H. right. destruct (filter (fun e => starts (fst (partition w)) (fst e)) option_strings) as [|[s a] l] eqn:F.
    + exfalso. apply H. apply (resolve_none _ Lh). apply (matches_none _ Lh). exact F.
    + assert (K : In (s, a) (filter (fun e => starts (fst (partition w)) (fst e)) option_strings)) by (rewrite F; left; reflexivity). apply filter_In in K as [K1 K2]. cbn [fst] in K2. apply (long_entry s (long_starts _ _ Lh K2)) in K1. subst s. exists (fst (partition w)), (name_of a). split; [apply name_in|]. split; [apply starts_iff; exact Lh|]. split; [apply starts_iff; exact K2|].
      destruct (snd (partition w)) as [v|]; [right; exists v; exact P2|left; exact P2].
Qed.
Lemma word_cases w : ~ begins "-" w \/ w = "-" \/ is_long w = true \/ exists c r, c <> "-"%char /\ w = String "-" (String c r).
Proof.
  destruct w as [|a w]; [left; intros [r E]; discriminate|]. destruct (ascii_dec a "-") as [->|N]; [|left; intros [r E]; injection E as -> _; contradiction].
  destruct w as [|c r]; [auto|]. destruct (ascii_dec c "-") as [->|N]; [right; right; left; reflexivity|]. right; right; right. exists c, r. auto.
Qed.
Lemma not_dash w : ~ begins "-" w -> parse_optional w = Argument.
Proof.
  intros H. destruct w as [|a w]; [reflexivity|]. assert (N : a <> "-"%char) by (intros ->; apply H; exists w; reflexivity). clear H. unfold parse_optional. destruct a as [[] [] [] [] [] [] [] []]; try reflexivity. contradiction N; reflexivity.
Qed.
Theorem argument_iff w : parse_optional w = Argument <-> plain w.
Proof.
  unfold plain. destruct (word_cases w) as [H|[->|[L|(c & r & N & ->)]]].
  - rewrite (not_dash w H). tauto.
  - split; [auto|reflexivity].
  - rewrite (long_class w L). cbn zeta. assert (B : begins "-" w /\ w <> "-") by (apply starts_iff in L; destruct L as [r ->]; split; [exists (String "-" r); reflexivity|discriminate]).
    destruct B as [B1 B2]. assert (exists r, w = String "-" r) as [r E] by (destruct B1 as [r ->]; exists r; reflexivity).
    pose proof (long_like w L) as LL. pose proof (negative_iff r) as NI. rewrite <- E in NI. pose proof (space_iff w) as SI.
    destruct (resolve (fst (partition w))) as [[a|]|].
    + split; [discriminate|]. intros [K|[K|[_ K]]]; [contradiction|contradiction|]. exfalso. apply K. apply LL. discriminate.
    + split; [discriminate|]. intros [K|[K|[_ K]]]; [contradiction|contradiction|]. exfalso. apply K. apply LL. discriminate.
    + assert (NL : ~ like_option w) by (intros K; apply LL in K; apply K; reflexivity). destruct (negative_number w), (has_space w).
      * split; [|reflexivity]. intros _. right; right. split; [left; apply NI; reflexivity|exact NL].
      * split; [|reflexivity]. intros _. right; right. split; [left; apply NI; reflexivity|exact NL].
      * split; [|reflexivity]. intros _. right; right. split; [right; apply SI; reflexivity|exact NL].
      * split; [discriminate|]. intros [K|[K|[[K|K] _]]]; try contradiction; [apply NI in K|apply SI in K]; discriminate.
  - rewrite (short_class c r N). pose proof (short_like c r N) as LL. pose proof (negative_iff (String c r)) as NI. pose proof (space_iff (String "-" (String c r))) as SI. destruct (letter c) as [a|].
    + split; [discriminate|]. intros [K|[K|[_ K]]]; [exfalso; apply K; exists (String c r); reflexivity|discriminate|]. exfalso. apply K. apply LL. discriminate.
    + assert (NL : ~ like_option (String "-" (String c r))) by (intros K; apply LL in K; apply K; reflexivity). destruct (negative_number (String "-" (String c r))), (has_space (String "-" (String c r))).
      * split; [|reflexivity]. intros _. right; right. split; [left; apply NI; reflexivity|exact NL].
      * split; [|reflexivity]. intros _. right; right. split; [left; apply NI; reflexivity|exact NL].
      * split; [|reflexivity]. intros _. right; right. split; [right; apply SI; reflexivity|exact NL].
      * split; [discriminate|]. intros [K|[K|[[K|K] _]]]; [exfalso; apply K; exists (String c r); reflexivity|discriminate| |]; [apply NI in K|apply SI in K]; discriminate.
Qed.

(** * Letters *)
Definition settings (l : list (action * option string)) : list (string * option string) := map (fun x => (name_of (fst x), snd x)) l.
Definition g (a : action) (r : string) : chain :=
  match r with
  | EmptyString => Next [] a
  | String e v => if Ascii.eqb e "=" then consume a false true v else consume a false false r
  end.
Lemma consume_zero a c r : takes a = Zero -> consume a false false (String c r) = if Ascii.eqb c "-" then Wrong else match letter c with None => Whole [(a, None)] true | Some b => after a (g b r) end.
Proof. intros H. cbn [consume]. rewrite H. cbn [orb]. destruct (Ascii.eqb c "-"); [reflexivity|]. unfold letter, g. destruct (lookup _); [|reflexivity]. destruct r as [|e v]; [reflexivity|]. destruct (Ascii.eqb e "="); reflexivity. Qed.
Lemma consume_value a b s r : takes a <> Zero -> consume a b s r = Whole [(a, Some r)] false.
Proof. intros H. destruct r; cbn [consume]; destruct (takes a); try contradiction; reflexivity. Qed.
Lemma consume_sep a b r : takes a = Zero -> consume a b true r = Wrong.
Proof. intros H. destruct r; cbn [consume]; rewrite H; [reflexivity|]. destruct b; reflexivity. Qed.
Lemma g_cases a r : g a r =
  match r with
  | EmptyString => Next [] a
  | String e v =>
      if Ascii.eqb e "=" then match takes a with Zero => Wrong | _ => Whole [(a, Some v)] false end
      else match takes a with
           | Zero => if Ascii.eqb e "-" then Wrong else match letter e with None => Whole [(a, None)] true | Some b => after a (g b v) end
           | _ => Whole [(a, Some r)] false
           end
  end.
Proof.
  unfold g at 1. destruct r as [|e v]; [reflexivity|]. destruct (Ascii.eqb e "=").
  - destruct (takes a) eqn:T; [apply consume_value; congruence|apply consume_sep; exact T|apply consume_value; congruence].
  - destruct (takes a) eqn:T; [apply consume_value; congruence|apply consume_zero; exact T|apply consume_value; congruence].
Qed.
Lemma cons_by c a w ss n : letter c = Some a -> takes a = Zero -> a <> AHelp -> by_letter (String "-" w) ss n -> by_letter (String "-" (String c w)) ((name_of a, None) :: ss) n.
Proof.
  intros L Z N B. inversion B as [s ss' c0 n' HS HI E1 E2 E3]. subst. change (String c (s ++ String c0 ""))%string with (String c s ++ String c0 "")%string. constructor; [|exact HI]. constructor; [apply letter_iff; eauto|apply switch_iff; auto|exact HS].
Qed.
Lemma g_next r : forall c a l b, letter c = Some a -> g a r = Next l b -> (forall v, ~ In (AHelp, v) l) -> by_letter (String "-" (String c r)) (settings l) (name_of b).
Proof.
  induction r as [|e v IH]; intros c a l b L G NH; rewrite g_cases in G.
  - injection G as <- <-. change (String c "") with ("" ++ String c "")%string. constructor; [constructor|apply letter_iff; eauto].
  - destruct (Ascii.eqb e "="); [destruct (takes a); discriminate|]. destruct (takes a) eqn:T; try discriminate. destruct (Ascii.eqb e "-"); [discriminate|]. destruct (letter e) as [b'|] eqn:Le; [|discriminate].
    destruct (g b' v) as [|l' bb|l' bb] eqn:G'; try discriminate. injection G as <- <-. cbn [settings map fst snd]. apply cons_by; [exact L|exact T|intros ->; apply (NH None); left; reflexivity|]. apply (IH e b' l' bb Le G'). intros x Hx. apply (NH x). right. exact Hx.
Qed.
Lemma g_whole r : forall c a l, letter c = Some a -> g a r = Whole l false -> (forall v, ~ In (AHelp, v) l) ->
  exists w ss n v, settings l = ss ++ [(n, Some v)] /\ valued n /\ by_letter (String "-" w) ss n /\ (String c r = (w ++ "=" ++ v)%string \/ (v <> "" /\ ~ begins "=" v /\ String c r = (w ++ v)%string)).
Proof.
  induction r as [|e v IH]; intros c a l L G NH; rewrite g_cases in G; [discriminate|].
  assert (B : by_letter (String "-" (String c "")) [] (name_of a)) by (change (String c "") with ("" ++ String c "")%string; constructor; [constructor|apply letter_iff; eauto]).
  destruct (Ascii.eqb e "=") eqn:E.
  - apply Ascii.eqb_eq in E. subst e. destruct (takes a) eqn:T; try discriminate; injection G as <-; exists (String c ""), [], (name_of a), v; (split; [reflexivity|]; split; [apply valued_iff; congruence|]; split; [exact B|]; left; reflexivity).
  - apply Ascii.eqb_neq in E. destruct (takes a) eqn:T.
    + injection G as <-. exists (String c ""), [], (name_of a), (String e v). split; [reflexivity|]. split; [apply valued_iff; congruence|]. split; [exact B|]. right. split; [discriminate|]. split; [intros [x K]; injection K as -> _; contradiction|reflexivity].
    + destruct (Ascii.eqb e "-"); [discriminate|]. destruct (letter e) as [b'|] eqn:Le; [|discriminate]. destruct (g b' v) as [|l' bb|l' bb] eqn:G'; try discriminate. injection G as <- ->.
      destruct (IH e b' l' Le G') as (w & ss & n & x & S1 & S2 & S3 & S4); [intros y Hy; apply (NH y); right; exact Hy|].
      exists (String c w), ((name_of a, None) :: ss), n, x. split; [cbn; f_equal; exact S1|]. split; [exact S2|]. split; [apply cons_by; auto; intros ->; apply (NH None); left; reflexivity|]. destruct S4 as [S4|(S4 & S5 & S6)]; [left; cbn; f_equal; exact S4|right; split; [exact S4|]; split; [exact S5|cbn; f_equal; exact S6]].
    + injection G as <-. exists (String c ""), [], (name_of a), (String e v). split; [reflexivity|]. split; [apply valued_iff; congruence|]. split; [exact B|]. right. split; [discriminate|]. split; [intros [x K]; injection K as -> _; contradiction|reflexivity].
Qed.
(* conversely, switches followed by a letter and its rest *)
Definition afters (l : list (action * option string)) (c : chain) : chain := fold_right (fun x => after (fst x)) c l.
Lemma letter_not c a : letter c = Some a -> c <> "-"%char /\ c <> "="%char.
Proof. intros H. split; intros ->; discriminate H. Qed.
Lemma g_letters s ss c0 b t : switch_letters s ss -> letter c0 = Some b ->
  exists c r a l, (s ++ String c0 t)%string = String c r /\ letter c = Some a /\ settings l = ss /\ (forall x, In x l -> snd x = None /\ takes (fst x) = Zero /\ fst x <> AHelp) /\ g a r = afters l (g b t).
Proof.
  intros HS L. induction HS as [|c n s ss HI HW HS (c' & r & a & l & E & La & El & Hl & G)].
  - exists c0, t, b, []. split; [reflexivity|]. split; [exact L|]. split; [reflexivity|]. split; [intros x []|reflexivity].
  - apply letter_iff in HI as (a0 & La0 & ->). apply switch_iff in HW as [T NH]. exists c, (s ++ String c0 t)%string, a0, ((a0, None) :: l). split; [reflexivity|]. split; [exact La0|]. split; [cbn; f_equal; exact El|]. split; [intros x [<-|Hx]; [cbn; auto|auto]|].
    rewrite E, g_cases. destruct (letter_not _ _ La) as [N1 N2]. apply Ascii.eqb_neq in N1, N2. rewrite N2, T, N1, La, G. reflexivity.
Qed.
Lemma afters_next l m b : (forall x, In x l -> snd x = None) -> afters l (Next m b) = Next (l ++ m) b.
Proof. induction l as [|[a v] l IH]; intros H; [reflexivity|]. cbn [afters fold_right fst]. unfold afters in IH. rewrite IH by (intros x Hx; apply H; right; exact Hx). cbn. rewrite (H (a, v) (or_introl eq_refl) : v = None). reflexivity. Qed.
Lemma afters_whole l m b : (forall x, In x l -> snd x = None) -> afters l (Whole m b) = Whole (l ++ m) b.
Proof. induction l as [|[a v] l IH]; intros H; [reflexivity|]. cbn [afters fold_right fst]. unfold afters in IH. rewrite IH by (intros x Hx; apply H; right; exact Hx). cbn. rewrite (H (a, v) (or_introl eq_refl) : v = None). reflexivity. Qed.

(** * Words *)
(* what a word does; None: it is a value, unknown or ambiguous *)
Definition word (w : string) : option chain :=
  match parse_optional w with
  | Option h => match h_action h with Some a => Some (match h_arg h with Some ex => consume a (h_long h) (h_sep h) ex | None => Next [] a end) | None => None end
  | _ => None
  end.
Lemma word_short c r a : letter c = Some a -> word (String "-" (String c r)) = Some (g a r).
Proof. intros L. unfold word. rewrite (short_class c r (proj1 (letter_not _ _ L))), L. destruct r as [|e v]; [reflexivity|]. cbn [g]. destruct (Ascii.eqb e "="); reflexivity. Qed.
Lemma word_long w a : is_long w = true -> resolve (fst (partition w)) = Some (Some a) -> word w = Some (match snd (partition w) with Some v => match takes a with Zero => Wrong | _ => Whole [(a, Some v)] false end | None => Next [] a end).
Proof.
  intros L R. unfold word. rewrite (long_class w L). cbn zeta. rewrite R. cbn [h_action h_arg h_long h_sep]. destruct (snd (partition w)) as [v|]; [|reflexivity]. f_equal. destruct (takes a) eqn:T; [apply consume_value; congruence|apply consume_sep; exact T|apply consume_value; congruence].
Qed.
Lemma word_inv w k : word w = Some k -> (is_long w = true /\ exists a, resolve (fst (partition w)) = Some (Some a)) \/ exists c r a, w = String "-" (String c r) /\ letter c = Some a.
Proof.
  unfold word. intros H. destruct (word_cases w) as [N|[->|[L|(c & r & N & ->)]]].
  - rewrite (not_dash w N) in H. discriminate.
  - discriminate.
  - left. split; [exact L|]. rewrite (long_class w L) in H. cbn zeta in H. destruct (resolve _) as [[a|]|]; [eauto|discriminate|]. destruct (negative_number w); [discriminate|]. destruct (has_space w); discriminate.
  - right. rewrite (short_class c r N) in H. destruct (letter c) as [a|] eqn:E; [exists c, r, a; auto|]. destruct (negative_number (String "-" (String c r))); [discriminate|]. destruct (has_space (String "-" (String c r))); discriminate.
Qed.
Lemma next_spells w l b : word w = Some (Next l b) -> (forall v, ~ In (AHelp, v) l) -> spells w (settings l) (name_of b).
Proof.
  intros H NH. destruct (word_inv w _ H) as [(L & a & R)|(c & r & a & -> & L)].
  - rewrite (word_long w a L R) in H. destruct (partition_spec w) as [P1 P2]. destruct (snd (partition w)); [destruct (takes a); discriminate|]. injection H as <- <-. cbn. constructor. rewrite <- P2 in R. apply resolve_iff; assumption.
  - rewrite (word_short c r a L) in H. injection H as H. apply spells_letter. exact (g_next r c a l b L H NH).
Qed.
Lemma whole_spells w l : word w = Some (Whole l false) -> (forall v, ~ In (AHelp, v) l) ->
  exists h ss n v, settings l = ss ++ [(n, Some v)] /\ valued n /\ ((spells h ss n /\ w = (h ++ "=" ++ v)%string) \/ (by_letter h ss n /\ v <> "" /\ ~ begins "=" v /\ w = (h ++ v)%string)).
Proof.
  intros H NH. destruct (word_inv w _ H) as [(L & a & R)|(c & r & a & -> & L)].
  - rewrite (word_long w a L R) in H. destruct (partition_spec w) as [P1 P2]. destruct (snd (partition w)) as [v|]; [|discriminate]. pose proof (long_head w L) as Lh. exists (fst (partition w)), [], (name_of a), v.
    destruct (takes a) eqn:T; try discriminate; injection H as <-; (split; [reflexivity|]; split; [apply valued_iff; congruence|]; left; split; [constructor; apply resolve_iff; assumption|exact P2]).
  - rewrite (word_short c r a L) in H. injection H as H. destruct (g_whole r c a l L H NH) as (w & ss & n & v & S1 & S2 & S3 & S4). exists (String "-" w), ss, n, v. split; [exact S1|]. split; [exact S2|]. destruct S4 as [S4|(S4 & S5 & S6)]; [left; split; [apply spells_letter; exact S3|cbn; f_equal; exact S4]|right; split; [exact S3|]; split; [exact S4|]; split; [exact S5|cbn; f_equal; exact S6]].
Qed.
Definition quiet (l : list (action * option string)) : Prop := forall x, In x l -> snd x = None /\ takes (fst x) = Zero /\ fst x <> AHelp.
Lemma spells_next w ss n : spells w ss n -> exists l b, word w = Some (Next l b) /\ settings l = ss /\ n = name_of b /\ quiet l.
Proof.
  intros [w' n' HL|w' ss' n' HB].
  - destruct HL as (H1 & H2 & H3 & H4). destruct (in_name n' H1) as [a ->]. assert (L : is_long w' = true) by (apply starts_iff; exact H2). assert (LE : lacks "=" w') by exact (begins_lacks _ _ _ H3 (name_lacks a)).
    exists [], a. split; [|split; [reflexivity|split; [reflexivity|intros x []]]]. rewrite (word_long w' a L); rewrite (partition_none w' LE); cbn [fst snd]; [reflexivity|]. apply (resolve_iff w' a L). split; [exact H1|]. auto.
  - inversion HB as [s ss'' c n'' HS HI]. subst. apply letter_iff in HI as (b & Lb & ->). destruct (g_letters s ss' c b "" HS Lb) as (c' & r & a & l & E & La & El & Hl & G). exists l, b. rewrite E, (word_short c' r a La), G. change (g b "") with (Next [] b). rewrite afters_next by (intros x Hx; apply (Hl x Hx)). rewrite app_nil_r. split; [reflexivity|]. split; [exact El|]. split; [reflexivity|exact Hl].
Qed.
Lemma spells_equals w ss n v : spells w ss n -> valued n -> exists l b, word (w ++ "=" ++ v)%string = Some (Whole (l ++ [(b, Some v)]) false) /\ settings l = ss /\ n = name_of b /\ quiet l /\ takes b <> Zero.
Proof.
  intros [w' n' HL|w' ss' n' HB] HV.
  - destruct HL as (H1 & H2 & H3 & H4). destruct (in_name n' H1) as [a ->]. assert (L : is_long w' = true) by (apply starts_iff; exact H2). assert (LE : lacks "=" w') by exact (begins_lacks _ _ _ H3 (name_lacks a)). apply valued_iff in HV.
    exists [], a. split; [|split; [reflexivity|split; [reflexivity|split; [intros x []|exact HV]]]]. assert (L2 : is_long (w' ++ "=" ++ v)%string = true) by (apply starts_iff; apply begins_trans with w'; [exact H2|eexists; reflexivity]). rewrite (word_long _ a L2); rewrite (partition_some w' v LE); cbn [fst snd app]; [destruct (takes a); [reflexivity|contradiction|reflexivity]|]. apply (resolve_iff w' a L). split; [exact H1|]. auto.
  - inversion HB as [s ss'' c n'' HS HI]. subst. apply letter_iff in HI as (b & Lb & ->). apply valued_iff in HV. destruct (g_letters s ss' c b ("=" ++ v) HS Lb) as (c' & r & a & l & E & La & El & Hl & G). exists l, b. cbn [append] in *. rewrite sapp_assoc. cbn [append]. rewrite E, (word_short c' r a La), G. rewrite g_cases. replace (Ascii.eqb "=" "=") with true by reflexivity.
    split; [|split; [exact El|split; [reflexivity|split; [exact Hl|exact HV]]]]. destruct (takes b); [|contradiction|]; rewrite afters_whole by (intros x Hx; apply (Hl x Hx)); reflexivity.
Qed.
Lemma spells_attached w ss n v : by_letter w ss n -> valued n -> v <> "" -> ~ begins "=" v -> exists l b, word (w ++ v)%string = Some (Whole (l ++ [(b, Some v)]) false) /\ settings l = ss /\ n = name_of b /\ quiet l /\ takes b <> Zero.
Proof.
  intros HB HV NE NB. inversion HB as [s ss'' c n'' HS HI]. subst. apply letter_iff in HI as (b & Lb & ->). apply valued_iff in HV. destruct (g_letters s ss c b v HS Lb) as (c' & r & a & l & E & La & El & Hl & G). exists l, b. cbn [append]. rewrite sapp_assoc. cbn [append]. rewrite E, (word_short c' r a La), G.
  destruct v as [|e v]; [contradiction|]. rewrite g_cases. assert (EE : Ascii.eqb e "=" = false) by (apply Ascii.eqb_neq; intros ->; apply NB; exists v; reflexivity). rewrite EE.
  split; [|split; [exact El|split; [reflexivity|split; [exact Hl|exact HV]]]]. destruct (takes b); [|contradiction|]; rewrite afters_whole by (intros x Hx; apply (Hl x Hx)); reflexivity.
Qed.
