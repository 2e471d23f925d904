(* Lemmas: names of trace files and of operations (C74), grouping (C75). *)
From Coq Require Import ZArith Lia Bool String Ascii List Permutation.
From Verif Require Import Util Files SpecFiles Fabric Analyze SpecAnalyze FilesProofs FabricProofs.
Import ListNotations.
Local Open Scope string_scope.
Open Scope Z_scope.

(** * Numbers *)
Fixpoint alldig (s : string) : bool := match s with EmptyString => true | String c s' => is_digit c && alldig s' end.
Definition val (c : ascii) : Z := Z.of_nat (nat_of_ascii c) - 48.
Lemma is_digit_spec c : is_digit c = true -> 0 <= val c < 10 /\ digit (val c) = String c "".
Proof. destruct c as [[] [] [] [] [] [] [] []]; intros H; vm_compute in H; try discriminate H; split; vm_compute; auto; split; congruence. Qed.
Lemma digit_is d : 0 <= d < 10 -> exists c, digit d = String c "" /\ is_digit c = true /\ val c = d.
Proof. revert d. apply (ten_cases (fun d => exists c, digit d = String c "" /\ is_digit c = true /\ val c = d)); eexists; split; [reflexivity|split; reflexivity| | | | | | | | | | | | | | | | | |]; try reflexivity; split; reflexivity. Qed.
Lemma alldig_app a b : alldig (a ++ b) = alldig a && alldig b.
Proof. induction a as [|c a IH]; [reflexivity|]. cbn. rewrite IH. apply andb_assoc. Qed.
Lemma int_of_snoc s c : forall acc, int_of acc (s ++ String c "") = 10 * int_of acc s + val c.
Proof. induction s as [|x s IH]; intros acc; [reflexivity|]. cbn [int_of String.append]. apply IH. Qed.
Lemma reads_spec n s : reads n s -> alldig s = true /\ s <> "" /\ int_of 0 s = n.
Proof.
  induction 1 as [d Hd|n d s Hd H (A & N & V)]; destruct (digit_is d Hd) as (c & -> & D & E).
  - cbn [alldig int_of]. rewrite D. repeat split; [discriminate|]. exact E.
  - rewrite alldig_app, A. cbn [alldig]. rewrite D, int_of_snoc, V, E. repeat split. destruct s; discriminate.
Qed.
Lemma snoc_case s : s <> "" -> exists t c, s = t ++ String c "".
Proof. induction s as [|c s IH]; [congruence|]. intros _. destruct s as [|d s]; [exists "", c; reflexivity|]. destruct IH as (t & e & E); [discriminate|]. rewrite E. exists (String c t), e. reflexivity. Qed.
Lemma reads_int s : alldig s = true -> s <> "" -> reads (int_of 0 s) s.
Proof.
  remember (String.length s) as n eqn:L. revert s L. induction n as [n IH] using (well_founded_induction lt_wf). intros s L A N.
  destruct (snoc_case s N) as (t & c & ->). rewrite alldig_app in A. apply andb_prop in A. destruct A as [A B]. cbn in B. rewrite andb_true_r in B.
  destruct (is_digit_spec c B) as [R D]. rewrite int_of_snoc. destruct t as [|x t].
  - cbn [int_of String.append]. rewrite <- D. constructor. exact R.
  - rewrite <- D. constructor; [exact R|]. apply (IH (String.length (String x t))); [|reflexivity|exact A|discriminate]. subst n. rewrite slen_app. cbn. lia.
Qed.
Lemma reads_inj n m s : reads n s -> reads m s -> n = m.
Proof. intros H K. destruct (reads_spec _ _ H) as (_ & _ & E). destruct (reads_spec _ _ K) as (_ & _ & F). congruence. Qed.
Definition nodig (s : string) : Prop := match s with String c _ => is_digit c = false | EmptyString => True end.
Lemma span_ok a r : alldig a = true -> nodig r -> span_digits (a ++ r) = (a, r).
Proof.
  intros A N. induction a as [|c a IH].
  - destruct r as [|c r]; [reflexivity|]. cbn in *. rewrite N. reflexivity.
  - cbn in A. apply andb_prop in A. destruct A as [B A]. cbn. rewrite B, (IH A). reflexivity.
Qed.
Lemma span_sound s : s = fst (span_digits s) ++ snd (span_digits s) /\ alldig (fst (span_digits s)) = true.
Proof. induction s as [|c s (E & A)]; [split; reflexivity|]. cbn [span_digits]. destruct (is_digit c) eqn:D; [|split; reflexivity]. cbn [fst snd String.append alldig]. rewrite <- E, D, A. split; reflexivity. Qed.
Lemma number_ok n a r : reads n a -> nodig r -> number (a ++ r) = Some (n, r).
Proof.
  intros H N. destruct (reads_spec _ _ H) as (A & E & V). unfold number. rewrite (span_ok _ _ A N). cbn [fst snd]. destruct a; [congruence|]. rewrite V. reflexivity.
Qed.
Lemma number_sound s n r : number s = Some (n, r) -> exists a, s = a ++ r /\ reads n a.
Proof.
  unfold number. destruct (span_sound s) as (E & A). destruct (span_digits s) as [a q]. cbn [fst snd] in *. destruct a as [|c a]; [discriminate|]. intros H. injection H as <- <-.
  exists (String c a). split; [exact E|]. exact (reads_int (String c a) A ltac:(discriminate)).
Qed.
Lemma strip_spec p : forall s r, strip p s = Some r <-> s = p ++ r.
Proof.
  induction p as [|a p IH]; intros s r; cbn [strip String.append].
  - destruct s; split; congruence.
  - destruct s as [|b s]; [split; discriminate|]. destruct (Ascii.eqb_spec a b) as [->|N].
    + rewrite IH. split; intros H; [rewrite H; reflexivity|]. injection H. auto.
    + split; [discriminate|]. intros H. injection H. congruence.
Qed.
Lemma strip_none p s : strip p s = None <-> forall r, s <> p ++ r.
Proof. split; intros H; [intros r E; apply strip_spec in E; congruence|]. destruct (strip p s) eqn:E; [|reflexivity]. apply strip_spec in E. destruct (H _ E). Qed.

(** * The end of a name *)
Definition ending (id : Z) (t : option Z) (s : string) : Prop := exists b c, reads id b /\ trace_part t c /\ s = "ID" ++ b ++ c ++ ".json".
Lemma match_end_spec s id t : match_end s = Some (id, t) <-> ending id t s.
Proof.
  unfold match_end. split.
  - intros H. destruct (strip "ID" s) as [s1|] eqn:E1; [|discriminate]. apply strip_spec in E1. destruct (number s1) as [[i s2]|] eqn:E2; [|discriminate].
    destruct (number_sound _ _ _ E2) as (b & -> & R). destruct (strip "_traceID" s2) as [s3|] eqn:E3.
    + apply strip_spec in E3. destruct (number s3) as [[j s4]|] eqn:E4; [|discriminate]. destruct (number_sound _ _ _ E4) as (c & -> & R').
      destruct (String.eqb_spec s4 ".json"); [|discriminate]. injection H as <- <-. exists b, ("_traceID" ++ c). repeat split; [exact R|constructor; exact R'|]. subst. reflexivity.
    + destruct (String.eqb_spec s2 ".json"); [|discriminate]. injection H as <- <-. exists b, "". repeat split; [exact R|constructor|]. subst. reflexivity.
  - intros (b & c & R & T & ->). rewrite (proj2 (strip_spec "ID" _ (b ++ c ++ ".json")) eq_refl). destruct T as [|t c R'].
    + rewrite (number_ok _ _ _ R); [|reflexivity]. cbn. reflexivity.
    + rewrite (number_ok _ _ _ R); [|reflexivity]. rewrite (proj2 (strip_spec "_traceID" _ (c ++ ".json"))) by (cbn; reflexivity).
      rewrite (number_ok _ _ _ R') by reflexivity. reflexivity.
Qed.
Lemma ending_inj i t j u s : ending i t s -> ending j u s -> i = j /\ t = u.
Proof. intros H K. apply match_end_spec in H. apply match_end_spec in K. rewrite H in K. injection K as -> ->. auto. Qed.
(* no underscore before an I *)
Fixpoint calm (s : string) : bool :=
  match s with EmptyString => true | String c s' => negb (Ascii.eqb c "_" && match s' with String d _ => Ascii.eqb d "I" | EmptyString => false end) && calm s' end.
Lemma calm_digits a r : alldig a = true -> calm r = true -> calm (a ++ r) = true.
Proof.
  intros A C. induction a as [|c a IH]; [exact C|]. cbn in A. apply andb_prop in A. destruct A as [D A]. cbn [String.append calm]. rewrite (IH A), andb_true_r.
  destruct (Ascii.eqb_spec c "_") as [->|]; [discriminate|]. reflexivity.
Qed.
Lemma ending_calm i t s : ending i t s -> calm s = true.
Proof.
  intros (b & c & R & T & ->). destruct (reads_spec _ _ R) as (B & NB & _). cbn [String.append calm Ascii.eqb Bool.eqb andb negb].
  apply calm_digits; [exact B|]. destruct T as [|t c R']; [reflexivity|].
  destruct (reads_spec _ _ R') as (B' & _). change (("_traceID" ++ c) ++ ".json") with ("_traceID" ++ (c ++ ".json")). cbn [String.append calm Ascii.eqb Bool.eqb andb negb].
  apply calm_digits; [exact B'|reflexivity].
Qed.
Lemma calm_not w s : calm (w ++ "_" ++ "I" ++ s) = false.
Proof. induction w as [|c w IH]; [reflexivity|]. cbn [String.append calm] in *. rewrite IH. apply andb_false_r. Qed.
Lemma ending_alone i t j u w s : ending i t s -> ~ ending j u (w ++ "_" ++ s).
Proof. intros (b & c & R & T & ->) K. apply ending_calm in K. pose proof (calm_not w (String "D" (b ++ c ++ ".json"))) as N. cbn [String.append] in K, N. congruence. Qed.
Lemma ending_split i t j u s s' : ending i t s -> ending j u s' -> forall w w', w ++ "_" ++ s = w' ++ "_" ++ s' -> w = w' /\ s = s'.
Proof.
  intros H K w. induction w as [|c w IH]; intros [|c' w'] E; cbn [String.append] in E.
  - injection E as E. auto.
  - injection E as <- E. exfalso. rewrite E in H. exact (ending_alone _ _ _ _ _ _ K H).
  - injection E as -> E. exfalso. rewrite <- E in K. exact (ending_alone _ _ _ _ _ _ H K).
  - injection E as -> E. destruct (IH _ E) as [-> ->]. auto.
Qed.
(** * The operation *)
Fixpoint mem (c : ascii) (s : string) : bool := match s with EmptyString => false | String d s' => Ascii.eqb c d || mem c s' end.
Lemma mem_spec c s : mem c s = true <-> exists x y, s = x ++ String c y.
Proof.
  split.
  - induction s as [|d s IH]; [discriminate|]. cbn. destruct (Ascii.eqb_spec c d) as [->|]; [exists "", s; reflexivity|]. cbn. intros H. destruct (IH H) as (x & y & ->). exists (String d x), y. reflexivity.
  - intros (x & y & ->). induction x as [|d x IH]; cbn; [rewrite Ascii.eqb_refl; reflexivity|]. rewrite IH. apply orb_true_r.
Qed.
Lemma is_word_mem c : is_word c = mem c word_chars. Proof. destruct c as [[] [] [] [] [] [] [] []]; vm_compute; reflexivity. Qed.
Fixpoint allword (s : string) : bool := match s with EmptyString => true | String c s' => is_word c && allword s' end.
Lemma word_spec w : word w <-> allword w = true.
Proof.
  unfold word. split.
  - induction w as [|c w IH]; [reflexivity|]. intros H. cbn. rewrite IH.
    + rewrite is_word_mem. rewrite (proj2 (mem_spec _ _)); [reflexivity|]. exact (H "" c w eq_refl).
    + intros a d b ->. exact (H (String c a) d b eq_refl).
  - induction w as [|c w IH]; intros A a d b E; [destruct a; discriminate|]. cbn in A. apply andb_prop in A. destruct A as [B A]. destruct a as [|x a].
    + injection E as -> ->. apply mem_spec. rewrite <- is_word_mem. exact B.
    + injection E as -> ->. exact (IH A _ _ _ eq_refl).
Qed.
Lemma match_op_sound s w id t : match_op s = Some (w, (id, t)) -> exists r, s = w ++ "_" ++ r /\ allword w = true /\ ending id t r.
Proof.
  revert w. induction s as [|c s IH]; intros w H; [discriminate|]. cbn [match_op] in H. destruct (if is_word c then match_op s else None) as [[v r]|] eqn:E.
  - destruct (is_word c) eqn:B; [|discriminate]. injection H as <- ->. destruct (IH _ E) as (r & -> & A & K). exists r. cbn [allword]. rewrite B. auto.
  - destruct (Ascii.eqb_spec c "_") as [->|]; [|discriminate]. destruct (match_end s) as [[i u]|] eqn:M; [|discriminate]. injection H as <- <- <-. exists s. repeat split. apply match_end_spec. exact M.
Qed.
Lemma match_op_some w r : allword w = true -> (exists id t, ending id t r) -> match_op (w ++ "_" ++ r) <> None.
Proof.
  intros A (id & t & K). induction w as [|c w IH].
  - cbn [String.append match_op]. destruct (if is_word "_" then match_op r else None) as [[v x]|]; [discriminate|]. apply match_end_spec in K. rewrite K. discriminate.
  - cbn in A. apply andb_prop in A. destruct A as [B A]. cbn [String.append match_op]. rewrite B. specialize (IH A). cbn [String.append] in IH. destruct (match_op (w ++ String "_" r)) as [[v x]|]; [discriminate|congruence].
Qed.
Lemma match_op_spec s w id t : match_op s = Some (w, (id, t)) <-> exists r, s = w ++ "_" ++ r /\ allword w = true /\ ending id t r.
Proof.
  split; [apply match_op_sound|]. intros (r & -> & A & K). destruct (match_op (w ++ "_" ++ r)) as [[v [i u]]|] eqn:E.
  - apply match_op_sound in E. destruct E as (r' & E & A' & K'). destruct (ending_split _ _ _ _ _ _ K K' _ _ E) as [-> <-]. destruct (ending_inj _ _ _ _ _ K K') as [-> ->]. reflexivity.
  - exfalso. revert E. apply match_op_some; eauto.
Qed.
(** * Base names *)
Lemma after_none s : after_last_slash s = None <-> ~ occurs "/" s.
Proof.
  induction s as [|c s IH].
  - split; [|reflexivity]. intros _ (a & b & E). destruct a; discriminate.
  - cbn [after_last_slash]. split.
    + intros H (a & b & E). destruct (after_last_slash s) eqn:F; [discriminate|]. destruct (Ascii.eqb_spec c "/") as [->|N]; [discriminate|].
      destruct a as [|d a]; [injection E; congruence|]. injection E as -> E. apply (proj1 IH eq_refl). exists a, b. exact E.
    + intros H. destruct (after_last_slash s) eqn:F.
      * exfalso. assert (N : ~ occurs "/" s) by (intros (a & b & E); apply H; exists (String c a), b; rewrite E; reflexivity). apply (proj2 IH) in N. discriminate.
      * destruct (Ascii.eqb_spec c "/") as [->|N]; [exfalso; apply H; exists "", s; reflexivity|reflexivity].
Qed.
Lemma after_some s r : after_last_slash s = Some r -> (exists d, s = d ++ "/" ++ r) /\ ~ occurs "/" r.
Proof.
  revert r. induction s as [|c s IH]; intros r H; [discriminate|]. cbn [after_last_slash] in H. destruct (after_last_slash s) as [q|] eqn:F.
  - injection H as <-. destruct (IH _ eq_refl) as [(d & ->) N]. split; [exists (String c d); reflexivity|exact N].
  - destruct (Ascii.eqb_spec c "/") as [->|]; [|discriminate]. injection H as <-. split; [exists ""; reflexivity|]. apply after_none. exact F.
Qed.
Lemma basename_in dir name path : file_in dir name path -> basename path = name.
Proof.
  intros [[->| ->] N]; unfold basename.
  - enough (E : after_last_slash (dir ++ "/" ++ name) = Some name) by (rewrite E; reflexivity). induction dir as [|c d IH].
    + cbn. rewrite (proj2 (after_none name) N). reflexivity.
    + cbn [String.append after_last_slash] in *. rewrite IH. reflexivity.
  - rewrite (proj2 (after_none name) N). reflexivity.
Qed.
Lemma file_in_basename path : exists dir, file_in dir (basename path) path.
Proof.
  unfold basename. destruct (after_last_slash path) as [r|] eqn:E.
  - destruct (after_some _ _ E) as [(d & ->) N]. exists d. split; [left; reflexivity|exact N].
  - exists "". split; [right; reflexivity|]. apply after_none. exact E.
Qed.
Theorem extract_spec path dev op id t : extractDataFromFilename path = Some (dev, op, id, t) <-> trace_name dev op id t (basename path).
Proof.
  unfold extractDataFromFilename. generalize (basename path) as s. intros s. split.
  - intros H. destruct (strip "noc_trace_dev" s) as [s1|] eqn:E1; [|discriminate]. apply strip_spec in E1. destruct (number s1) as [[dv s2]|] eqn:E2; [|discriminate].
    destruct (number_sound _ _ _ E2) as (a & -> & R). destruct (strip "_" s2) as [s3|] eqn:E3; [|discriminate]. apply strip_spec in E3. subst s2 s.
    destruct (match_op s3) as [[w [i u]]|] eqn:M.
    + injection H as <- <- <- <-. apply match_op_spec in M. destruct M as (r & -> & A & b & c & B & T & ->). exists a, b, c, (w ++ "_").
      repeat split; [exact R|constructor; apply word_spec; exact A|exact B|exact T|]. rewrite !sapp_assoc. reflexivity.
    + destruct (match_end s3) as [[i u]|] eqn:K; [|discriminate]. injection H as <- <- <- <-. apply match_end_spec in K. destruct K as (b & c & B & T & ->).
      exists a, b, c, "". repeat split; [exact R|constructor|exact B|exact T].
  - intros (a & b & c & o & R & O & B & T & ->). rewrite (proj2 (strip_spec "noc_trace_dev" _ (a ++ "_" ++ o ++ "ID" ++ b ++ c ++ ".json")) eq_refl).
    rewrite (number_ok _ _ _ R) by reflexivity. rewrite (proj2 (strip_spec "_" _ (o ++ "ID" ++ b ++ c ++ ".json")) eq_refl).
    assert (K : ending id t ("ID" ++ b ++ c ++ ".json")) by (exists b, c; auto). destruct O as [|w A].
    + change ("" ++ "ID" ++ b ++ c ++ ".json") with ("ID" ++ b ++ c ++ ".json"). destruct (match_op ("ID" ++ b ++ c ++ ".json")) as [[w [i u]]|] eqn:M.
      * exfalso. apply match_op_spec in M. destruct M as (r & E & _ & K'). rewrite E in K. exact (ending_alone _ _ _ _ _ _ K' K).
      * rewrite (proj2 (match_end_spec _ _ _) K). reflexivity.
    + assert (M : match_op ((w ++ "_") ++ "ID" ++ b ++ c ++ ".json") = Some (w, (id, t))).
      { apply match_op_spec. exists ("ID" ++ b ++ c ++ ".json"). rewrite sapp_assoc. repeat split; [apply word_spec; exact A|exact K]. }
      rewrite M. reflexivity.
Qed.
Theorem extract_name dir path name dev op id t : file_in dir name path -> (extractDataFromFilename path = Some (dev, op, id, t) <-> trace_name dev op id t name).
Proof. intros H. rewrite extract_spec, (basename_in _ _ _ H). reflexivity. Qed.

(** * Identifiers *)
Lemma lor_add a d : 0 <= d < 1024 -> Z.lor (Z.shiftl a 10) d = a * 1024 + d.
Proof.
  intros H. assert (L : Z.land (Z.shiftl a 10) d = 0).
  { apply Z.bits_inj'. intros n Hn. rewrite Z.land_spec, Z.bits_0. destruct (Z.ltb_spec n 10).
    - rewrite Z.shiftl_spec_low by lia. reflexivity.
    - destruct (Z.eq_dec d 0) as [->|]; [rewrite Z.bits_0; apply andb_false_r|]. rewrite (Z.bits_above_log2 d n); [apply andb_false_r|lia|].
      apply Z.log2_lt_pow2; [lia|]. apply Z.lt_le_trans with (2 ^ 10); [lia|]. apply Z.pow_le_mono_r; lia. }
  rewrite <- Z.lxor_lor by exact L. rewrite <- Z.add_nocarry_lxor by exact L. rewrite Z.shiftl_mul_pow2 by lia. lia.
Qed.
Theorem runtime_id : (forall op dev, 0 <= dev < 1024 -> get_device_id (get_program_runtime_id op dev) = dev /\ get_ttnn_op_id (get_program_runtime_id op dev) = op) /\
  (forall p, get_program_runtime_id (get_ttnn_op_id p) (get_device_id p) = p /\ 0 <= get_device_id p < 1024).
Proof.
  assert (L : forall p, Z.land p 1023 = p mod 1024) by (intros p; change 1023 with (Z.ones 10); rewrite Z.land_ones by lia; reflexivity).
  assert (S : forall p, Z.shiftr p 10 = p / 1024) by (intros p; rewrite Z.shiftr_div_pow2 by lia; reflexivity).
  unfold get_device_id, get_ttnn_op_id, get_program_runtime_id. split.
  - intros op dev H. rewrite (lor_add _ _ H), L, S. split.
    + rewrite Z.add_comm, Z.mod_add by lia. apply Z.mod_small. exact H.
    + rewrite Z.div_add_l by lia. rewrite Z.div_small by lia. lia.
  - intros p. rewrite L, S. pose proof (Z.mod_pos_bound p 1024 ltac:(lia)). split; [|lia]. rewrite lor_add by lia. rewrite (Z.div_mod p 1024) at 3 by lia. lia.
Qed.
Lemma ttnn_div p : get_ttnn_op_id p = p / 1024. Proof. unfold get_ttnn_op_id. rewrite Z.shiftr_div_pow2 by lia. reflexivity. Qed.
Lemma numeral_reads n s : numeral n s -> reads n s. Proof. induction 1; [apply reads_digit|apply reads_more]; assumption. Qed.
Lemma uid_reads u : usual u -> exists a, reads (uid_op u) a /\
  (match uid_trace u with Some t => exists b, reads t b /\ uid_str u = "ID" ++ a ++ "_traceID" ++ b | None => uid_str u = "ID" ++ a end).
Proof.
  destruct u as [n t]. intros [N T]. cbn [uid_op uid_trace] in *. exists (decimal n). split; [apply numeral_reads, decimal_numeral; exact N|].
  unfold uid_str, py_str. cbn [uid_op uid_trace]. rewrite (proj2 (Z.ltb_ge n 0) N). destruct t as [t|].
  - exists (decimal t). split; [apply numeral_reads, decimal_numeral; lia|]. rewrite (proj2 (Z.eqb_neq t 0)) by lia. rewrite (proj2 (Z.ltb_ge t 0)) by lia. reflexivity.
  - rewrite sapp_nil. reflexivity.
Qed.
Lemma uid_ending u : usual u -> ending (uid_op u) (uid_trace u) (uid_str u ++ ".json").
Proof.
  intros H. destruct (uid_reads u H) as (a & R & T). destruct (uid_trace u) as [t|].
  - destruct T as (b & B & ->). exists a, ("_traceID" ++ b). repeat split; [exact R|constructor; exact B|]. rewrite !sapp_assoc. reflexivity.
  - rewrite T. exists a, "". repeat split; [exact R|constructor].
Qed.
Theorem uid_str_inj u v : usual u -> usual v -> uid_str u = uid_str v -> u = v.
Proof.
  intros U V E. pose proof (uid_ending u U) as A. pose proof (uid_ending v V) as B. rewrite E in A. destruct (ending_inj _ _ _ _ _ A B) as [P Q].
  destruct u, v. cbn in *. congruence.
Qed.
(* also with the name of the operation before it *)
Lemma named_uid_inj o o' u v : usual u -> usual v -> o ++ "_" ++ uid_str u = o' ++ "_" ++ uid_str v -> o = o' /\ u = v.
Proof.
  intros U V E. apply (f_equal (fun s => s ++ ".json")) in E. rewrite !sapp_assoc in E. destruct (ending_split _ _ _ _ _ _ (uid_ending u U) (uid_ending v V) _ _ E) as [-> F].
  split; [reflexivity|]. apply uid_str_inj; [exact U|exact V|]. exact (sapp_inj_r _ _ _ F).
Qed.
