(* The report on a device (C92). *)
From Coq Require Import ZArith Arith QArith Qabs Lia ZifyBool ZifyNat String List Bool Ascii Floats.SpecFloat.
From Verif Require Import Base Arith Util Device Workload Rates Stats SpecFiles Files FilesProofs SpecText Text TextProofs.
Import ListNotations.
Local Open Scope string_scope.
Open Scope Z_scope.
Ltac Zify.zify_post_hook ::= idtac.

(** * Texts made of lines *)
Definition lines_text (l : list string) : string := fold_right (fun x r => x ++ nl ++ r) "" l.
Lemma lines_app l l' : lines_text (l ++ l')%list = lines_text l ++ lines_text l'.
Proof. induction l as [|x l IH]; [reflexivity|]. cbn [List.app lines_text fold_right]. fold (lines_text (l ++ l')%list). rewrite IH. fold (lines_text l). rewrite !sapp_assoc. reflexivity. Qed.
Lemma lines_inj l : forall l', Forall (fun x => lacksb (ascii_of_nat 10) x = true) l -> Forall (fun x => lacksb (ascii_of_nat 10) x = true) l' -> lines_text l = lines_text l' -> l = l'.
Proof.
  induction l as [|x l IH]; intros [|y l'] H H' E; [reflexivity|destruct y; discriminate E|destruct x; discriminate E|]. inversion H as [|? ? H1 H2]. inversion H' as [|? ? H1' H2']. subst.
  cbn [lines_text fold_right] in E. fold (lines_text l) in E. fold (lines_text l') in E. destruct (peel _ _ _ _ _ H1 H1' E) as [-> E2]. f_equal. exact (IH _ H2 H2' E2).
Qed.
Lemma line_in label value tail sp l : blanks sp -> In (sp ++ label ++ ": " ++ value ++ tail) l -> has_line (lines_text l) label value tail.
Proof.
  intros B H. apply in_split in H as (l1 & l2 & ->). destruct l1 as [|z l1] using rev_ind.
  - exists "", sp, (lines_text l2). split; [exact B|]. cbn [List.app lines_text fold_right]. fold (lines_text l2). rewrite !sapp_assoc. reflexivity.
  - exists (newline ++ lines_text l1 ++ z), sp, (lines_text l2). split; [exact B|]. rewrite lines_app. cbn [lines_text fold_right]. fold (lines_text l2). rewrite lines_app. cbn [lines_text fold_right]. rewrite !sapp_assoc. reflexivity.
Qed.

Section Report.
  Context (nf : spec_float -> string).
  Notation pc := (percent nf).
  Definition report_lines (ds : dstats f32A) : list string :=
    List.app ["  congestion impact: " ++ pc (getCongestionImpact f32A ds) ++ "%"; "   estimated cycles: " ++ int5 (ds_est f32A ds); "      golden cycles: " ++ int5 (ds_golden f32A ds)]
     (List.app (if 0 <? ds_golden f32A ds then ["   cycle pred error: " ++ pc (ds_err f32A ds) ++ "%"] else [])
     [""; "       DRAM BW Util: " ++ pc (ds_dram f32A ds) ++ "% (using golden)"; "       DRAM BW Util: " ++ pc (ds_dram_sim f32A ds) ++ "% (using estimated)";
      "        ETH BW Util: " ++ pc (getAggregateEthBwUtil f32A ds) ++ "%"; "";
      "      avg Link util: " ++ pc (ds_avg_lu f32A ds) ++ "%"; " avg Mcast link util: " ++ pc (ds_avg_mc f32A ds) ++ "%"; "      max Link util: " ++ pc (ds_max_lu f32A ds) ++ "%"; "";
      "    avg Link demand: " ++ pc (ds_avg_ld f32A ds) ++ "%"; "    max Link demand: " ++ pc (ds_max_ld f32A ds) ++ "%"; "";
      "    avg NIU  demand: " ++ pc (ds_avg_nd f32A ds) ++ "%"; "    max NIU  demand: " ++ pc (ds_max_nd f32A ds) ++ "%"]).
  Definition wall_lines (verbose : bool) (us : Z) : list string := if verbose then [""; "   wallclock time: " ++ int5 us ++ " us"] else [].
  Lemma report_text verbose us ds : stats_to_string nf verbose us ds = lines_text (report_lines ds ++ wall_lines verbose us)%list.
  Proof.
    unfold stats_to_string, report_lines, wall_lines, lines_text. rewrite !fold_right_app. destruct (0 <? ds_golden f32A ds), verbose; cbn [fold_right List.app]; rewrite ?sapp_assoc; reflexivity.
  Qed.

  Lemma near_lacks c v s : lacksb c "0123456789.- " = true -> nearest_tenth v s -> lacksb c s = true /\ s <> "".
  Proof.
    intros H (q & d & (pad & g & n & u & B & _ & L & N & D & -> & _) & _). split; [|intros E; rewrite E in L; cbn in L; lia]. cbn [lacksb] in H. rewrite !andb_true_iff in H.
    destruct H as (H0 & H1 & H2 & H3 & H4 & H5 & H6 & H7 & H8 & H9 & HP & HM & HS & _).
    assert (HD : lacksb c "0123456789" = true) by (cbn [lacksb]; rewrite H0, H1, H2, H3, H4, H5, H6, H7, H8, H9; reflexivity).
    rewrite !lacksb_app, (blanks_lacks c pad (proj1 (negb_true_iff _) HS) B), (numeral_lacks c n u HD N), (digit_lacks c d HD D). cbn [lacksb]. rewrite HP. destruct g; cbn [lacksb]; rewrite ?HM; reflexivity.
  Qed.
  Lemma int_lacks c n s : lacksb c "0123456789.- " = true -> integer_text n s -> lacksb c s = true /\ s <> "".
  Proof.
    intros H (pad & u & B & _ & L & N & ->). split; [|intros E; rewrite E in L; cbn in L; lia]. cbn [lacksb] in H. rewrite !andb_true_iff in H.
    destruct H as (H0 & H1 & H2 & H3 & H4 & H5 & H6 & H7 & H8 & H9 & HP & HM & HS & _).
    assert (HD : lacksb c "0123456789" = true) by (cbn [lacksb]; rewrite H0, H1, H2, H3, H4, H5, H6, H7, H8, H9; reflexivity).
    rewrite !lacksb_app, (blanks_lacks c pad (proj1 (negb_true_iff _) HS) B), (numeral_lacks c n u HD N). reflexivity.
  Qed.
  Lemma pc_lacks c x : lacksb c "0123456789.- " = true -> finite x -> lacksb c (pc x) = true /\ pc x <> "".
  Proof. intros H F. exact (near_lacks c _ _ H (percent_nearest nf x F)). Qed.
  Lemma i5_lacks c n : lacksb c "0123456789.- " = true -> 0 <= n -> lacksb c (int5 n) = true /\ int5 n <> "".
  Proof. intros H F. exact (int_lacks c _ _ H (int5_text n F)). Qed.
  Lemma line_pc c a x b : lacksb c "0123456789.- " = true -> finite x -> lacksb c a = true -> lacksb c b = true -> lacksb c (a ++ pc x ++ b) = true.
  Proof. intros H F H1 H2. rewrite !lacksb_app, H1, H2, (proj1 (pc_lacks c x H F)). reflexivity. Qed.
  Lemma line_i5 c a n b : lacksb c "0123456789.- " = true -> 0 <= n -> lacksb c a = true -> lacksb c b = true -> lacksb c (a ++ int5 n ++ b) = true.
  Proof. intros H F H1 H2. rewrite !lacksb_app, H1, H2, (proj1 (i5_lacks c n H F)). reflexivity. Qed.

  (* the values to show one by one *)
  Lemma shown_finite ds : showable ds -> finite (getCongestionImpact f32A ds) /\ (0 < ds_golden f32A ds -> finite (ds_err f32A ds)) /\ finite (ds_dram f32A ds) /\ finite (ds_dram_sim f32A ds) /\
    finite (getAggregateEthBwUtil f32A ds) /\ finite (ds_avg_lu f32A ds) /\ finite (ds_avg_mc f32A ds) /\ finite (ds_max_lu f32A ds) /\ finite (ds_avg_ld f32A ds) /\ finite (ds_max_ld f32A ds) /\
    finite (ds_avg_nd f32A ds) /\ finite (ds_max_nd f32A ds).
  Proof.
    intros (_ & _ & H). rewrite Forall_forall in H. unfold shown in H.
    assert (G : forall a x b, In (a, x, b) (shown ds) -> finite x) by (intros a x b K; exact (H (a, x, b) K)). unfold shown in G.
    repeat match goal with |- _ /\ _ => split end; try (intros K; assert (B : (0 <? ds_golden f32A ds) = true) by lia; rewrite B in G);
    (eapply G; cbn [In List.app]; try (rewrite in_app_iff; cbn [In]); tauto).
  Qed.
  Lemma lines_plain ds : showable ds -> Forall (fun x => lacksb (ascii_of_nat 10) x = true) (report_lines ds).
  Proof.
    intros S. destruct (shown_finite ds S) as (F1 & F2 & F3 & F4 & F5 & F6 & F7 & F8 & F9 & F10 & F11 & F12). destruct S as (N1 & N2 & _). unfold report_lines.
    repeat first [apply Forall_nil | apply Forall_cons | apply Forall_app; split]; try (apply line_pc; auto; reflexivity).
    - rewrite <- (sapp_nil (int5 _)). apply line_i5; auto.
    - rewrite <- (sapp_nil (int5 _)). apply line_i5; auto.
    - destruct (Z.ltb_spec 0 (ds_golden f32A ds)); [|constructor]. constructor; [|constructor]. apply line_pc; auto.
    - reflexivity.
    - reflexivity.
    - reflexivity.
    - reflexivity.
  Qed.

  (** * Every value has its line *)
  Lemma sp_blanks n : blanks (copies n " "). Proof. apply copies_blanks. Qed.
  Theorem report_shows verbose us ds : showable ds ->
    (forall label v tail, In (label, v, tail) (shown ds) -> exists s, nearest_tenth (exact v) s /\ has_line (stats_to_string nf verbose us ds) label s tail) /\
    (exists s, integer_text (ds_est f32A ds) s /\ has_line (stats_to_string nf verbose us ds) "estimated cycles" s "") /\
    (exists s, integer_text (ds_golden f32A ds) s /\ has_line (stats_to_string nf verbose us ds) "golden cycles" s "").
  Proof.
    intros S. rewrite report_text. pose proof S as (N1 & N2 & F). split; [|split].
    - intros label v tail H. rewrite Forall_forall in F. pose proof (F _ H) as Fv. cbn in Fv. exists (pc v). split; [exact (percent_nearest nf v Fv)|]. unfold shown in H.
      assert (G : exists n, In (copies n " " ++ label ++ ": " ++ pc v ++ tail) (report_lines ds)).
      { unfold report_lines. rewrite !in_app_iff in H. destruct H as [H|[H|H]].
        - destruct H as [H|[]]. injection H as <- <- <-. exists 2%nat. apply in_or_app. left. left. reflexivity.
        - destruct (0 <? ds_golden f32A ds); [|destruct H]. destruct H as [H|[]]. injection H as <- <- <-. exists 3%nat. apply in_or_app. right. apply in_or_app. left. left. reflexivity.
        - repeat (destruct H as [H|H]; [injection H as <- <- <-|]); [..|destruct H].
          1: exists 7%nat. 2: exists 7%nat. 3: exists 8%nat. 4: exists 6%nat. 5: exists 1%nat. 6: exists 6%nat. 7: exists 4%nat. 8: exists 4%nat. 9: exists 4%nat. 10: exists 4%nat.
          all: apply in_or_app; right; apply in_or_app; right; cbn [copies]; cbn [String.append]; simpl In; tauto. }
      destruct G as (n & G). apply (line_in _ _ _ (copies n " ")); [apply copies_blanks|]. apply in_or_app. left. exact G.
    - exists (int5 (ds_est f32A ds)). split; [exact (int5_text _ N1)|]. apply (line_in _ _ _ (copies 3 " ")); [apply copies_blanks|]. apply in_or_app. left. unfold report_lines. rewrite sapp_nil. right. left. reflexivity.
    - exists (int5 (ds_golden f32A ds)). split; [exact (int5_text _ N2)|]. apply (line_in _ _ _ (copies 6 " ")); [apply copies_blanks|]. apply in_or_app. left. unfold report_lines. rewrite sapp_nil. right. right. left. reflexivity.
  Qed.

  (** * Equal reports *)
  Lemma same_pc a b x y : finite x -> finite y -> a ++ pc x ++ b = a ++ pc y ++ b -> (Qabs (exact x - exact y) <= 1 # 10)%Q.
  Proof. intros Fx Fy E. apply sapp_inj_l in E. apply sapp_inj_r in E. apply (same_tenth _ _ (pc x)); [exact (percent_nearest nf x Fx)|]. rewrite E. exact (percent_nearest nf y Fy). Qed.
  Lemma same_i5 n m : 0 <= n -> 0 <= m -> int5 n = int5 m -> n = m.
  Proof. intros Hn Hm E. apply (integer_unique n m (int5 n)); [exact (int5_text _ Hn)|]. rewrite E. exact (int5_text _ Hm). Qed.
  Lemma cons_both {X} (a a' : X) l l' : a :: l = a' :: l' -> a = a' /\ l = l'. Proof. intros E. injection E. auto. Qed.
  Lemma cond_both {X} (b : bool) (w w' : X) l l' : List.app (if b then [w] else []) l = List.app (if b then [w'] else []) l' -> (b = true -> w = w') /\ l = l'.
  Proof. destruct b; cbn [List.app]; intros E; [injection E; auto|split; [discriminate|exact E]]. Qed.
  Lemma wall_plain verbose us : 0 <= us -> Forall (fun x => lacksb (ascii_of_nat 10) x = true) (wall_lines verbose us).
  Proof. intros H. destruct verbose; [|constructor]. constructor; [reflexivity|]. constructor; [|constructor]. apply line_i5; auto. Qed.
  Theorem report_equal verbose us us' ds ds' : showable ds -> showable ds' -> 0 <= us -> 0 <= us' ->
    stats_to_string nf verbose us ds = stats_to_string nf verbose us' ds' ->
    ds_est f32A ds' = ds_est f32A ds /\ ds_golden f32A ds' = ds_golden f32A ds /\ (verbose = true -> us' = us) /\
    Forall2 (fun a b => fst (fst a) = fst (fst b) /\ snd a = snd b /\ (Qabs (exact (snd (fst a)) - exact (snd (fst b))) <= 1 # 10)%Q) (shown ds) (shown ds').
  Proof.
    intros S S' U U' E. rewrite !report_text in E. apply lines_inj in E; [|apply Forall_app; split; [apply lines_plain; exact S|apply wall_plain; exact U]|apply Forall_app; split; [apply lines_plain; exact S'|apply wall_plain; exact U']].
    destruct (shown_finite ds S) as (F1 & F2 & F3 & F4 & F5 & F6 & F7 & F8 & F9 & F10 & F11 & F12). destruct (shown_finite ds' S') as (F1' & F2' & F3' & F4' & F5' & F6' & F7' & F8' & F9' & F10' & F11' & F12').
    destruct S as (N1 & N2 & _). destruct S' as (N1' & N2' & _). unfold report_lines, shown in *. rewrite <- !app_assoc in E. cbn [List.app] in E |- *.
    apply cons_both in E as [E1 E]. apply cons_both in E as [E2 E]. apply cons_both in E as [E3 E]. apply sapp_inj_l in E2. apply sapp_inj_l in E3.
    apply (same_i5 _ _ N1 N1') in E2. apply (same_i5 _ _ N2 N2') in E3.
    rewrite <- E3 in E. apply cond_both in E as [E0 E].
    do 14 (apply cons_both in E; let K := fresh "K" in destruct E as [K E]).
    split; [auto|]. split; [auto|]. split.
    { intros ->. cbn [wall_lines] in E. apply cons_both in E as [_ E]. apply cons_both in E as [E _]. apply sapp_inj_l in E. apply sapp_inj_r in E. symmetry. apply (same_i5 _ _ U U' E). }
    rewrite <- E3. constructor; [cbn [fst snd]; split; [reflexivity|]; split; [reflexivity|]; eapply same_pc; [exact F1|exact F1'|exact E1]|].
    apply Forall2_app.
    - destruct (Z.ltb_spec 0 (ds_golden f32A ds)); [|constructor]. constructor; [|constructor]. cbn [fst snd]. split; [reflexivity|]. split; [reflexivity|]. eapply same_pc; [apply F2; lia|apply F2'; lia|apply E0; lia].
    - repeat (apply Forall2_cons; [cbn [fst snd]; split; [reflexivity|]; split; [reflexivity|]; eapply same_pc; eassumption|]). constructor.
  Qed.

  (** * The line of the prediction error *)
  Fixpoint norr (prev : bool) (s : string) : bool :=
    match s with "" => true | String a s => let r := Ascii.eqb a "r" in negb (prev && r) && norr r s end.
  Lemma norr_pair a : forall prev b, norr prev (a ++ "rr" ++ b) = false.
  Proof. induction a as [|x a IH]; intros prev b; [cbn; destruct prev; reflexivity|]. change (negb (prev && Ascii.eqb x "r") && norr (Ascii.eqb x "r") (a ++ "rr" ++ b) = false). rewrite IH. apply andb_false_r. Qed.
  Lemma norr_free v : lacksb "r" v = true -> v <> "" -> forall prev b, norr prev (v ++ b) = norr false b.
  Proof.
    induction v as [|x v IH]; intros H NE prev b; [contradiction|]. cbn [lacksb] in H. apply andb_prop in H as [H1 H2]. apply negb_true_iff in H1. cbn [String.append norr]. rewrite H1, andb_false_r. cbn [negb andb].
    destruct v as [|y v]; [reflexivity|]. apply IH; [exact H2|discriminate].
  Qed.
  Lemma norr_pc x prev b : finite x -> norr prev (pc x ++ b) = norr false b.
  Proof. intros F. destruct (pc_lacks "r" x eq_refl F) as [H N]. apply norr_free; assumption. Qed.
  Lemma norr_i5 n prev b : 0 <= n -> norr prev (int5 n ++ b) = norr false b.
  Proof. intros F. destruct (i5_lacks "r" n eq_refl F) as [H N]. apply norr_free; assumption. Qed.
  Theorem report_error verbose us ds : showable ds -> 0 <= us -> (occurs "cycle pred error" (stats_to_string nf verbose us ds) <-> 0 < ds_golden f32A ds).
  Proof.
    intros S U. split.
    - intros (a & b & E). destruct (Z_lt_le_dec 0 (ds_golden f32A ds)) as [L|L]; [exact L|exfalso].
      assert (T : norr false (stats_to_string nf verbose us ds) = true); [|rewrite E in T].
      + destruct (shown_finite ds S) as (F1 & _ & F3 & F4 & F5 & F6 & F7 & F8 & F9 & F10 & F11 & F12). destruct S as (N1 & N2 & _). unfold stats_to_string. destruct (Z.ltb_spec 0 (ds_golden f32A ds)); [lia|].
        unfold nl. destruct verbose; repeat first [reflexivity | rewrite norr_pc by assumption | rewrite norr_i5 by assumption | progress cbn [String.append norr Ascii.eqb Bool.eqb andb negb]].
      + replace ("cycle pred error" ++ b) with ("cycle pred e" ++ "rr" ++ "or" ++ b) in T by reflexivity. rewrite <- sapp_assoc in T. rewrite norr_pair in T. discriminate T.
    - intros L. unfold stats_to_string. assert (B : (0 <? ds_golden f32A ds) = true) by lia. rewrite B.
      exists ("  congestion impact: " ++ pc (getCongestionImpact f32A ds) ++ "%" ++ nl ++ "   estimated cycles: " ++ int5 (ds_est f32A ds) ++ nl ++ "      golden cycles: " ++ int5 (ds_golden f32A ds) ++ nl ++ "   "). eexists.
      rewrite !sapp_assoc. cbn [String.append]. do 200 f_equal.
  Qed.
  Theorem report_verbose us us' ds : 0 <= us -> exists s, integer_text us s /\ stats_to_string nf true us ds = stats_to_string nf false us' ds ++ newline ++ "   wallclock time: " ++ s ++ " us" ++ newline.
  Proof. intros U. exists (int5 us). split; [exact (int5_text _ U)|]. rewrite !report_text, lines_app. cbn [wall_lines]. rewrite app_nil_r. cbn [lines_text fold_right]. rewrite !sapp_assoc. reflexivity. Qed.
End Report.
