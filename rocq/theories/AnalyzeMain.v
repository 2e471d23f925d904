(* Theorems on the analysis of a directory (C77). *)
From Coq Require Import ZArith Lia Bool String Ascii List Permutation.
From Verif Require Import Util Files SpecFiles Fabric Analyze SpecAnalyze FilesProofs FabricProofs FabricTopology AnalyzeNames AnalyzeGroups AnalyzeStats AnalyzeProofs.
Import ListNotations.
Local Open Scope string_scope.
Open Scope Z_scope.

Lemma nodup_map_on {X Y} (f : X -> Y) l : NoDup l -> (forall x y, In x l -> In y l -> f x = f y -> x = y) -> NoDup (map f l).
Proof.
  induction 1 as [|x l N ND IH]; intros I; cbn [map]; [constructor|]. constructor.
  - intros J. apply in_map_iff in J. destruct J as (y & E & J). assert (y = x) by (apply I; [right; exact J|left; reflexivity|exact E]). subst. exact (N J).
  - apply IH. intros a b A B. apply I; right; assumption.
Qed.
Section Main.
  Context (W : Type) (npe : list (event W) -> option (list (Z * device_stats))) (unique : forall es r, npe es = Some r -> NoDup (map fst r)).
  Context (emit compress quiet show : bool) (k : nat) (dir out : string) (names : list string) (tf : topology_file).
  Context (fs : string -> option (list (event W))) (tls : string -> option (list (event W))) (files : list string).
  Context (DIR : plain_dir dir) (LIST : listing dir names files).
  Notation groups := (group_traces_ttnn files).
  Lemma analyze_inv order a : analyze W npe false emit compress quiet show k dir out names tf order fs tls = Val a ->
    exists t infos fs1 pts man tls1, TopologyGraph tf = Val t /\ pfold (merge_step W t dir) groups (fs, []) = Val (fs1, infos) /\
      fold_left (collect W npe emit compress out fs1) (order infos) ([], [], tls) = (pts, man, tls1) /\ a = mkAnalysis W pts man fs1 tls1.
  Proof.
    unfold analyze. rewrite (list_traces_spec _ _ _ DIR LIST). intros H. assert (H' : match files with [] => Raised "SystemExit" | _ => 
      pbind (TopologyGraph tf) (fun t => pbind (pfold (merge_step W t dir) groups (fs, [])) (fun merged => let '(fs0, infos) := merged in
        let '(points, manifest, tls0) := fold_left (collect W npe emit compress out fs0) (order infos) ([], [], tls) in
        pbind (if quiet then Val tt else pbind (print_stats_summary_table points show k) (fun _ => Val tt)) (fun _ => Val (mkAnalysis W points manifest fs0 tls0)))) end = Val a).
    { destruct files; exact H. }
    clear H. destruct files as [|f fl] eqn:EF; [discriminate|]. rewrite <- EF in *.
    apply (proj1 (pbind_val _ _ _)) in H'. destruct H' as (t & T & H). apply (proj1 (pbind_val _ _ _)) in H. destruct H as ([fs1 infos] & M & H).
    destruct (fold_left (collect W npe emit compress out fs1) (order infos) ([], [], tls)) as [[pts man] tls1] eqn:C. apply (proj1 (pbind_val _ _ _)) in H. destruct H as (x & _ & H). injection H as <-.
    exists t, infos, fs1, pts, man, tls1. auto.
  Qed.
  Lemma sources g f : In g groups -> In f (snd (snd g)) -> source f.
  Proof.
    intros G F. destruct g as [u [op own]]. apply operation_group in G. destruct G as [S _]. destruct (select_in _ _ _ S f F) as [I _].
    destruct LIST as (tr & _ & L). destruct (select_in _ _ _ L f I) as [_ N]. unfold source. rewrite <- not_true_iff_false, mentions_spec by discriminate. exact N.
  Qed.
  Lemma merged_path_in u : merged_path dir u = merged_in dir u. Proof. unfold merged_path, merged_in. apply join_plain. exact DIR. Qed.
  Lemma group_infos : map snd (map (info_of dir) groups) = map fst groups.
  Proof. rewrite map_map. apply map_ext. reflexivity. Qed.
  Lemma groups_nodup : NoDup (map snd (map (info_of dir) groups)).
  Proof. rewrite group_infos. apply (proj1 (groups_spec files)). Qed.
  Lemma info_in p o u : In (p, o, u) (map (info_of dir) groups) <-> p = merged_in dir u /\ exists own, operation files u o own.
  Proof.
    rewrite in_map_iff. split.
    - intros ([v [op own]] & E & J). unfold info_of in E. cbn [fst snd] in E. injection E as <- <- <-. split; [apply merged_path_in|]. exists own. apply operation_group. exact J.
    - intros (-> & own & O). exists (u, (o, own)). split; [|apply operation_group; exact O]. unfold info_of. cbn [fst snd]. rewrite merged_path_in. reflexivity.
  Qed.
  Lemma group_usual (NUM : numbered files) u op own : operation files u op own -> usual u.
  Proof. intros (S & f & r & -> & B). destruct (select_in _ _ _ S f (or_introl eq_refl)) as [I _]. eapply belongs_usual; [exact B|]. exact (NUM _ _ _ I B). Qed.
  Lemma uids_usual (NUM : numbered files) u : In u (map fst groups) -> usual u.
  Proof. intros I. apply in_map_iff in I. destruct I as ([v [op own]] & <- & I). apply operation_group in I. exact (group_usual NUM _ _ _ I). Qed.
  Lemma merged_inj u v : usual u -> usual v -> merged_in dir u = merged_in dir v -> u = v.
  Proof.
    intros U V E. unfold merged_in, in_dir in E. apply sapp_inj_l, sapp_inj_l, sapp_inj_l in E. apply sapp_inj_r in E. exact (uid_str_inj _ _ U V E).
  Qed.
  Lemma paths_nodup (NUM : numbered files) : NoDup (map (fun g : group => merged_path dir (fst g)) groups).
  Proof.
    assert (E : map (fun g : group => merged_path dir (fst g)) groups = map (merged_path dir) (map fst groups)) by (rewrite map_map; reflexivity). rewrite E. clear E. apply nodup_map_on; [apply (proj1 (groups_spec files))|]. intros u v U V E. rewrite !merged_path_in in E. apply merged_inj; [apply uids_usual; assumption|apply uids_usual; assumption|exact E].
  Qed.
  Lemma operation_fun u op own op' own' : operation files u op own -> operation files u op' own' -> op = op' /\ own = own'.
  Proof.
    intros (S & f & r & E & B) (S' & f' & r' & E' & B'). pose proof (select_fun _ _ _ _ S S') as Q. split; [|exact Q]. rewrite E, E' in Q. injection Q as <- <-. apply belongs_spec in B, B'. rewrite B in B'. injection B' as <-. reflexivity.
  Qed.
  Section Run.
    Context (order : list info -> list info) (perm : forall l, Permutation l (order l)) (a : analysis W).
    Context (RUN : analyze W npe false emit compress quiet show k dir out names tf order fs tls = Val a).
    (* without any condition on the names of operations *)
    Lemma run_points : NoDup (map fst (an_points W a)) /\
      (forall u d o s, in_points (an_points W a) u d o s <-> exists own es, operation files u o own /\ an_files W a (merged_in dir u) = Some es /\ device_result npe es d s) /\
      Permutation (an_manifest W a) (flat_map (entry W npe compress (an_files W a)) (map (info_of dir) groups)).
    Proof.
      destruct (analyze_inv _ _ RUN) as (t & infos & fs1 & pts & man & tls1 & T & M & C & ->). cbn [an_points an_files an_manifest].
      destruct (merge_fold W t dir groups DIR sources _ _ _ _ M) as (-> & _ & _). cbn [app] in C. pose proof (perm (map (info_of dir) groups)) as P.
      destruct (collect_fold W npe emit compress out fs1 unique _ _ _ _ _ _ _ C) as (C1 & C2 & C3 & _).
      { eapply Permutation_NoDup; [apply Permutation_map; exact P|apply groups_nodup]. } { constructor. } { intros ? ? _ []. }
      split; [exact C1|]. split.
      - intros u d o s. unfold in_points. rewrite C2. split.
        + intros [[]|(D & p & es & r & I & (S1 & S2) & J)]. apply (Permutation_in _ (Permutation_sym P)) in I. apply info_in in I. destruct I as (-> & own & O). exists own, es. cbn [fst] in S1. split; [exact O|]. split; [exact S1|]. split; [exact D|]. exists r. auto.
        + intros (own & es & O & F & D & r & R & J). right. split; [exact D|]. exists (merged_in dir u), es, r. split; [|split; [split; assumption|exact J]].
          apply (Permutation_in _ P). apply info_in. split; [reflexivity|]. exists own. exact O.
      - rewrite C3. cbn [app]. apply Permutation_flat_map. apply Permutation_sym. exact P.
    Qed.
    Theorem run_spec : numbered files -> exists t, TopologyGraph tf = Val t /\
      (forall u d o s, in_points (an_points W a) u d o s -> exists own, operation files u o own) /\
      (forall u op own, operation files u op own -> exists ls, loads fs own ls /\
        ((exists es, process_traces t W ls true = Val es /\ an_files W a (merged_in dir u) = Some es /\
           forall d s, in_points (an_points W a) u d op s <-> device_result npe es d s) \/
         (process_traces t W ls true = Processing /\ an_files W a (merged_in dir u) = fs (merged_in dir u)))).
    Proof.
      intros NUM. destruct run_points as (P1 & P2 & _). destruct (analyze_inv _ _ RUN) as (t & infos & fs1 & pts & man & tls1 & T & M & C & EA). exists t. split; [exact T|]. split.
      - intros u d o s I. apply P2 in I. destruct I as (own & es & O & _). exists own. exact O.
      - intros u op own O. destruct (merge_fold W t dir groups DIR sources _ _ _ _ M) as (_ & _ & G). destruct (G u op own) as (ls & L & r & R & PR); [apply operation_group; exact O|].
        exists ls. split; [exact L|]. rewrite merged_path_in in R. assert (AF : an_files W a = fs1) by (rewrite EA; reflexivity). rewrite AF in *. destruct r as [es| |e]; [| |destruct R].
        + left. exists es. specialize (R (paths_nodup NUM)). split; [exact PR|]. split; [exact R|]. intros d s. rewrite P2. split.
          * intros (own' & es' & _ & F & D). assert (es' = es) as -> by (assert (X : Some es' = Some es) by exact (eq_trans (eq_sym F) R); injection X; auto). exact D.
          * intros D. exists own, es. auto.
        + right. split; [exact PR|]. exact (R (paths_nodup NUM)).
    Qed.
    Lemma output_file op u : output_filepath compress (timeline_name op u) = timeline_file compress op u.
    Proof. unfold output_filepath, timeline_name, timeline_file. destruct compress; rewrite ?sapp_assoc, ?sapp_nil; reflexivity. Qed.
    Lemma timeline_inj op u op' v : usual u -> usual v -> timeline_file compress op u = timeline_file compress op' v -> op = op' /\ u = v.
    Proof.
      intros U V E. unfold timeline_file in E. rewrite <- !(sapp_assoc "_"), <- !sapp_assoc in E. rewrite !(sapp_assoc _ ".npeviz") in E. apply sapp_inj_r in E. rewrite !sapp_assoc in E. exact (named_uid_inj _ _ _ _ U V E).
    Qed.
    Theorem run_manifest : numbered files -> plain_dir out ->
      NoDup (map snd (an_manifest W a)) /\
      (forall n f, In (n, f) (an_manifest W a) <-> exists u op own es r, operation files u op own /\ an_files W a (merged_in dir u) = Some es /\ npe es = Some r /\
         n = uid_op u * 1024 /\ f = timeline_file compress op u) /\
      (emit = true -> forall u op own es r, operation files u op own -> an_files W a (merged_in dir u) = Some es -> npe es = Some r ->
         an_timelines W a (in_dir out (timeline_file compress op u)) = Some es).
    Proof.
      intros NUM OUT. destruct run_points as (_ & _ & PM).
      assert (MI : forall n f, In (n, f) (an_manifest W a) <-> exists u op own es r, operation files u op own /\ an_files W a (merged_in dir u) = Some es /\ npe es = Some r /\ n = uid_op u * 1024 /\ f = timeline_file compress op u).
      { intros n f. split.
        - intros I. apply (Permutation_in _ PM) in I. apply in_flat_map in I. destruct I as ([[p op] u] & I & E). apply info_in in I. destruct I as (-> & own & O). unfold entry in E.
          pose proof (success_iff W npe (an_files W a) (merged_in dir u, op, u)) as S. destruct (process_trace W npe (an_files W a) (merged_in dir u, op, u)) as [[[op' u'] r]|]; [|destruct E].
          destruct S as (-> & -> & es & S1 & S2). cbn [fst snd] in *. destruct E as [E|[]]. injection E as <- <-. exists u, op, own, es, r. rewrite output_file. auto.
        - intros (u & op & own & es & r & O & F & R & -> & ->). apply (Permutation_in _ (Permutation_sym PM)). apply in_flat_map. exists (merged_in dir u, op, u). split; [apply info_in; split; [reflexivity|eauto]|].
          unfold entry, process_trace. change (an_files W a (merged_in dir u)) with (an_files W a (merged_in dir u)). rewrite F, R. left. rewrite output_file. reflexivity. }
      split; [|split; [exact MI|]].
      - eapply Permutation_NoDup; [apply Permutation_map, Permutation_sym; exact PM|].
        assert (ND : NoDup (map (info_of dir) groups)) by (eapply NoDup_map_inv; apply groups_nodup).
        assert (US : forall i, In i (map (info_of dir) groups) -> usual (snd i)) by (intros i I; apply uids_usual; [exact NUM|]; rewrite <- group_infos; apply in_map; exact I).
        assert (OP : forall i j, In i (map (info_of dir) groups) -> In j (map (info_of dir) groups) -> snd i = snd j -> i = j).
        { intros [[p o] u] [[p' o'] u'] I J E. cbn [snd] in E. subst u'. apply info_in in I, J. destruct I as (-> & own & O), J as (-> & own' & O'). destruct (operation_fun _ _ _ _ _ O O') as [-> _]. reflexivity. }
        remember (map (info_of dir) groups) as is eqn:EI. clear EI PM MI. induction ND as [|i is NI ND IH]; [constructor|]. cbn [flat_map]. rewrite map_app.
        assert (EN : forall j, entry W npe compress (an_files W a) j = [] \/ entry W npe compress (an_files W a) j = [(uid_op (snd j) * 1024, timeline_file compress (snd (fst j)) (snd j))]).
        { intros j. unfold entry. pose proof (success_iff W npe (an_files W a) j) as S. destruct (process_trace W npe (an_files W a) j) as [[[o v] r]|]; [|left; reflexivity]. destruct S as (-> & -> & _). right. rewrite output_file. reflexivity. }
        specialize (IH (fun j J => US j (or_intror J)) (fun x y X Y => OP x y (or_intror X) (or_intror Y))).
        destruct (EN i) as [E|E]; rewrite E; cbn [map app snd]; [exact IH|]. constructor; [|exact IH]. intros J. apply in_map_iff in J. destruct J as ([n f] & E' & J). cbn [snd] in E'. subst f.
        apply in_flat_map in J. destruct J as (j & J & K). destruct (EN j) as [E2|E2]; rewrite E2 in K; [destruct K|]. destruct K as [K|[]]. injection K as _ K.
        destruct (timeline_inj _ _ _ _ (US j (or_intror J)) (US i (or_introl eq_refl)) K) as [_ U]. apply NI. rewrite (OP i j (or_introl eq_refl) (or_intror J) (eq_sym U)). exact J.
      - intros EM u op own es r O F R. destruct (analyze_inv _ _ RUN) as (t & infos & fs1 & pts & man & tls1 & T & M & C & EA). assert (AF : an_files W a = fs1) by (rewrite EA; reflexivity). rewrite EA. cbn [an_timelines].
        destruct (merge_fold W t dir groups DIR sources _ _ _ _ M) as (-> & _ & _). cbn [app] in C. pose proof (perm (map (info_of dir) groups)) as P.
        destruct (collect_fold W npe emit compress out fs1 unique _ _ _ _ _ _ _ C) as (_ & _ & _ & _ & C5).
        { eapply Permutation_NoDup; [apply Permutation_map; exact P|apply groups_nodup]. } { constructor. } { intros ? ? _ []. }
        assert (PATH : forall o v, output_filepath compress (join out (timeline_name o v)) = in_dir out (timeline_file compress o v)).
        { intros o v. rewrite (join_plain _ _ OUT). unfold in_dir. rewrite <- output_file. unfold output_filepath. destruct compress; [rewrite !sapp_assoc|]; reflexivity. }
        specialize (C5 EM). rewrite (map_ext _ (fun i => in_dir out (timeline_file compress (snd (fst i)) (snd i)))) in C5 by (intros i; apply PATH).
        assert (US : forall i, In i (map (info_of dir) groups) -> usual (snd i)) by (intros i I; apply uids_usual; [exact NUM|]; rewrite <- group_infos; apply in_map; exact I).
        assert (OP : forall i j, In i (map (info_of dir) groups) -> In j (map (info_of dir) groups) -> snd i = snd j -> i = j).
        { intros [[p o] v] [[p' o'] v'] I J E. cbn [snd] in E. subst v'. apply info_in in I, J. destruct I as (-> & own1 & O1), J as (-> & own2 & O2). destruct (operation_fun _ _ _ _ _ O1 O2) as [-> _]. reflexivity. }
        rewrite <- PATH. refine (C5 _ (merged_in dir u, op, u) es r _ _).
        + eapply Permutation_NoDup; [apply Permutation_map; exact P|]. apply nodup_map_on; [eapply NoDup_map_inv; apply groups_nodup|]. intros i j I J E. apply OP; [exact I|exact J|].
          unfold in_dir in E. apply sapp_inj_l, sapp_inj_l in E. exact (proj2 (timeline_inj _ _ _ _ (US _ I) (US _ J) E)).
        + apply (Permutation_in _ P). apply info_in. split; [reflexivity|eauto].
        + split; [cbn [fst]; rewrite <- AF; exact F|exact R].
    Qed.
  End Run.
  (* the order in which the results arrive does not matter *)
  Theorem run_order o1 o2 a1 a2 : (forall l, Permutation l (o1 l)) -> (forall l, Permutation l (o2 l)) ->
    analyze W npe false emit compress quiet show k dir out names tf o1 fs tls = Val a1 -> analyze W npe false emit compress quiet show k dir out names tf o2 fs tls = Val a2 ->
    Permutation (an_points W a1) (an_points W a2) /\ Permutation (an_manifest W a1) (an_manifest W a2) /\ an_files W a1 = an_files W a2.
  Proof.
    intros P1 P2 R1 R2. assert (F : an_files W a1 = an_files W a2).
    { destruct (analyze_inv _ _ R1) as (t & i & f & p & m & l & T & M & C & ->). destruct (analyze_inv _ _ R2) as (t' & i' & f' & p' & m' & l' & T' & M' & C' & ->). cbn [an_files]. rewrite T in T'. injection T' as <-. rewrite M in M'. injection M' as <- <-. reflexivity. }
    destruct (run_points _ P1 _ R1) as (A1 & B1 & C1). destruct (run_points _ P2 _ R2) as (A2 & B2 & C2). split; [|split; [|exact F]].
    - apply NoDup_Permutation; [eapply NoDup_map_inv; exact A1|eapply NoDup_map_inv; exact A2|]. intros [[u d] [o s]]. specialize (B1 u d o s). specialize (B2 u d o s). unfold in_points in *. rewrite B1, B2, F. reflexivity.
    - rewrite C1, C2, F. reflexivity.
  Qed.
  (* with the other grouping there is no result *)
  Theorem metal_fails order a : analyze W npe true emit compress quiet show k dir out names tf order fs tls <> Val a.
  Proof.
    unfold analyze. destruct (list_traces dir names) as [|f l]; [discriminate|]. intros H. apply (proj1 (pbind_val _ _ _)) in H. destruct H as (g & G & H). apply (proj1 (pbind_val _ _ _)) in H. destruct H as (t & _ & H).
    destruct g as [g|g]; [exact (metal_never _ _ G)|discriminate].
  Qed.
End Main.
