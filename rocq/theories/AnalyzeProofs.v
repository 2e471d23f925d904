(* Lemmas: the analysis of a directory (C77). *)
From Coq Require Import ZArith Lia Bool String Ascii List Permutation.
From Verif Require Import Util Files SpecFiles Fabric Analyze SpecAnalyze FilesProofs FabricProofs FabricTopology AnalyzeNames AnalyzeGroups AnalyzeStats.
Import ListNotations.
Local Open Scope string_scope.
Open Scope Z_scope.

(** * Listing *)
Lemma mentions_spec p s : p <> "" -> (mentions p s = true <-> occurs p s).
Proof.
  intros NP. unfold mentions. induction s as [|c s IH].
  - destruct p as [|x p]; [congruence|]. cbn. split; [discriminate|]. intros (a & b & E). destruct a; discriminate.
  - rewrite index_S. destruct (String.prefix p (String c s)) eqn:P.
    + split; [|reflexivity]. intros _. destruct (prefix_app _ _ P) as (b & E). exists "", b. exact E.
    + destruct (String.index 0 p s) as [n|].
      * split; [|reflexivity]. intros _. destruct (proj1 IH eq_refl) as (a & b & ->). exists (String c a), b. reflexivity.
      * split; [discriminate|]. intros (a & b & E). destruct a as [|x a].
        -- cbn [String.append] in E. rewrite E, prefix_of in P. discriminate.
        -- cbn [String.append] in E. injection E as <- E. assert (X : false = true) by (apply IH; exists a, b; exact E). discriminate.
Qed.
Lemma substring_split n : forall s, (n <= String.length s)%nat -> s = String.substring 0 n s ++ String.substring n (String.length s - n) s.
Proof.
  induction n as [|n IH]; intros s H.
  - rewrite substring_0. cbn [String.append]. rewrite Nat.sub_0_r. clear. induction s as [|c s IH]; [reflexivity|]. cbn. congruence.
  - destruct s as [|c s]; [cbn in H; lia|]. cbn in H |- *. f_equal. apply IH. lia.
Qed.
Lemma substring_app a b : String.substring (String.length a) (String.length b) (a ++ b) = b.
Proof.
  induction a as [|c a IH]; cbn [String.length String.append String.substring]; [|exact IH]. induction b as [|c b IH]; [reflexivity|]. cbn. congruence.
Qed.
Lemma is_trace_spec n : is_trace n = true <-> exists x, n = "noc_trace" ++ x ++ ".json".
Proof.
  unfold is_trace. rewrite !andb_true_iff, String.eqb_eq, Nat.leb_le. split.
  - intros [[P L] S]. destruct (prefix_app _ _ P) as (b & ->). rewrite slen_app in L. change (String.length "noc_trace") with 9%nat in L.
    pose proof (substring_split (String.length ("noc_trace" ++ b) - 5) ("noc_trace" ++ b) ltac:(lia)) as E. rewrite slen_app in *. change (String.length "noc_trace") with 9%nat in *.
    replace (9 + String.length b - (9 + String.length b - 5))%nat with 5%nat in E by lia. rewrite S in E.
    remember (String.substring 0 (9 + String.length b - 5) ("noc_trace" ++ b)) as z eqn:Z0.
    assert (LZ : String.length z = (4 + String.length b)%nat) by (apply (f_equal String.length) in E; rewrite !slen_app in E; cbn in E; lia).
    clear Z0 S P. do 9 (destruct z as [|? z]; [cbn in LZ; lia|]). cbn [String.append] in E. injection E as <- <- <- <- <- <- <- <- <- E. exists z. rewrite E. reflexivity.
  - intros (x & ->). split; [split|].
    + apply prefix_of.
    + rewrite !slen_app. cbn. lia.
    + rewrite <- (sapp_assoc "noc_trace" x ".json"). rewrite slen_app. change (String.length ".json") with 5%nat.
      replace (String.length ("noc_trace" ++ x) + 5 - 5)%nat with (String.length ("noc_trace" ++ x)) by lia. apply (substring_app _ ".json").
Qed.
Lemma get_last s c : String.get (String.length (s ++ String c "") - 1) (s ++ String c "") = Some c.
Proof. rewrite slen_app. cbn [String.length]. replace (String.length s + 1 - 1)%nat with (String.length s) by lia. induction s as [|x s IH]; [reflexivity|]. exact IH. Qed.
Lemma join_plain dir name : plain_dir dir -> join dir name = in_dir dir name.
Proof. intros (d & c & -> & N). unfold join. rewrite get_last. destruct (Ascii.eqb_spec c "/"); [congruence|]. reflexivity. Qed.
Lemma select_fun {X} (P : X -> Prop) l r r' : select P l r -> select P l r' -> r = r'.
Proof. intros H. revert r'. induction H as [|x l r p H IH|x l r p H IH]; intros r' K; inversion K; subst; try contradiction; try reflexivity; [f_equal|]; auto. Qed.
Lemma filter_select {X} (f : X -> bool) (P : X -> Prop) l r : (forall x, f x = true <-> P x) -> select P l r -> filter f l = r.
Proof.
  intros E. induction 1 as [|x l r p H IH|x l r p H IH]; [reflexivity| |]; cbn [filter]; rewrite IH.
  - rewrite (proj2 (E x) p). reflexivity.
  - destruct (f x) eqn:F; [|reflexivity]. apply E in F. contradiction.
Qed.
Lemma list_traces_spec dir names files : plain_dir dir -> listing dir names files -> list_traces dir names = files.
Proof.
  intros D (tr & S & T). unfold list_traces. rewrite (filter_select _ _ _ _ is_trace_spec S). rewrite (map_ext _ _ (fun n => join_plain dir n D)).
  apply (filter_select (fun p => negb (mentions "merged.json" p)) (fun p => ~ occurs "merged.json" p)); [|exact T].
  intros p. rewrite negb_true_iff, <- not_true_iff_false, mentions_spec by discriminate. reflexivity.
Qed.
Lemma select_in {X} (P : X -> Prop) l r : select P l r -> forall x, In x r -> In x l /\ P x.
Proof. induction 1 as [|x l r p H IH|x l r p H IH]; intros y I; [destruct I| |]. - destruct I as [<-|I]; [split; [left; reflexivity|exact p]|]. destruct (IH _ I). split; [right|]; assumption. - destruct (IH _ I). split; [right|]; assumption. Qed.
Lemma operation_group files u op own : operation files u op own <-> In (u, (op, own)) (group_traces_ttnn files).
Proof.
  destruct (groups_spec files) as (ND & G & C). split.
  - intros (S & f & r & -> & B). destruct (select_in _ _ _ S f (or_introl eq_refl)) as [I _]. destruct (C _ _ _ I B) as (op' & fs & J & _). destruct (G _ _ _ J) as (S' & f' & r' & -> & B').
    pose proof (select_fun _ _ _ _ S S') as E. injection E as <- <-. apply belongs_spec in B, B'. rewrite B in B'. injection B' as <-. exact J.
  - intros J. destruct (G _ _ _ J) as (S & f & r & E & B). split; [exact S|]. exists f, r. auto.
Qed.
Lemma reads_pos n s : reads n s -> 0 <= n. Proof. induction 1; lia. Qed.
Lemma belongs_usual u op f : belongs u op f -> uid_trace u <> Some 0 -> usual u.
Proof.
  intros (dir & name & dev & id & _ & (a & b & c & o & _ & _ & R & T & _) & E) N. split.
  - rewrite E. apply reads_pos in R. apply Z.div_pos; lia.
  - destruct (uid_trace u) as [t|]; [|exact I]. inversion T as [|t' s R' E1 E2]. subst. apply reads_pos in R'. destruct (Z.eq_dec t 0) as [->|]; [congruence|lia].
Qed.
(** * Merging *)
Section Analysis.
  Context (W : Type) (npe : list (event W) -> option (list (Z * device_stats))).
  Lemma put_same {X} (fs : string -> option X) p x : put fs p x p = Some x. Proof. unfold put. rewrite String.eqb_refl. reflexivity. Qed.
  Lemma put_other {X} (fs : string -> option X) p x q : p <> q -> put fs p x q = fs q. Proof. intros N. unfold put. destruct (String.eqb_spec p q); [congruence|reflexivity]. Qed.
  Lemma read_all_spec fs files ls : read_all W fs files = Val ls -> loads fs files ls.
  Proof.
    revert ls. induction files as [|f files IH]; intros ls H; cbn [read_all] in H; [injection H as <-; constructor|]. destruct (fs f) as [l|] eqn:E; [|discriminate].
    apply (proj1 (pbind_val _ _ _)) in H. destruct H as (r & R & H). injection H as <-. constructor; [exact E|exact (IH _ R)].
  Qed.
  Lemma loads_ext (fs fs' : string -> option (list (event W))) files ls : (forall f, In f files -> fs f = fs' f) -> loads fs files ls -> loads fs' files ls.
  Proof. intros E H. induction H as [|f l fl ll F H IH]; [constructor|]. constructor; [rewrite <- E by (left; reflexivity); exact F|]. apply IH. intros g I. apply E. right. exact I. Qed.
  Lemma loads_fun (fs : string -> option (list (event W))) files ls ls' : loads fs files ls -> loads fs files ls' -> ls = ls'.
  Proof. intros H. revert ls'. induction H as [|f l fl ll F H IH]; intros ls' K; inversion K; subst; [reflexivity|]. f_equal; [congruence|auto]. Qed.
  Definition info_of (dir : string) (g : group) : info := (merged_path dir (fst g), fst (snd g), fst g).
  Definition source (f : string) : Prop := mentions "merged.json" f = false.
  Lemma merged_not dir u : plain_dir dir -> ~ source (merged_path dir u).
  Proof.
    intros D S. unfold source in S. assert (M : mentions "merged.json" (merged_path dir u) = true); [|congruence]. apply mentions_spec; [discriminate|]. unfold merged_path. rewrite (join_plain _ _ D).
    exists (dir ++ "/" ++ "noc_trace_" ++ uid_str u ++ "_"), "". unfold in_dir. rewrite !sapp_assoc. reflexivity.
  Qed.
  Lemma merge_fold t dir gs : plain_dir dir -> (forall g f, In g gs -> In f (snd (snd g)) -> source f) -> forall fs0 infos0 fs1 infos1,
    pfold (merge_step W t dir) gs (fs0, infos0) = Val (fs1, infos1) ->
    infos1 = (infos0 ++ map (info_of dir) gs)%list /\ (forall q, ~ In q (map (fun g => merged_path dir (fst g)) gs) -> fs1 q = fs0 q) /\
    forall u op files, In (u, (op, files)) gs -> exists ls, loads fs0 files ls /\
      (exists r, match r with Val es => NoDup (map (fun g => merged_path dir (fst g)) gs) -> fs1 (merged_path dir u) = Some es
                 | Processing => NoDup (map (fun g => merged_path dir (fst g)) gs) -> fs1 (merged_path dir u) = fs0 (merged_path dir u)
                 | Raised _ => False end /\ process_traces t W ls true = r).
  Proof.
    intros D. induction gs as [|[u [op files]] gs IH]; intros SRC fs0 infos0 fs1 infos1 H.
    - rewrite pfold_nil in H. injection H as <- <-. cbn [map]. rewrite app_nil_r. split; [reflexivity|]. split; [reflexivity|]. intros ? ? ? [].
    - rewrite pfold_cons in H. apply (proj1 (pbind_val _ _ _)) in H. destruct H as ([fsm infm] & M & H). unfold merge_step in M. cbn [fst snd] in M.
      apply (proj1 (pbind_val _ _ _)) in M. destruct M as (ls & L & M). apply (proj1 (pbind_val _ _ _)) in M. destruct M as (fsn & P & M). injection M as <- <-.
      apply read_all_spec in L. set (p := merged_path dir u) in *.
      assert (Q : (forall q, q <> p -> fsn q = fs0 q) /\ match process_traces t W ls true with Val es => fsn p = Some es | Processing => fsn p = fs0 p | Raised _ => False end).
      { destruct (process_traces t W ls true) as [es| |e]; [| |discriminate]; injection P as <-; (split; [intros q N|]); [apply put_other; congruence|apply put_same|reflexivity|reflexivity]. }
      destruct Q as [Q1 Q2]. destruct (IH (fun g f G F => SRC g f (or_intror G) F) _ _ _ _ H) as (I1 & I2 & I3). split; [|split].
      + rewrite I1, <- app_assoc. reflexivity.
      + intros q N. cbn [map fst In] in N. rewrite I2 by tauto. apply Q1. intros ->. apply N. left. reflexivity.
      + intros v o fl [E|J].
        * injection E as <- <- <-. exists ls. split; [exact L|]. exists (process_traces t W ls true). split; [|reflexivity].
          destruct (process_traces t W ls true) as [es| |e]; [| |exact Q2]; cbn [map fst]; intros ND; apply NoDup_cons_iff in ND; destruct ND as [NI _]; rewrite I2 by exact NI; exact Q2.
        * destruct (I3 _ _ _ J) as (ls' & L' & r & R & PR). exists ls'. split.
          { eapply loads_ext; [|exact L']. intros f F. apply Q1. intros E. apply (merged_not dir u D). fold p. rewrite <- E. exact (SRC _ f (or_intror J) F). }
          exists r. split; [|exact PR]. destruct r as [es| |e]; [| |exact R]; cbn [map fst]; intros ND; apply NoDup_cons_iff in ND; destruct ND as [NI ND].
          { exact (R ND). }
          rewrite (R ND). apply Q1. intros E. apply NI. fold p. rewrite <- E. apply (in_map (fun g => merged_path dir (fst g))) in J. exact J.
  Qed.
  (** * Collecting *)
  Definition points_of (op : string) (u : op_uid) (r : list (Z * device_stats)) (pts : list datapoint) : list datapoint :=
    fold_left (fun m e => if fst e =? -1 then m else addDatapoint m op u (fst e) (snd e)) r pts.
  Lemma points_fold op u r : NoDup (map fst r) -> forall pts, NoDup (map fst pts) -> (forall d, In d (map fst r) -> ~ In (u, d) (map fst pts)) ->
    NoDup (map fst (points_of op u r pts)) /\
    (forall v d o s, In ((v, d), (o, s)) (points_of op u r pts) <-> In ((v, d), (o, s)) pts \/ (v = u /\ o = op /\ d <> -1 /\ In (d, s) r)).
  Proof.
    unfold points_of. induction r as [|[d0 s0] r IH]; intros NR pts ND F; cbn [fold_left].
    - split; [exact ND|]. intros. cbn [In]. tauto.
    - cbn [map fst] in NR. apply NoDup_cons_iff in NR. destruct NR as [N0 NR]. cbn [fst snd]. destruct (Z.eqb_spec d0 (-1)) as [->|N1].
      + destruct (IH NR pts ND) as [A B]; [intros d I; apply F; right; exact I|]. split; [exact A|]. intros v d o s. rewrite B. cbn [In]. split; [tauto|].
        intros [X|(-> & -> & X & [Y|Y])]; [tauto|congruence|tauto].
      + unfold addDatapoint at 1 3. destruct (dict_set_keys point_eqb point_eqb_spec pts (u, d0) (op, s0) ND) as [ND' K].
        destruct (IH NR _ ND') as [A B].
        { intros d I J. apply K in J. destruct J as [E|J]; [injection E as ->; exact (N0 I)|]. exact (F d (or_intror I) J). }
        split; [exact A|]. intros v d o s. unfold addDatapoint in B. rewrite B. rewrite (dict_set_in point_eqb point_eqb_spec pts (u, d0) (op, s0) ND). cbn [In]. split.
        * intros [[[E1 E2]|[N J]]|(-> & -> & X & Y)]; [|left; exact J|right; tauto]. injection E1 as -> ->. injection E2 as -> ->. right. repeat split; [exact N1|left; reflexivity].
        * intros [J|(-> & -> & X & [Y|Y])].
          -- left. right. split; [|exact J]. intros E. apply (F d0 (or_introl eq_refl)). rewrite <- E. apply (in_map fst) in J. exact J.
          -- injection Y as -> ->. left. left. auto.
          -- right. tauto.
  Qed.
  Definition entry (compress : bool) (fs : string -> option (list (event W))) (i : info) : list (Z * string) :=
    match process_trace W npe fs i with Some (op, u, _) => [(uid_op u * 1024, output_filepath compress (timeline_name op u))] | None => [] end.
  Definition success (fs : string -> option (list (event W))) (i : info) (es : list (event W)) (r : list (Z * device_stats)) : Prop :=
    fs (fst (fst i)) = Some es /\ npe es = Some r.
  Lemma success_iff fs i : match process_trace W npe fs i with Some (op, u, r) => op = snd (fst i) /\ u = snd i /\ exists es, success fs i es r | None => forall es r, ~ success fs i es r end.
  Proof.
    destruct i as [[p op] u]. unfold process_trace, success. cbn [fst snd]. destruct (fs p) as [es|]; [|intros es r [E _]; discriminate]. destruct (npe es) as [r|] eqn:E; [repeat split; exists es; auto|].
    intros es' r [E1 E2]. congruence.
  Qed.
  Lemma shift0 u : get_program_runtime_id u 0 = u * 1024. Proof. unfold get_program_runtime_id. rewrite lor_add by lia. lia. Qed.
  Lemma collect_fold emit compress out fs : (forall es r, npe es = Some r -> NoDup (map fst r)) -> forall is pts man tls pts' man' tls',
    fold_left (collect W npe emit compress out fs) is (pts, man, tls) = (pts', man', tls') -> NoDup (map snd is) -> NoDup (map fst pts) ->
    (forall u d, In u (map snd is) -> ~ In (u, d) (map fst pts)) ->
    NoDup (map fst pts') /\
    (forall u d o s, In ((u, d), (o, s)) pts' <-> In ((u, d), (o, s)) pts \/ (d <> -1 /\ exists p es r, In (p, o, u) is /\ success fs (p, o, u) es r /\ In (d, s) r)) /\
    man' = (man ++ flat_map (entry compress fs) is)%list /\
    (forall q, ~ In q (map (fun i => output_filepath compress (join out (timeline_name (snd (fst i)) (snd i)))) is) -> tls' q = tls q) /\
    (emit = true -> NoDup (map (fun i => output_filepath compress (join out (timeline_name (snd (fst i)) (snd i)))) is) ->
     forall i es r, In i is -> success fs i es r -> tls' (output_filepath compress (join out (timeline_name (snd (fst i)) (snd i)))) = Some es).
  Proof.
    intros NPE is. induction is as [|i is IH]; intros pts man tls pts' man' tls' H NU ND F; cbn [fold_left] in H.
    - injection H as <- <- <-. cbn [flat_map map]. rewrite app_nil_r. split; [exact ND|]. split; [|split; [reflexivity|split; [reflexivity|]]].
      + intros. split; [tauto|]. intros [X|(_ & p & es & r & [] & _)]. exact X.
      + intros _ _ ? ? ? [].
    - cbn [map] in NU. apply NoDup_cons_iff in NU. destruct NU as [NI NU]. unfold collect in H at 2. pose proof (success_iff fs i) as SI. cbn [flat_map].
      assert (EN : entry compress fs i = match process_trace W npe fs i with Some (op, u, _) => [(uid_op u * 1024, output_filepath compress (timeline_name op u))] | None => [] end) by reflexivity.
      destruct (process_trace W npe fs i) as [[[op u] r]|].
      + destruct SI as (-> & -> & es & S1 & S2). rewrite S1 in H. fold (points_of (snd (fst i)) (snd i) r pts) in H.
        destruct (points_fold (snd (fst i)) (snd i) r (NPE _ _ S2) pts ND) as [A B]; [intros d _; apply F; left; reflexivity|].
        destruct (IH _ _ _ _ _ _ H NU A) as (I1 & I2 & I3 & I4 & I5).
        { intros u d J K. apply in_map_iff in K. destruct K as ([[v e] [o s]] & E & K). cbn [fst] in E. injection E as -> ->. apply B in K. destruct K as [K|(-> & _)]; [|exact (NI J)].
          apply (F u d (or_intror J)). apply (in_map fst) in K. exact K. }
        split; [exact I1|]. split; [|split; [|split]].
        * intros v d o s. rewrite I2, B. split.
          -- intros [[X|(-> & -> & X & Y)]|(X & p & es' & r' & J & S & Y)].
             ++ left. exact X.
             ++ right. split; [exact X|]. exists (fst (fst i)), es, r. repeat split; [left; destruct i as [[? ?] ?]; reflexivity|exact S1|exact S2|exact Y].
             ++ right. split; [exact X|]. exists p, es', r'. split; [right; exact J|]. auto.
          -- intros [X|(X & p & es' & r' & [J|J] & S & Y)].
             ++ left. left. exact X.
             ++ left. right. subst i. cbn [fst snd] in *. destruct S as [S3 S4]. cbn [fst] in S3. rewrite S1 in S3. injection S3 as <-. rewrite S2 in S4. injection S4 as <-. auto.
             ++ right. split; [exact X|]. exists p, es', r'. auto.
        * rewrite I3, EN, shift0, <- app_assoc. reflexivity.
        * intros q N. cbn [map In] in N. rewrite I4 by tauto. destruct emit; [|reflexivity]. apply put_other. tauto.
        * intros -> NP j es' r' [<-|J] S.
          -- cbn [map] in NP. apply NoDup_cons_iff in NP. destruct NP as [NJ _]. rewrite I4 by exact NJ. rewrite put_same. destruct S as [S _]. exact (eq_trans (eq_sym S1) S).
          -- cbn [map] in NP. apply NoDup_cons_iff in NP. destruct NP as [_ NP]. exact (I5 eq_refl NP _ _ _ J S).
      + destruct (IH _ _ _ _ _ _ H NU ND) as (I1 & I2 & I3 & I4 & I5); [intros u d J; apply F; right; exact J|].
        split; [exact I1|]. split; [|split; [|split]].
        * intros v d o s. rewrite I2. split.
          -- intros [X|(X & p & es' & r' & J & S & Y)]; [left; exact X|]. right. split; [exact X|]. exists p, es', r'. split; [right; exact J|]. auto.
          -- intros [X|(X & p & es' & r' & [J|J] & S & Y)]; [left; exact X|subst i; destruct (SI _ _ S)|]. right. split; [exact X|]. exists p, es', r'. auto.
        * rewrite I3, EN. reflexivity.
        * intros q N. cbn [map In] in N. apply I4. tauto.
        * intros E NP j es' r' [<-|J] S; [destruct (SI _ _ S)|]. cbn [map] in NP. apply NoDup_cons_iff in NP. destruct NP as [_ NP]. exact (I5 E NP _ _ _ J S).
  Qed.
End Analysis.
