(* Witnesses and examples for C56-C58. *)
From Coq Require Import ZArith Lia Bool String List ZifyBool.
From Verif Require Import Base Arith Util SpecUtil Device Workload SpecWorkload Json Ingest SpecIngest SpecTrace IngestProofs IngestTotal IngestWitness TraceProofs.
Import ListNotations.
Local Open Scope string_scope.
Local Open Scope list_scope.
Open Scope Z_scope.
Ltac Zify.zify_post_hook ::= idtac.

Definition only_in (o : outcome (option work)) (P : work -> trans -> Prop) : Prop :=
  match o with Ok (Some wl) => match all_transfers wl with [t] => P wl t | _ => False end | _ => False end.
Lemma only_in_ok o P : only_in o P -> exists wl t, o = Ok (Some wl) /\ all_transfers wl = [t] /\ P wl t.
Proof. unfold only_in. destruct o as [[wl|]| | | | | |]; try contradiction. destruct (all_transfers wl) as [|t [|]] eqn:E; try contradiction. intros H. exists wl, t. auto. Qed.
Definition made (o : outcome (option work)) (P : work -> Prop) : Prop := match o with Ok (Some wl) => P wl | _ => False end.
Lemma made_ok o P : made o P -> exists wl, o = Ok (Some wl) /\ P wl.
Proof. unfold made. destruct o as [[wl|]| | | | | |]; try contradiction. eauto. Qed.
Definition write_at (proc : string) (x y t : Z) : json := event proc "WRITE_" 0 x y t [N "dx" 4; N "dy" 5; N "num_bytes" 2048; S "noc" "NOC_0"].

(* a trace of ten cycles *)
Definition tr_short : list json := [zone_event "BRISC" 0 1 1 100 "KERNEL" "ZONE_START"; write_at "BRISC" 1 1 105; zone_event "BRISC" 0 1 1 110 "KERNEL" "ZONE_END"].
Lemma first_of evs dev a : existsb (fun ev => counts_b dev ev && (int_at ev "timestamp" 0 =? a)) evs && forallb (fun ev => negb (counts_b dev ev) || (a <=? int_at ev "timestamp" 0)) evs = true -> first_time evs dev a.
Proof.
  intros H. apply andb_true_iff in H as [H1 H2]. split.
  - apply existsb_exists in H1 as (ev & Hin & H). apply andb_true_iff in H as [C E]. exists ev. rewrite <- counts_iff, int_or_iff. split; [exact Hin|]. split; [exact C|lia].
  - intros ev z Hin C HZ. rewrite forallb_forall in H2. specialize (H2 ev Hin). apply counts_iff in C. apply int_or_iff in HZ. rewrite C in H2. cbn [negb orb] in H2. lia.
Qed.
Lemma last_of evs dev a : existsb (fun ev => counts_b dev ev && (int_at ev "timestamp" 0 =? a)) evs && forallb (fun ev => negb (counts_b dev ev) || (int_at ev "timestamp" 0 <=? a)) evs = true -> last_time evs dev a.
Proof.
  intros H. apply andb_true_iff in H as [H1 H2]. split.
  - apply existsb_exists in H1 as (ev & Hin & H). apply andb_true_iff in H as [C E]. exists ev. rewrite <- counts_iff, int_or_iff. split; [exact Hin|]. split; [exact C|lia].
  - intros ev z Hin C HZ. rewrite forallb_forall in H2. specialize (H2 ev Hin). apply counts_iff in C. apply int_or_iff in HZ. rewrite C in H2. cbn [negb orb] in H2. lia.
Qed.
Lemma earliest_of evs t0 : existsb (fun ev => int_at ev "timestamp" 0 =? t0) evs && forallb (fun ev => t0 <=? int_at ev "timestamp" 0) evs = true -> earliest evs t0.
Proof.
  intros H. apply andb_true_iff in H as [H1 H2]. split.
  - apply existsb_exists in H1 as (ev & Hin & H). exists ev. rewrite int_or_iff. split; [exact Hin|lia].
  - intros ev z Hin HZ. rewrite forallb_forall in H2. specialize (H2 ev Hin). apply int_or_iff in HZ. lia.
Qed.
Lemma small_of evs : forallb (fun ev => (0 <=? int_at ev "timestamp" 0) && (int_at ev "timestamp" 0 <=? 2 ^ 53)) evs = true -> Forall small_time evs.
Proof. intros H. rewrite forallb_forall in H. apply Forall_forall. intros ev Hin z HZ. specialize (H ev Hin). apply int_or_iff in HZ. lia. Qed.

(** * C56 *)
Lemma short_window : exists evs t0 a b wl, Forall small_time evs /\ earliest evs t0 /\ first_time evs 0 a /\ last_time evs 0 b /\ t0 <= a < b /\
  convertNocTracesToNpeWorkload "t.json" "wormhole_b0" (Parsed (JArray evs)) = Ok (Some wl) /\ getGoldenResultCycles wl 0 = Ok (0, 4294967286).
Proof.
  assert (K : made (convert "wormhole_b0" tr_short) (fun wl => getGoldenResultCycles wl 0 = Ok (0, 4294967286))) by (vm_compute; reflexivity). apply made_ok in K as (wl & K1 & K2).
  exists tr_short, 100, 100, 110, wl. split; [apply small_of; vm_compute; reflexivity|]. split; [apply earliest_of; vm_compute; reflexivity|]. split; [apply first_of; vm_compute; reflexivity|]. split; [apply last_of; vm_compute; reflexivity|].
  split; [lia|]. split; [exact K1|exact K2].
Qed.
Lemma plain_window : exists wl, convertNocTracesToNpeWorkload "t.json" "wormhole_b0" (Parsed (JArray tr_plain)) = Ok (Some wl) /\ Forall small_time tr_plain /\ earliest tr_plain 100 /\
  first_time tr_plain 0 100 /\ last_time tr_plain 0 200 /\ getGoldenResultCycles wl 0 = Ok (0, 80).
Proof.
  assert (K : made (convert "wormhole_b0" tr_plain) (fun wl => getGoldenResultCycles wl 0 = Ok (0, 80))) by (vm_compute; reflexivity). apply made_ok in K as (wl & K1 & K2).
  exists wl. split; [exact K1|]. split; [apply small_of; vm_compute; reflexivity|]. split; [apply earliest_of; vm_compute; reflexivity|]. split; [apply first_of; vm_compute; reflexivity|]. split; [apply last_of; vm_compute; reflexivity|]. exact K2.
Qed.

(** * C57 *)
Definition tr_nested : list json :=
  [zone_event "BRISC" 0 1 1 100 "KERNEL" "ZONE_START"; zone_event "NCRISC" 0 1 1 101 "READER" "ZONE_START"; zone_event "BRISC" 0 1 1 110 "LOOP" "ZONE_START"; zone_event "BRISC" 0 1 1 120 "LOOP" "ZONE_END";
   zone_event "BRISC" 0 1 1 130 "LOOP" "ZONE_START"; write_at "BRISC" 1 1 135; zone_event "BRISC" 0 1 1 140 "LOOP" "ZONE_END"; zone_event "NCRISC" 0 1 1 150 "READER" "ZONE_END"; zone_event "BRISC" 0 1 1 200 "KERNEL" "ZONE_END"].
Definition nested_zones : list zone :=
  [mkZone 0 "KERNEL" ZONE_START; mkZone 10 "LOOP" ZONE_START; mkZone 20 "LOOP" ZONE_END; mkZone 30 "LOOP" ZONE_START; mkZone 40 "LOOP" ZONE_END; mkZone 100 "KERNEL" ZONE_END].
Lemma nested_listed : made (convertNocTracesToNpeWorkload "t.json" "wormhole_b0" (Parsed (JArray tr_nested))) (fun wl =>
  wl_zones wl = [((mkCoord 0 1 1, BRISC), nested_zones); ((mkCoord 0 1 1, NCRISC), [mkZone 1 "READER" ZONE_START; mkZone 50 "READER" ZONE_END])]).
Proof. vm_compute. reflexivity. Qed.

(** * C58 *)
Lemma nested_path : made (convertNocTracesToNpeWorkload "t.json" "wormhole_b0" (Parsed (JArray tr_nested))) (fun wl => map (fun t => (t_off t, t_zone t)) (all_transfers wl) = [(145, "KERNEL[0]/LOOP[1]")]).
Proof. vm_compute. reflexivity. Qed.
Lemma order_of evs : (fix go l := match l with [] => true | a :: l' => forallb (fun b => int_at a "timestamp" 0 <=? int_at b "timestamp" 0) l' && go l' end) evs = true -> in_order evs.
Proof.
  intros H i j a b c r s t Hij Ha Hb _ _ HS HT. apply int_or_iff in HS, HT. revert i j Hij Ha Hb. induction evs as [|e evs IH]; intros i j Hij Ha Hb; [destruct i; discriminate|]. apply andb_true_iff in H as [H1 H2].
  destruct j as [|j]; [lia|]. cbn [nth_error] in Hb. destruct i as [|i]; cbn [nth_error] in Ha.
  - injection Ha as ->. rewrite forallb_forall in H1. specialize (H1 b (nth_error_In _ _ Hb)). lia.
  - apply (IH H2 i j ltac:(lia) Ha Hb).
Qed.
Lemma nested_hypotheses : Forall small_time tr_nested /\ in_order tr_nested /\ earliest tr_nested 100.
Proof. split; [apply small_of; vm_compute; reflexivity|]. split; [apply order_of; vm_compute; reflexivity|apply earliest_of; vm_compute; reflexivity]. Qed.
(* the second core has no zones *)
Definition tr_stale : list json :=
  [zone_event "BRISC" 0 1 1 100 "KERNEL" "ZONE_START"; write_at "BRISC" 2 2 110; zone_event "BRISC" 0 1 1 200 "KERNEL" "ZONE_END"].
Lemma processor_of ev c r : risc_of (string_at ev "proc") = Ok r -> core_of ev r = (c, r) -> processor ev c r.
Proof. intros H1 H2. apply processor_iff. auto. Qed.
Lemma stale_path : exists evs ev wl t, Forall small_time evs /\ in_order evs /\ In ev evs /\ processor ev (mkCoord 0 2 2) BRISC /\
  convertNocTracesToNpeWorkload "t.json" "wormhole_b0" (Parsed (JArray evs)) = Ok (Some wl) /\ zone_list wl (mkCoord 0 2 2) BRISC [] /\ all_transfers wl = [t] /\ t_src t = mkCoord 0 2 2 /\ t_zone t = "KERNEL[0]".
Proof.
  assert (K : only_in (convert "wormhole_b0" tr_stale) (fun wl t => wl_zones wl = [((mkCoord 0 1 1, BRISC), [mkZone 0 "KERNEL" ZONE_START; mkZone 100 "KERNEL" ZONE_END])] /\ t_src t = mkCoord 0 2 2 /\ t_zone t = "KERNEL[0]")) by (vm_compute; auto).
  apply only_in_ok in K as (wl & t & K1 & K2 & K3 & K4 & K5). exists tr_stale, (write_at "BRISC" 2 2 110), wl, t. split; [apply small_of; vm_compute; reflexivity|]. split; [apply order_of; vm_compute; reflexivity|].
  split; [right; left; reflexivity|]. split; [apply processor_of; reflexivity|]. split; [exact K1|]. split; [|auto]. right. split; [reflexivity|]. rewrite K3. intros l [E|[]]. discriminate.
Qed.
(* the second write is earlier than the first and inside the zone *)
Definition tr_disorder : list json :=
  [zone_event "BRISC" 0 1 1 100 "KERNEL" "ZONE_START"; zone_event "BRISC" 0 1 1 200 "KERNEL" "ZONE_END"; write_at "BRISC" 1 1 110].
Lemma disorder_path : exists evs ev wl t l, Forall small_time evs /\ earliest evs 100 /\ In ev evs /\ processor ev (mkCoord 0 1 1) BRISC /\ int_or ev "timestamp" 0 110 /\
  convertNocTracesToNpeWorkload "t.json" "wormhole_b0" (Parsed (JArray evs)) = Ok (Some wl) /\ zone_list wl (mkCoord 0 1 1) BRISC l /\ enclosing_path l 10 "KERNEL[0]" /\ all_transfers wl = [t] /\ t_zone t = "".
Proof.
  set (l := [mkZone 0 "KERNEL" ZONE_START; mkZone 100 "KERNEL" ZONE_END]).
  assert (K : only_in (convert "wormhole_b0" tr_disorder) (fun wl t => wl_zones wl = [((mkCoord 0 1 1, BRISC), [mkZone 0 "KERNEL" ZONE_START; mkZone 100 "KERNEL" ZONE_END])] /\ t_zone t = "")) by (vm_compute; auto).
  apply only_in_ok in K as (wl & t & K1 & K2 & K3 & K4). exists tr_disorder, (write_at "BRISC" 1 1 110), wl, t, l. split; [apply small_of; vm_compute; reflexivity|]. split; [apply earliest_of; vm_compute; reflexivity|].
  split; [right; right; left; reflexivity|]. split; [apply processor_of; reflexivity|]. split; [apply int_or_iff; reflexivity|]. split; [exact K1|].
  split; [left; split; [discriminate|]; rewrite K3; left; reflexivity|]. split; [|auto].
  exists 1%nat, [0%nat], [(mkZone 0 "KERNEL" ZONE_START, 0)]. split; [|split; [|split; [|reflexivity]]].
  - split; [cbn; lia|]. split; [constructor; [cbn; lia|constructor]|]. intros z E. injection E as <-. cbn. lia.
  - exact (open_start [] [] (mkZone 0 "KERNEL" ZONE_START) open_nil eq_refl).
  - constructor; [|constructor]. exists (mkZone 0 "KERNEL" ZONE_START). split; reflexivity.
Qed.
