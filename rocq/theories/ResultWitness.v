(* A workload for each result of runNPE (C55), and workloads that keep moving (C37). *)
From Coq Require Import ZArith Reals String List Bool Lia Lra Floats.SpecFloat.
From Flocq Require Import Core IEEE754.BinarySingleNaN.
From Verif Require Import Base Arith Util Device SpecDevice Workload SpecWorkload DepTracker Rates Stats Engine Api SpecEngine SpecRates SpecStats SpecApi SpecProgress SpecResult
  FactoryProofs ScheduleProofs RunProofs FloatProofs FloatProofs2 RateFloat RateFloat2 RateFloat4 ResultProofs Cases EngineWitness ApiWitness OrderWitness.
Import ListNotations.
Local Open Scope string_scope.
Local Open Scope list_scope.
Open Scope Z_scope.

(* success, or the error of a failure *)
Definition verdict (r : outcome (npe_result f32A)) : option (option npe_error) :=
  match r with Ok (Stats _) => Some None | Ok (Failure e) => Some (Some e) | _ => None end.
Lemma verdict_stats r : verdict r = Some None -> exists stt, r = Ok (Stats stt).
Proof. destruct r as [[stt|e]| | | | | |]; try discriminate. eauto. Qed.
Lemma verdict_failure r e : verdict r = Some (Some e) -> r = Ok (Failure e).
Proof. destruct r as [[stt|e']| | | | | |]; try discriminate. cbn. congruence. Qed.

(** * Usable workloads *)
Definition numberb (x : spec_float) : bool := SpecFloat.valid_binary 24 128 x && match x with S754_zero false | S754_finite false _ _ => true | _ => false end.
Lemma numberb_ok x : numberb x = true -> number x.
Proof. unfold numberb. intros H. apply andb_true_iff in H as [H1 H2]. split; [exact H1|]. destruct x as [[]|[]| |[] m e]; try discriminate; [left; reflexivity|right; eauto]. Qed.
Definition usableb (t : transfer spec_float) : bool :=
  rangesb t && (0 <? t_bytes t) && match t_dst t with Multicast [] => false | Multicast _ => (t_gid t =? -1) | Unicast _ => true end && numberb (t_rate t) && (t_off t <=? 1000).
Lemma usableb_ok d t : usableb t = true -> usable_transfer d false t /\ t_off t <= 1000.
Proof.
  unfold usableb. intros H. apply andb_true_iff in H as [H H5]. apply andb_true_iff in H as [H H4]. apply andb_true_iff in H as [H H3]. apply andb_true_iff in H as [H1 H2]. split; [|lia].
  split; [apply rangesb_ok; exact H1|]. split; [lia|]. split; [intros E; rewrite E in H3; discriminate|]. split; [|apply numberb_ok; exact H4].
  intros [W _]. destruct (t_dst t) as [c|m]; [eauto|]. destruct m; [discriminate|lia].
Qed.
Lemma usable_built d (cfg : config spec_float) ts : cf_infer cfg = false -> cf_scale cfg = one32 -> forallb usableb (all_transfers (build f32A ts)) = true -> dense (build f32A ts) ->
  wl_next (build f32A ts) < 2 ^ 31 -> Z.of_nat (List.length (wl_phases (build f32A ts))) <= 2 ^ 31 -> dv_device_ids d = [0] ->
  (exists w, getGoldenResultCycles (build f32A ts) 0 = Ok w) -> (exists w, getGoldenResultCycles (build f32A ts) MESH_DEVICE = Ok w) -> usable_workload d cfg (build f32A ts).
Proof.
  intros EI ES HF HD HN HP HI G1 G2. rewrite forallb_forall in HF. split; [exact HD|]. split; [exact HN|]. split; [exact HP|]. split; [|split].
  - apply Forall_forall. intros t Ht. rewrite EI. apply usableb_ok. apply HF. exact Ht.
  - destruct one_scale as [S1 S2]. rewrite ES. split; [exact S1|]. change (scale_value one32) with (scale_value (f_one f32A)). rewrite S2.
    apply Forall_forall. intros t Ht. pose proof (proj2 (usableb_ok d t (HF t Ht))) as L. apply IZR_le in L. change (IZR (t_off (Fl := spec_float) t) <= 1000)%R in L. lra.
  - intros id [Hid|Hid]; [rewrite HI in Hid; destruct Hid as [<-|[]]; exact G1|rewrite Hid; exact G2].
Qed.
Ltac usable := apply usable_built; [reflexivity|reflexivity|vm_compute; reflexivity|split; [vm_compute; reflexivity|split; vm_compute; reflexivity]|vm_compute; reflexivity|vm_compute; discriminate|vm_compute; reflexivity|eexists; vm_compute; reflexivity|eexists; vm_compute; reflexivity].

Definition config_of (device model : string) (cpt : Z) : config (F f32A) := mkCfg device model cpt false false false one32.
(* a source outside the grid *)
Definition off_grid := [hop f32A 100 (0,99,1) (0,1,5) 0 (-1) (-1) (-1)].
(* a multicast to two rectangles *)
Definition two_rectangles := [api_hop 100 1 (0, 1, 1) (Multicast [mkGrid (at_core (0, 1, 4)) (at_core (0, 1, 5)); mkGrid (at_core (0, 2, 4)) (at_core (0, 2, 5))]) one32 (-1) (-1) (-1)].
(* a group of two *)
Definition grouped := [hop f32A 100 (0,1,1) (0,1,5) 0 7 0 (-1); hop f32A 100 (0,1,5) (0,1,8) 0 7 1 0].
(* a group whose members wait for each other *)
Definition circular := [hop f32A 100 (0,1,1) (0,1,5) 0 7 0 1; hop f32A 100 (0,1,5) (0,1,8) 0 7 1 0].
(* two transfers on one lane *)
Definition shared := [xfer f32A 100 (0,1,1) (0,1,5) 0; xfer f32A 100 (0,1,1) (0,1,5) 20].

Lemma off_grid_usable : usable_workload wormhole_b0 (config_of "wormhole_b0" "fast" 1024) (build f32A off_grid). Proof. usable. Qed.
Lemma two_rectangles_usable : usable_workload wormhole_b0 (config_of "wormhole_b0" "fast" 1024) (build f32A two_rectangles). Proof. usable. Qed.
Lemma grouped_usable : usable_workload blackhole_p100 (config_of "P100" "fast" 1024) (build f32A grouped). Proof. usable. Qed.
Lemma circular_usable : usable_workload wormhole_b0 (config_of "wormhole_b0" "fast" 60000000) (build f32A circular). Proof. usable. Qed.
Lemma shared_usable model cpt : usable_workload wormhole_b0 (config_of "wormhole_b0" model cpt) (build f32A shared). Proof. usable. Qed.
(* with these configurations preprocessing changes nothing *)
Lemma shared_prep model cpt : preprocessWorkload f32A wormhole_b0 (config_of "wormhole_b0" model cpt) (build f32A shared) = Ok (build f32A shared).
Proof. vm_compute. reflexivity. Qed.
Lemma acceptedb_ok d t : (0 <? t_npkts t) && (0 <? t_psize t) = true -> forall sd sr sc ed er ec, t_src t = mkCoord sd sr sc -> t_dst (Fl := spec_float) t = Unicast (mkCoord ed er ec) ->
  in_grid d (mkCoord sd sr sc) -> in_grid d (mkCoord ed er ec) -> ed = sd -> accepted d t.
Proof. intros H sd sr sc ed er ec E1 E2 G1 G2 G3. apply andb_true_iff in H as [H1 H2]. unfold accepted. rewrite E1, E2. split; [lia|]. split; [lia|]. split; [exact G1|]. split; [exact G2|exact G3]. Qed.
Lemma shared_plain : plain wormhole_b0 (build f32A shared).
Proof.
  assert (H : forall t, In t (all_transfers (build f32A shared)) -> (0 <? t_npkts t) && (0 <? t_psize t) = true /\ t_src t = mkCoord 0 1 1 /\ t_dst t = Unicast (mkCoord 0 1 5)).
  { intros t Ht. vm_compute in Ht. destruct Ht as [<-|[<-|[]]]; (split; [|split]); vm_compute; reflexivity. }
  split; [|split; [|discriminate]]; apply Forall_forall; intros t Ht; destruct (H t Ht) as (H1 & H2 & H3).
  - eapply acceptedb_ok; [exact H1|exact H2|exact H3|unfold in_grid; cbn; lia|unfold in_grid; cbn; lia|reflexivity].
  - intros (m & E & _). change (t_dst (Fl := spec_float) t = Unicast (mkCoord 0 1 5)) in H3. rewrite H3 in E. discriminate.
Qed.
Lemma shared_alone : parents_first f32A (all_transfers (build f32A shared)) /\ waits_at_most f32A wormhole_b0 (all_transfers (build f32A shared)) (fun _ => 0).
Proof.
  assert (H : forall t, In t (all_transfers (build f32A shared)) -> t_gid t = -1) by (intros t Ht; vm_compute in Ht; destruct Ht as [<-|[<-|[]]]; reflexivity).
  split; [intros t Ht [G _]; exfalso; exact (G (H t Ht))|]. intros t Ht. split; [lia|]. intros p delay _ [G _]. exfalso. exact (G (H t Ht)).
Qed.

(** * Transfers that keep moving *)
Lemma at_least k x : 0 <= k <= 16777216 -> numberb x = true -> SFltb x (sf_ofZ prec32 emax32 k) = false -> (IZR k <= real x)%R.
Proof.
  intros HK HX HL. apply numberb_ok, number_nf in HX. destruct (ofZ_exact prec32 emax32 _ _ k) as [N V]; [change (2 ^ prec32) with 16777216; lia|].
  apply (ltb_cl_false prec32 emax32 _ _ (proj1 HX) (proj1 N)) in HL. rewrite !(nnf_cl prec32 emax32) in HL by assumption. rewrite V in HL. exact HL.
Qed.
Lemma shared_rates t : In t (all_transfers (build f32A shared)) -> (1 <= real (t_rate t))%R /\
  exists b, interpolateBW f32A (tbt f32A wormhole_b0) (max_noc_bandwidth f32A wormhole_b0) (t_psize t) (t_npkts t) = Ok b /\ (1 <= real b)%R.
Proof.
  intros Ht. vm_compute in Ht. destruct Ht as [<-|[<-|[]]]; cbn [t_rate t_psize t_npkts].
  all: split; [apply (at_least 1); [lia|vm_compute; reflexivity|vm_compute; reflexivity]|].
  all: eexists; split; [vm_compute; reflexivity|apply (at_least 1); [lia|vm_compute; reflexivity|vm_compute; reflexivity]].
Qed.
Lemma shared_brisk : keeps_moving wormhole_b0 "none" 1024 1024 (all_transfers (build f32A shared)).
Proof.
  split; [vm_compute; discriminate|]. split; [split; vm_compute; discriminate|]. change (String.eqb "none" "none") with true. cbv iota.
  apply Forall_forall. intros t Ht. destruct (shared_rates t Ht) as (H1 & b & H2 & H3). split; [change (real (t_rate (Fl := F f32A) t)) with (real (t_rate (Fl := spec_float) t)) in H1; lra|]. exists b. split; [exact H2|lra].
Qed.
Lemma shared_steady : keeps_moving wormhole_b0 "fast" 1024 2 (all_transfers (build f32A shared)).
Proof.
  split; [vm_compute; discriminate|]. split; [split; vm_compute; discriminate|]. change (String.eqb "fast" "none") with false. cbv iota.
  assert (EN : Z.of_nat (List.length (all_transfers (build f32A shared))) = 2) by (vm_compute; reflexivity). change (transfer spec_float) with (transfer (F f32A)). rewrite EN. split; [vm_compute; discriminate|].
  apply Forall_forall. intros t Ht. destruct (shared_rates t Ht) as (H1 & b & H2 & H3). exists b, 1%R. split; [exact H2|]. split; [apply (at_least 1); [lia|vm_compute; reflexivity|vm_compute; reflexivity]|].
  split; [exact H1|]. split; [intros ty; destruct ty; (apply (at_least 1); [lia|vm_compute; reflexivity|vm_compute; reflexivity])|]. split; [split; [|]; change (64 * 2) with 128; lra|].
  change (256 * 2 * 2) with 1024. assert (1 <= Rmin (real (t_rate t)) (real b))%R by (apply Rmin_glb; assumption). change (Rmin (real (t_rate (Fl := F f32A) t)) (real b)) with (Rmin (real (t_rate (Fl := spec_float) t)) (real b)) in *. lra.
Qed.
Lemma shared_cycles : cycles_for_all 1024 2 (fun _ => 0) (all_transfers (build f32A shared)) <= MAX_CYCLE_LIMIT /\ cycles_for_all 1024 1024 (fun _ => 0) (all_transfers (build f32A shared)) <= MAX_CYCLE_LIMIT.
Proof. split; vm_compute; discriminate. Qed.

(** * The results *)
Lemma off_grid_run : npeAPI_make f32A (config_of "wormhole_b0" "fast" 1024) = Ok wormhole_b0 /\
  verdict (runNPE f32A same_links same_buckets wormhole_b0 (config_of "wormhole_b0" "fast" 1024) (build f32A off_grid)) = Some (Some WORKLOAD_VALIDATION_FAILED).
Proof. split; vm_compute; reflexivity. Qed.
Lemma two_rectangles_run : verdict (runNPE f32A same_links same_buckets wormhole_b0 (config_of "wormhole_b0" "fast" 1024) (build f32A two_rectangles)) = Some (Some UNDEF_ERR).
Proof. vm_compute; reflexivity. Qed.
Lemma grouped_run2 : npeAPI_make f32A (config_of "P100" "fast" 1024) = Ok blackhole_p100 /\
  verdict (runNPE f32A same_links same_buckets blackhole_p100 (config_of "P100" "fast" 1024) (build f32A grouped)) = Some (Some DEPENDENCY_GEN_FAILED).
Proof. split; vm_compute; reflexivity. Qed.
Lemma circular_run : npeAPI_make f32A (config_of "wormhole_b0" "fast" 60000000) = Ok wormhole_b0 /\
  verdict (runNPE f32A same_links same_buckets wormhole_b0 (config_of "wormhole_b0" "fast" 60000000) (build f32A circular)) = Some (Some EXCEEDED_SIM_CYCLE_LIMIT).
Proof. split; vm_compute; reflexivity. Qed.
Lemma shared_run : verdict (runNPE f32A same_links same_buckets wormhole_b0 (config_of "wormhole_b0" "fast" 1024) (build f32A shared)) = Some None.
Proof. vm_compute; reflexivity. Qed.
