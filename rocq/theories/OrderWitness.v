(* A workload whose results depend on the order of a multicast link set, and one whose results do not (C23). *)
From Coq Require Import ZArith Reals String List Bool Lia Lra Floats.SpecFloat Sorting.Permutation.
From Verif Require Import Base Arith Util Device SpecDevice Workload SpecWorkload DepTracker Rates Stats Engine Api SpecEngine SpecRates SpecStats SpecApi ScheduleProofs SpecOrder OrderRun Cases EngineWitness ApiWitness.
Import ListNotations.
Local Open Scope string_scope.
Local Open Scope list_scope.
Open Scope Z_scope.

Definition turned_links (_ : Z) (l : list Z) : list Z := rev l.
Definition turned_buckets (bs : list bucket) : list bucket := rev bs.
Lemma turned_links_order : link_order turned_links.
Proof. intros i l. symmetry. apply Permutation_rev. Qed.
Lemma turned_buckets_order : bucket_order turned_buckets.
Proof. intros l. symmetry. apply Permutation_rev. Qed.

(* two unicasts going east and a multicast going east and south, from one core *)
Definition cast (dst : noc_dest) : transfer (F f32A) := tr_make 1000 1 (at_core (0, 1, 1)) dst one32 0 NOC0 "" "WRITE" (-1) (-1) (-1).
Definition bend_trs : list (transfer (F f32A)) := [cast far; cast far; cast (one_core (0, 3, 4))].
Definition wl_bend : workload (F f32A) := build f32A bend_trs.
Lemma bend_usable : usable_workload wormhole_b0 (api_config "fast" false one32) wl_bend.
Proof.
  split; [|split; [|split; [|split; [|split]]]].
  - split; [vm_compute; reflexivity|]. split; vm_compute; reflexivity.
  - vm_compute. reflexivity.
  - vm_compute. discriminate.
  - assert (H : forall t, In t (all_transfers wl_bend) -> rangesb t = true /\ 0 < t_bytes t /\ t_dst t <> Multicast [] /\ t_gid t = -1 /\ number (t_rate t)).
    { intros t Ht. vm_compute in Ht. destruct Ht as [<-|[<-|[<-|[]]]]; (split; [vm_compute; reflexivity|]; split; [vm_compute; reflexivity|]; split; [cbn [t_dst]; discriminate|]; split; [reflexivity|]; split; [vm_compute; reflexivity|right; do 2 eexists; cbn [t_rate]; reflexivity]). }
    apply Forall_forall. intros t Ht. destruct (H t Ht) as (H1 & H2 & H3 & H4 & H5). apply rangesb_ok in H1.
    split; [exact H1|]. split; [intros E; exfalso; change (0 < t_bytes (Fl := spec_float) t) in H2; rewrite E in H2; discriminate H2|]. split; [exact H3|]. split; [intros [E _]; contradiction|exact H5].
  - destruct one_scale as [S1 S2]. split; [exact S1|]. change (cf_scale (api_config "fast" false one32)) with (f_one f32A). rewrite S2.
    assert (H : forall t, In t (all_transfers wl_bend) -> t_off t = 0).
    { intros t Ht. vm_compute in Ht. destruct Ht as [<-|[<-|[<-|[]]]]; reflexivity. }
    apply Forall_forall. intros t Ht. assert (HH : t_off (Fl := spec_float) t = 0) by exact (H t Ht). rewrite HH. lra.
  - intros id Hid. destruct share_usable as (_ & _ & _ & _ & _ & G). exact (G id Hid).
Qed.
(* estimated cycles of each device *)
Definition estimates (r : outcome (npe_result f32A)) : list (Z * Z) := match r with Ok (Stats s) => map (fun p => (fst p, ds_est f32A (snd p))) s | _ => [] end.
(* start and end cycle of each transfer *)
Definition spans (r : outcome (sim f32A + npe_error)) : list (Z * Z) := match r with Ok (inl s) => map (fun x => (s_start x, s_end x)) (sm_sts f32A s) | _ => [] end.
Lemma bend_runs : exists ord ord' d cfg wl ts, link_order ord /\ link_order ord' /\ npeAPI_make f32A cfg = Ok d /\ built wl [ts] /\ usable_workload d cfg wl /\ validate d wl = Ok true /\
  spans (simulate f32A ord same_buckets d true (cf_cpt cfg) wl) = [(0, 2000); (0, 2000); (2000, 2900)] /\
  spans (simulate f32A ord' same_buckets d true (cf_cpt cfg) wl) = [(0, 3030); (0, 3030); (0, 3030)] /\
  estimates (runNPE f32A ord same_buckets d cfg wl) <> estimates (runNPE f32A ord' same_buckets d cfg wl).
Proof.
  exists same_links, turned_links, wormhole_b0, (api_config "fast" false one32), wl_bend, bend_trs. split; [exact same_links_order|]. split; [exact turned_links_order|].
  split; [vm_compute; reflexivity|]. split; [eapply build_built; reflexivity|]. split; [exact bend_usable|]. split; [vm_compute; reflexivity|]. split; [vm_compute; reflexivity|]. split; [vm_compute; reflexivity|].
  vm_compute. discriminate.
Qed.

(* the multicast goes south only *)
Definition south_trs : list (transfer (F f32A)) := [cast far; cast far; cast (one_core (0, 3, 1))].
Definition wl_south : workload (F f32A) := build f32A south_trs.
Lemma south_usable : usable_workload wormhole_b0 (api_config "fast" false one32) wl_south.
Proof.
  split; [|split; [|split; [|split; [|split]]]].
  - split; [vm_compute; reflexivity|]. split; vm_compute; reflexivity.
  - vm_compute. reflexivity.
  - vm_compute. discriminate.
  - assert (H : forall t, In t (all_transfers wl_south) -> rangesb t = true /\ 0 < t_bytes t /\ t_dst t <> Multicast [] /\ t_gid t = -1 /\ number (t_rate t)).
    { intros t Ht. vm_compute in Ht. destruct Ht as [<-|[<-|[<-|[]]]]; (split; [vm_compute; reflexivity|]; split; [vm_compute; reflexivity|]; split; [cbn [t_dst]; discriminate|]; split; [reflexivity|]; split; [vm_compute; reflexivity|right; do 2 eexists; cbn [t_rate]; reflexivity]). }
    apply Forall_forall. intros t Ht. destruct (H t Ht) as (H1 & H2 & H3 & H4 & H5). apply rangesb_ok in H1.
    split; [exact H1|]. split; [intros E; exfalso; change (0 < t_bytes (Fl := spec_float) t) in H2; rewrite E in H2; discriminate H2|]. split; [exact H3|]. split; [intros [E _]; contradiction|exact H5].
  - destruct one_scale as [S1 S2]. split; [exact S1|]. change (cf_scale (api_config "fast" false one32)) with (f_one f32A). rewrite S2.
    assert (H : forall t, In t (all_transfers wl_south) -> t_off t = 0).
    { intros t Ht. vm_compute in Ht. destruct Ht as [<-|[<-|[<-|[]]]]; reflexivity. }
    apply Forall_forall. intros t Ht. assert (HH : t_off (Fl := spec_float) t = 0) by exact (H t Ht). rewrite HH. lra.
  - intros id Hid. destruct share_usable as (_ & _ & _ & _ & _ & G). exact (G id Hid).
Qed.
Lemma south_straight : straight_multicasts wormhole_b0 wl_south.
Proof.
  intros t m r Ht Hm Hr. vm_compute in Ht. destruct Ht as [<-|[<-|[<-|[]]]]; cbn [t_dst] in Hm; try discriminate. vm_compute in Hr. injection Hr as <-.
  intros a b Ha Hb. cbn [In] in Ha, Hb. repeat (destruct Ha as [<-|Ha]; [repeat (destruct Hb as [<-|Hb]; [vm_compute; reflexivity|]); destruct Hb|]). destruct Ha.
Qed.
Lemma south_proper : proper wl_south. Proof. proper. Qed.
Lemma share_unicasts : unicasts_only (wl_share f32A).
Proof. apply Forall_forall. intros t Ht. vm_compute in Ht. destruct Ht as [<-|[<-|[]]]; eexists; cbn [t_dst]; reflexivity. Qed.
Lemma bend_proper : proper wl_bend. Proof. proper. Qed.
