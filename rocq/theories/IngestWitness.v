(* Concrete files for the properties of the loaders. *)
From Coq Require Import ZArith Lia Bool String List Floats.SpecFloat ZifyBool.
From Verif Require Import Base Arith Util Device Workload SpecWorkload Json Ingest SpecIngest IngestProofs IngestTrace IngestTotal.
Import ListNotations.
Local Open Scope string_scope.
Local Open Scope list_scope.
Open Scope Z_scope.

Definition S (k s : string) : string * json := (k, JString s).
Definition N (k : string) (z : Z) : string * json := (k, JInt z).
Definition event (proc ty : string) (dev x y ts : Z) (more : list (string * json)) : json :=
  JObject ([S "proc" proc; S "type" ty; N "src_device_id" dev; N "sx" x; N "sy" y; N "timestamp" ts] ++ more).
Definition zone_event (proc : string) (dev x y ts : Z) (name phase : string) : json :=
  event proc "" dev x y ts [S "zone" name; S "zone_phase" phase].
Definition view (r : outcome (option work)) : option (list (Z * coord * noc_dest * Z * Z * Z * Z)) :=
  match r with
  | Ok (Some wl) => Some (map (fun t => (t_psize t, t_src t, t_dst t, t_off t, t_gid t, t_gix t, t_gpar t)) (all_transfers wl))
  | _ => None
  end.
(* two kernels on one chip: a write, a read, a read through the saved state *)
Definition tr_plain : list json :=
  [zone_event "BRISC" 0 1 1 100 "KERNEL" "ZONE_START";
   event "BRISC" "WRITE_" 0 1 1 110 [N "dx" 4; N "dy" 5; N "num_bytes" 2048; S "noc" "NOC_0"];
   event "BRISC" "READ" 0 1 1 120 [N "dx" 4; N "dy" 5; N "num_bytes" 64; S "noc" "NOC_1"];
   event "BRISC" "READ_SET_STATE" 0 1 1 130 [N "dx" 7; N "dy" 8; N "num_bytes" 32; S "noc" "NOC_0"];
   event "BRISC" "READ_BARRIER_START" 0 1 1 135 [S "noc" "NOC_0"];
   event "BRISC" "READ_WITH_STATE" 0 1 1 140 [S "noc" "NOC_0"];
   zone_event "BRISC" 0 1 1 200 "KERNEL" "ZONE_END"].
(* a read from another chip *)
Definition tr_chips : list json :=
  [zone_event "BRISC" 0 1 1 100 "KERNEL" "ZONE_START"; zone_event "BRISC" 1 1 1 100 "KERNEL" "ZONE_START";
   event "BRISC" "READ" 0 1 1 120 [N "dst_device_id" 1; N "dx" 4; N "dy" 5; N "num_bytes" 64; S "noc" "NOC_1"]].
(* two cores that set their states *)
Definition tr_cores : list json :=
  [zone_event "BRISC" 0 1 1 100 "KERNEL" "ZONE_START"; 
   event "BRISC" "READ_SET_STATE" 0 1 1 110 [N "dx" 7; N "dy" 8; N "num_bytes" 32; S "noc" "NOC_0"];
   event "BRISC" "READ_SET_STATE" 0 2 2 120 [N "dx" 3; N "dy" 4; N "num_bytes" 64; S "noc" "NOC_0"];
   event "BRISC" "READ_WITH_STATE" 0 1 1 130 [S "noc" "NOC_0"]].
Definition hop_to (fx fy parent : Z) : json :=
  JObject [S "noc" "NOC_0"; N "device" 0; N "segment_start_x" 1; N "segment_start_y" 1; N "forward_x" fx; N "forward_y" fy; N "parent_id" parent].
Definition fabric_event (segs : list json) : json :=
  event "BRISC" "FABRIC_UNICAST_WRITE" 0 1 1 120 [N "dx" 4; N "dy" 5; N "num_bytes" 64; S "noc" "NOC_0"; ("fabric_send", JObject [("path", JArray segs)])].
Definition tr_fabric (segs : list json) : list json := [zone_event "BRISC" 0 1 1 100 "KERNEL" "ZONE_START"; fabric_event segs].
Definition chain3 := [hop_to 2 1 (-1); hop_to 3 1 0; hop_to 4 1 1].
Definition chain_gap := [hop_to 2 1 (-1); hop_to (-1) 1 0; hop_to 4 1 1].

Lemma lift {X} (o : outcome (option X)) y : match o with Ok (Some x) => y = Some x | _ => False end -> o = Ok y.
Proof. destruct o as [[x|]| | | | | |]; intros H; try contradiction. subst. reflexivity. Qed.
Definition convert (name : string) (evs : list json) : outcome (option work) := convertNocTracesToNpeWorkload "t.json" name (Parsed (JArray evs)).

(** * C47 *)
Lemma plain_converts : view (convert "wormhole_b0" tr_plain) =
  Some [(2048, mkCoord 0 1 1, Unicast (mkCoord 0 5 4), 120, -1, -1, -1); (64, mkCoord 0 5 4, Unicast (mkCoord 0 1 1), 290, -1, -1, -1);
        (32, mkCoord 0 8 7, Unicast (mkCoord 0 1 1), 310, -1, -1, -1)].
Proof. vm_compute. reflexivity. Qed.
(* the single transfer of a converted trace *)
Definition only (o : outcome (option work)) (P : trans -> Prop) : Prop :=
  match o with Ok (Some wl) => match all_transfers wl with [t] => P t | _ => False end | _ => False end.
Lemma only_ok o P : only o P -> exists wl t, o = Ok (Some wl) /\ all_transfers wl = [t] /\ P t.
Proof.
  unfold only. destruct o as [[wl|]| | | | | |]; try contradiction. destruct (all_transfers wl) as [|t [|]] eqn:E; try contradiction. intros H. exists wl, t. auto.
Qed.
Lemma read_across_chips : exists name evs ev wl t, In ev evs /\ moves ev /\ text ev "type" "READ" /\
  int_or ev "src_device_id" 0 0 /\ int_or ev "dst_device_id" 0 1 /\
  convertNocTracesToNpeWorkload "t.json" name (Parsed (JArray evs)) = Ok (Some wl) /\ all_transfers wl = [t] /\
  c_dev (t_src t) = 0 /\ exists c, t_dst t = Unicast c /\ c_dev c = 1.
Proof.
  assert (K : only (convert "N300" tr_chips) (fun t => c_dev (t_src t) = 0 /\ exists c, t_dst t = Unicast c /\ c_dev c = 1)).
  { vm_compute. split; [reflexivity|]. eexists. split; reflexivity. }
  apply only_ok in K as (wl & t & E & T & P). exists "N300", tr_chips, (nth 2 tr_chips JNull), wl, t.
  split; [right; right; left; reflexivity|]. split; [apply moves_b_iff; reflexivity|]. split; [apply text_iff; reflexivity|]. split; [apply int_or_iff; reflexivity|]. split; [apply int_or_iff; reflexivity|]. split; [exact E|]. split; [exact T|exact P].
Qed.

(** * C48 *)
Lemma state_of_another_core : exists name evs s ev wl t, In s evs /\ In ev evs /\ same_processor s ev /\ is_set Read s /\ int_or s "dx" (-1) 7 /\ int_or s "dy" (-1) 8 /\
  text ev "type" "READ_WITH_STATE" /\ (forall s', In s' evs -> is_set Read s' -> same_processor s' ev -> s' = s) /\
  convertNocTracesToNpeWorkload "t.json" name (Parsed (JArray evs)) = Ok (Some wl) /\ all_transfers wl = [t] /\
  t_src t = mkCoord 0 4 3 /\ t_dst t = Unicast (mkCoord 0 2 2).
Proof.
  assert (K : only (convert "wormhole_b0" tr_cores) (fun t => t_src t = mkCoord 0 4 3 /\ t_dst t = Unicast (mkCoord 0 2 2))).
  { vm_compute. split; reflexivity. }
  apply only_ok in K as (wl & t & E & T & P). exists "wormhole_b0", tr_cores, (nth 1 tr_cores JNull), (nth 3 tr_cores JNull), wl, t.
  split; [right; left; reflexivity|]. split; [right; right; right; left; reflexivity|].
  split. { exists "BRISC", 1, 1, 0. rewrite !text_iff, !int_or_iff. vm_compute. auto 10. }
  split; [apply set_b_iff; reflexivity|]. split; [apply int_or_iff; reflexivity|]. split; [apply int_or_iff; reflexivity|]. split; [apply text_iff; reflexivity|]. split; [|split; [exact E|split; [exact T|exact P]]].
  intros s' Hin HS (p & x & y & c & H). rewrite !text_iff, !int_or_iff in H. destruct H as (_ & _ & H1 & H2 & _). apply set_b_iff in HS.
  destruct Hin as [<-|[<-|[<-|[<-|[]]]]]; [vm_compute in HS; discriminate|reflexivity|vm_compute in H1, H2; congruence|vm_compute in HS; discriminate].
Qed.

(** * C49 *)
Lemma no_events : convert "wormhole_b0" [] = UB "float to integer".
Proof. vm_compute. reflexivity. Qed.
Lemma idle_chip : exists evs, Forall known_proc evs /\ Forall known_phase evs /\ Forall small_time evs /\ (forall ev, In ev evs -> int_or ev "src_device_id" (-1) 0) /\
  convertNocTracesToNpeWorkload "t.json" "wormhole_b0" (Parsed (JArray evs)) <> UB "float to integer" /\
  convertNocTracesToNpeWorkload "t.json" "N300" (Parsed (JArray evs)) = UB "float to integer".
Proof.
  exists tr_plain. split; [|split; [|split; [|split; [|split]]]].
  - repeat (constructor; [exists "BRISC"; split; [apply text_iff; reflexivity|left; reflexivity]|]). constructor.
  - repeat (constructor; [eexists; split; [apply text_iff; reflexivity|cbn; auto]|]). constructor.
  - repeat (constructor; [intros z H; apply int_or_iff in H; vm_compute in H; lia|]). constructor.
  - intros ev H. repeat (destruct H as [<-|H]; [apply int_or_iff; reflexivity|]). destruct H.
  - vm_compute. discriminate.
  - vm_compute. reflexivity.
Qed.
Lemma unknown_processor : exists ev, text ev "proc" "MRISC" /\ convertNocTracesToNpeWorkload "t.json" "wormhole_b0" (Parsed (JArray (tr_plain ++ [ev]))) = UB "empty optional".
Proof. exists (event "MRISC" "READ" 0 1 1 210 []). split; [apply text_iff; reflexivity|vm_compute; reflexivity]. Qed.
Lemma missing_processor : exists fs, text (JObject fs) "proc" "" /\ convertNocTracesToNpeWorkload "t.json" "wormhole_b0" (Parsed (JArray (tr_plain ++ [JObject fs]))) = UB "empty optional".
Proof. exists [N "timestamp" 210]. split; [apply text_iff; reflexivity|vm_compute; reflexivity]. Qed.
Lemma unnamed_phase : exists ev, text ev "zone_phase" "begin" /\ known_proc ev /\ convertNocTracesToNpeWorkload "t.json" "wormhole_b0" (Parsed (JArray (ev :: tr_plain))) = UB "empty optional".
Proof.
  exists (event "BRISC" "" 0 1 1 100 [S "zone" "BRISC-KERNEL"; S "zone_phase" "begin"]). split; [apply text_iff; reflexivity|].
  split; [exists "BRISC"; split; [apply text_iff; reflexivity|left; reflexivity]|vm_compute; reflexivity].
Qed.
Lemma without_zones : exists evs, evs <> [] /\ Forall moves evs /\ Forall known_proc evs /\ convertNocTracesToNpeWorkload "t.json" "wormhole_b0" (Parsed (JArray evs)) = UB "null pointer".
Proof.
  exists [event "BRISC" "WRITE_" 0 1 1 110 [N "dx" 4; N "dy" 5; N "num_bytes" 2048; S "noc" "NOC_0"]]. split; [discriminate|]. split; [constructor; [apply moves_b_iff; reflexivity|constructor]|].
  split; [constructor; [|constructor]; exists "BRISC"; split; [apply text_iff; reflexivity|left; reflexivity]|]. vm_compute. reflexivity.
Qed.
Lemma plain_clean : clean wormhole_b0 tr_plain.
Proof.
  split; [repeat (constructor; [exists "BRISC"; split; [apply text_iff; reflexivity|left; reflexivity]|]); constructor|].
  split; [repeat (constructor; [eexists; split; [apply text_iff; reflexivity|cbn; auto]|]); constructor|].
  split; [repeat (constructor; [intros z H; apply int_or_iff in H; vm_compute in H; lia|]); constructor|].
  assert (NP : forall ev segs, In ev tr_plain -> ~ path_of ev segs).
  { intros ev segs Hin (f & F & _). unfold fabric in F. apply holds_iff in F. repeat (destruct Hin as [<-|Hin]; [vm_compute in F; discriminate|]). destruct Hin. }
  split. { apply Forall_forall. intros ev Hin. assert (K : small ev "sx" /\ small ev "sy" /\ small ev "dx" /\ small ev "dy").
    { repeat (destruct Hin as [<-|Hin]; [split; [|split; [|split]]; intros z H; apply int_or_iff in H; vm_compute in H; lia|]). destruct Hin. }
    destruct K as (K1 & K2 & K3 & K4). split; [exact K1|]. split; [exact K2|]. split; [exact K3|]. split; [exact K4|]. intros segs r HP. exfalso. exact (NP ev segs Hin HP). }
  assert (PL : placed (nth 0 tr_plain JNull) 0). { unfold placed. rewrite !int_or_iff. vm_compute. split; [discriminate|]. split; [discriminate|reflexivity]. }
  split. { intros dev [<-|[]]. exists (nth 0 tr_plain JNull). split; [left; reflexivity|exact PL]. }
  split. { exists (nth 0 tr_plain JNull), (tl tr_plain), (nth 0 tr_plain JNull), 0, 1, 1. split; [reflexivity|]. split; [left; reflexivity|]. split. { exists "BRISC", 1, 1, 0. rewrite !text_iff, !int_or_iff. vm_compute. auto 10. }
    split; [exact PL|]. split; [unfold marks_zone; rewrite !text_iff; vm_compute; split; discriminate|]. rewrite !int_or_iff. vm_compute. intuition discriminate. }
  exists (0 + 1 + 1 + 1 + 1 + 1 + 1 + 1). split; [|reflexivity]. assert (TS : forall l, (forall ev, In ev l -> In ev tr_plain) -> trace_size l (Z.of_nat (List.length l))).
  { induction l as [|e l IH]; intros H; [constructor|]. cbn [List.length]. replace (Z.of_nat (Datatypes.S (List.length l))) with (Z.of_nat (List.length l) + 1) by lia. apply trace_plain; [intros segs; apply NP, H; left; reflexivity|apply IH; intros ev He; apply H; right; exact He]. }
  exact (TS tr_plain (fun _ h => h)).
Qed.

(** * C50 *)
Lemma chain_converts : view (convert "wormhole_b0" (tr_fabric chain3)) =
  Some [(64, mkCoord 0 1 1, Unicast (mkCoord 0 1 2), 70, 0, 0, -1); (64, mkCoord 0 1 1, Unicast (mkCoord 0 1 3), 70, 0, 1, 0); (64, mkCoord 0 1 1, Unicast (mkCoord 0 1 4), 70, 0, 2, 1)].
Proof. vm_compute. reflexivity. Qed.
Lemma skipped_segment : exists ev segs wl, moves ev /\ path_of ev segs /\ List.length segs = 3%nat /\
  (forall i r, nth_error segs i = Some r -> int_or r "parent_id" (-1) (Z.of_nat i - 1)) /\
  convertNocTracesToNpeWorkload "t.json" "wormhole_b0" (Parsed (JArray [zone_event "BRISC" 0 1 1 100 "KERNEL" "ZONE_START"; ev])) = Ok (Some wl) /\
  map (fun t => (t_gid t, t_gix t, t_gpar t)) (all_transfers wl) = [(0, 0, -1); (0, 1, 1)].
Proof.
  assert (K : match convert "wormhole_b0" (tr_fabric chain_gap) with Ok (Some wl) => map (fun t => (t_gid t, t_gix t, t_gpar t)) (all_transfers wl) = [(0, 0, -1); (0, 1, 1)] | _ => False end) by (vm_compute; reflexivity).
  destruct (convert "wormhole_b0" (tr_fabric chain_gap)) as [[wl|]| | | | | |] eqn:E; try contradiction.
  exists (fabric_event chain_gap), chain_gap, wl. split; [apply moves_b_iff; reflexivity|]. split. { eexists. split; [apply holds_iff; reflexivity|apply holds_iff; reflexivity]. }
  split; [reflexivity|]. split; [|split; [exact E|exact K]]. intros i r H. apply int_or_iff. destruct i as [|[|[|i]]]; [| | |destruct i; discriminate]; injection H as <-; reflexivity.
Qed.
Lemma blackhole_chain : exists ev segs, moves ev /\ path_of ev segs /\ List.length segs = 3%nat /\ (forall i r, nth_error segs i = Some r -> exists s, complete r s) /\
  createWorkloadFromJSON "t.json" "P150" true true (Parsed (JArray [zone_event "BRISC" 0 1 1 100 "KERNEL" "ZONE_START"; ev])) = Ok None.
Proof.
  exists (fabric_event chain3), chain3. split; [apply moves_b_iff; reflexivity|]. split. { eexists. split; [apply holds_iff; reflexivity|apply holds_iff; reflexivity]. }
  split; [reflexivity|]. split; [|vm_compute; reflexivity]. intros i r H. exists (seg_of r). split; [apply segment_iff; reflexivity|].
  destruct i as [|[|[|i]]]; [| | |destruct i; discriminate]; injection H as <-; vm_compute; intuition discriminate.
Qed.

(** * C52 *)
Definition entry (ps np sx sy dx dy : Z) (noc : string) : json :=
  JObject [N "packet_size" ps; N "num_packets" np; N "src_x" sx; N "src_y" sy; N "dst_x" dx; N "dst_y" dy; S "noc_type" noc].
Definition mcast_entry (ps np sx sy ax ay bx b_y : Z) : json :=
  JObject [N "packet_size" ps; N "num_packets" np; N "src_x" sx; N "src_y" sy; N "mcast_start_x" ax; N "mcast_start_y" ay; N "mcast_end_x" bx; N "mcast_end_y" b_y; S "noc_type" "NOC_0"].
Definition wl_file (es : list json) : json := JObject [("phases", JArray [JObject [("transfers", JArray es)]])].
Lemma load_example : view (createWorkloadFromJSON "w.json" "wormhole_b0" false true (Parsed (wl_file [entry 64 10 1 1 4 5 "NOC_0"; JObject [N "packet_size" 3]; mcast_entry 32 2 1 1 2 3 4 5]))) =
  Some [(64, mkCoord 0 1 1, Unicast (mkCoord 0 5 4), 0, -1, -1, -1); (32, mkCoord 0 1 1, Multicast [mkGrid (mkCoord 0 3 2) (mkCoord 0 5 4)], 0, -1, -1, -1)].
Proof. vm_compute. reflexivity. Qed.
Lemma reversed_entry : exists e e', well_formed_entry e /\ reversed e' /\
  loadJSONWorkloadFormat "w.json" true (Parsed (JObject [("phases", JArray [JObject [("transfers", JArray [e; e'])]])])) = Throw UNDEF_ERR /\
  createWorkloadFromJSON "w.json" "wormhole_b0" false true (Parsed (JObject [("phases", JArray [JObject [("transfers", JArray [e; e'])]])])) = Ok None.
Proof.
  exists (entry 64 10 1 1 4 5 "NOC_0"), (mcast_entry 32 2 1 1 4 5 2 3). split.
  { assert (K := entry_spec (entry 64 10 1 1 4 5 "NOC_0") _ eq_refl). cbn in K. exact (proj1 K). }
  split. { exists 0, 4, 5, 2, 3, (mkCoord 0 5 4), (mkCoord 0 3 2). split; [apply int_or_iff; reflexivity|]. split; [unfold multicast_entry; rewrite !int_or_iff, !int_field_iff; vm_compute; auto 10|].
    split; [exact (coord_is_make 0 5 4)|]. split; [exact (coord_is_make 0 3 2)|]. cbn. lia. }
  split; vm_compute; reflexivity.
Qed.
Lemma phase_without_transfers : exists e, well_formed_entry e /\
  createWorkloadFromJSON "w.json" "wormhole_b0" false true (Parsed (JObject [("phases", JArray [JObject [("transfers", JArray [e])]; JObject []])])) = StdThrow "simdjson_error".
Proof.
  exists (entry 64 10 1 1 4 5 "NOC_0"). split. { assert (K := entry_spec (entry 64 10 1 1 4 5 "NOC_0") _ eq_refl). cbn in K. exact (proj1 K). } vm_compute. reflexivity.
Qed.
Lemma large_fields : exists e wl t, well_formed_entry e /\ int_field e "packet_size" 4294967360 /\ int_field e "dst_x" 65540 /\
  createWorkloadFromJSON "w.json" "wormhole_b0" false true (Parsed (JObject [("phases", JArray [JObject [("transfers", JArray [e])]])])) = Ok (Some wl) /\
  all_transfers wl = [t] /\ t_psize t = 64 /\ exists c, t_dst t = Unicast c /\ c_col c = 4.
Proof.
  assert (K : only (createWorkloadFromJSON "w.json" "wormhole_b0" false true (Parsed (wl_file [entry 4294967360 10 1 1 65540 5 "NOC_0"]))) (fun t => t_psize t = 64 /\ exists c, t_dst t = Unicast c /\ c_col c = 4)).
  { vm_compute. split; [reflexivity|]. eexists. split; reflexivity. }
  apply only_ok in K as (wl & t & E & T & P). exists (entry 4294967360 10 1 1 65540 5 "NOC_0"), wl, t.
  split. { assert (K := entry_spec (entry 4294967360 10 1 1 65540 5 "NOC_0") _ eq_refl). cbn in K. exact (proj1 K). }
  split; [apply int_field_iff; reflexivity|]. split; [apply int_field_iff; reflexivity|]. split; [exact E|]. split; [exact T|exact P].
Qed.
