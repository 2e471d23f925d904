(* Proofs about JSON fields and about workload files (C52). *)
From Coq Require Import ZArith Lia Bool String List Floats.SpecFloat ZifyBool.
From Verif Require Import Base Arith Util Device Workload SpecWorkload Json Ingest SpecIngest UtilProofs WorkloadProofs TrackerProofs.
Import ListNotations.
Local Open Scope string_scope.
Local Open Scope list_scope.
Open Scope Z_scope.
Ltac Zify.zify_post_hook ::= idtac.

(** * Fields *)
Lemma holds_iff j k v : holds j k v <-> get_field j k = Some v.
Proof.
  unfold holds, get_field. split; [intros (fs & -> & H); exact H|]. destruct j; try discriminate. intros H. eauto.
Qed.
Lemma as_int_iff j z : as_int j = Some z <-> j = JInt z /\ - 2 ^ 63 <= z < 2 ^ 63.
Proof.
  unfold as_int, in_i64. destruct j; split; try discriminate; try (intros [E _]; discriminate).
  - destruct (_ && _) eqn:E; [|discriminate]. intros H. injection H as <-. split; [reflexivity|lia].
  - intros [E R]. injection E as <-. replace (_ && _) with true by lia. reflexivity.
Qed.
Lemma int_field_iff j k z : int_field j k z <-> at_key as_int j k = Some z.
Proof.
  unfold int_field, at_key. rewrite holds_iff. destruct (get_field j k) as [v|]; [|split; [intros [E _]; discriminate|discriminate]].
  rewrite as_int_iff. split; [intros [E R]; injection E as ->; auto|intros [-> R]; auto].
Qed.
Lemma int_or_iff j k d z : int_or j k d z <-> int_at j k d = z.
Proof.
  unfold int_or, int_at. rewrite int_field_iff. split.
  - intros [->|[H ->]]; [reflexivity|]. destruct (at_key as_int j k) as [y|] eqn:E; [|reflexivity]. exfalso. apply (H y). apply int_field_iff. assumption.
  - destruct (at_key as_int j k) as [y|] eqn:E; cbn [with_default]; intros <-; [left; reflexivity|]. right. split; [|reflexivity]. intros z' H. apply int_field_iff in H. congruence.
Qed.
Lemma string_iff j k s : holds j k (JString s) <-> at_key as_string j k = Some s.
Proof.
  rewrite holds_iff. unfold at_key. destruct (get_field j k) as [v|]; [|split; discriminate]. split; [intros E; injection E as ->; reflexivity|].
  destruct v; try discriminate. cbn. intros E. injection E as ->. reflexivity.
Qed.
Lemma text_iff j k s : text j k s <-> string_at j k = s.
Proof.
  unfold text, string_at. rewrite string_iff. split.
  - intros [->|[H ->]]; [reflexivity|]. destruct (at_key as_string j k) as [y|] eqn:E; [|reflexivity]. exfalso. apply (H y). apply string_iff. assumption.
  - destruct (at_key as_string j k) as [y|] eqn:E; cbn [with_default]; intros <-; [left; reflexivity|]. right. split; [|reflexivity]. intros z' H. apply string_iff in H. congruence.
Qed.
Lemma array_iff j k l : holds j k (JArray l) <-> at_key as_array j k = Some l.
Proof.
  rewrite holds_iff. unfold at_key. destruct (get_field j k) as [v|]; [|split; discriminate]. split; [intros E; injection E as ->; reflexivity|].
  destruct v; try discriminate. cbn. intros E. injection E as ->. reflexivity.
Qed.
Lemma real_field_iff j k x : real_field j k x <-> at_key as_double j k = Some x.
Proof.
  unfold real_field, at_key. setoid_rewrite holds_iff. destruct (get_field j k) as [v|]; [|split; [intros [E|(z & E & _)]; discriminate|discriminate]].
  split; [intros [E|(z & E & ->)]; injection E as ->; reflexivity|]. destruct v; try discriminate; cbn; intros E; injection E as <-; eauto.
Qed.
Lemma real_or_iff j k x : real_or j k x <-> with_default (at_key as_double j k) (S754_zero false) = x.
Proof.
  unfold real_or. rewrite real_field_iff. split.
  - intros [->|[H ->]]; [reflexivity|]. destruct (at_key as_double j k) as [y|] eqn:E; [|reflexivity]. exfalso. apply (H y). apply real_field_iff. assumption.
  - destruct (at_key as_double j k) as [y|] eqn:E; cbn [with_default]; intros <-; [left; reflexivity|]. right. split; [|reflexivity]. intros z' H. apply real_field_iff in H. congruence.
Qed.
Lemma narrow16_i16 z : narrow16 z (i16 z).
Proof.
  unfold narrow16, i16. change (2 ^ 15) with 32768. change (2 ^ 16) with 65536. pose proof (Z.mod_pos_bound (z + 32768) 65536 eq_refl). split; [lia|].
  replace (z - _) with ((z + 32768) - (z + 32768) mod 65536) by lia. rewrite Zminus_mod_idemp_r, Z.sub_diag. reflexivity.
Qed.
Lemma narrow16_unique z c : narrow16 z c -> c = i16 z.
Proof.
  unfold narrow16, i16. change (2 ^ 15) with 32768. change (2 ^ 16) with 65536. intros [R M]. apply Z.mod_divide in M; [|discriminate]. destruct M as [q M].
  replace (z + 32768) with ((c + 32768) + q * 65536) by lia. rewrite Z.mod_add by discriminate. rewrite Z.mod_small by lia. lia.
Qed.
Lemma coord_is_make dev row col : coord_is (Coord_make dev row col) dev row col.
Proof. unfold coord_is, Coord_make. cbn. auto using narrow16_i16. Qed.
Lemma coord_is_unique c dev row col : coord_is c dev row col -> c = Coord_make dev row col.
Proof. destruct c. unfold coord_is, Coord_make. cbn. intros (A & B & C). f_equal; apply narrow16_unique; assumption. Qed.
Lemma noc_is_if s : noc_is s (if String.eqb s "NOC_0" then NOC0 else NOC1).
Proof. unfold noc_is. destruct (String.eqb_spec s "NOC_0"); auto. Qed.

(** * Entries *)
Lemma unicast_entry_iff e dx dy : unicast_entry e dx dy <-> int_at e "dst_x" (-1) = dx /\ int_at e "dst_y" (-1) = dy /\ (dx =? -1) && (dy =? -1) = false.
Proof. unfold unicast_entry. rewrite !int_or_iff. lia. Qed.
Lemma entry_spec e o : json_transfer e = Ok o -> match o with Some t => well_formed_entry e /\ describes e t | None => ~ well_formed_entry e end.
Proof.
  unfold json_transfer. intros H.
  assert (N : forall k, at_key as_int e k = None -> ~ exists z, int_field e k z) by (intros k E (z & Hz); apply int_field_iff in Hz; congruence).
  destruct (at_key as_int e "packet_size") as [ps|] eqn:E1; [|injection H as <-; intros (W & _); exact (N _ E1 W)].
  destruct (at_key as_int e "num_packets") as [np|] eqn:E2; [|injection H as <-; intros (_ & W & _); exact (N _ E2 W)].
  destruct (at_key as_int e "src_x") as [sx|] eqn:E3; [|injection H as <-; intros (_ & _ & W & _); exact (N _ E3 W)].
  destruct (at_key as_int e "src_y") as [sy|] eqn:E4; [|injection H as <-; intros (_ & _ & _ & W & _); exact (N _ E4 W)].
  apply bind_ok in H as (dst & HD & H). unfold json_destination in HD. set (dev := int_at e "device_id" 0) in *.
  destruct dst as [dst|].
  2: { injection H as <-. intros (_ & _ & _ & _ & [(dx & dy & W)|(ax & ay & bx & b_y & W)] & _).
       - apply unicast_entry_iff in W as (W1 & W2 & W3). rewrite W1, W2, W3 in HD. discriminate.
       - destruct W as (W1 & W2 & W3 & W4 & W5 & W6). apply int_or_iff in W1, W2. rewrite W1, W2 in HD. cbn [Z.eqb andb] in HD.
         apply int_field_iff in W3, W4, W5, W6. rewrite W3, W4, W5, W6 in HD. cbn in HD. apply bind_ok in HD as (m & _ & HD). discriminate. }
  destruct (at_key as_string e "noc_type") as [noc|] eqn:EN.
  2: { injection H as <-. intros (_ & _ & _ & _ & _ & s & W). apply string_iff in W. congruence. }
  injection H as <-.
  assert (K : (exists dx dy, unicast_entry e dx dy /\ dst = Unicast (Coord_make dev dy dx)) \/
    (exists ax ay bx b_y, multicast_entry e ax ay bx b_y /\ dst = Multicast [mkGrid (Coord_make dev ay ax) (Coord_make dev b_y bx)])).
  { destruct (_ && _) eqn:EB in HD.
    - right. destruct (at_key as_int e "mcast_start_x") as [ax|] eqn:F1; [|discriminate]. destruct (at_key as_int e "mcast_start_y") as [ay|] eqn:F2; [|discriminate].
      destruct (at_key as_int e "mcast_end_x") as [bx|] eqn:F3; [|discriminate]. destruct (at_key as_int e "mcast_end_y") as [b_y|] eqn:F4; [|discriminate].
      apply bind_ok in HD as (m & HM & HD). injection HD as <-. unfold mcast_make in HM. apply bind_ok in HM as (u & _ & HM). apply bind_ok in HM as (u' & _ & HM). injection HM as <-.
      exists ax, ay, bx, b_y. split; [|reflexivity]. unfold multicast_entry. rewrite !int_or_iff, !int_field_iff. apply andb_prop in EB as [B1 B2]. apply Z.eqb_eq in B1, B2. auto 10.
    - left. injection HD as <-. do 2 eexists. split; [|reflexivity]. apply unicast_entry_iff. auto. }
  split.
  - split; [exists ps; apply int_field_iff, E1|]. split; [exists np; apply int_field_iff, E2|]. split; [exists sx; apply int_field_iff, E3|]. split; [exists sy; apply int_field_iff, E4|].
    split; [|exists noc; apply string_iff, EN].
    destruct K as [(dx & dy & K & _)|(ax & ay & bx & b_y & K & _)]; [left; exists dx, dy; exact K|right; exists ax, ay, bx, b_y; exact K].
  - unfold describes. cbn [tr_make t_psize t_npkts t_src t_dst t_rate t_off t_noc t_event t_zone t_gid t_gix t_gpar t_bytes].
    split; [intros z Hz; apply int_field_iff in Hz; rewrite E1 in Hz; injection Hz as <-; reflexivity|].
    split; [intros z Hz; apply int_field_iff in Hz; rewrite E2 in Hz; injection Hz as <-; reflexivity|].
    split. { intros v x y Hv Hx Hy. apply int_or_iff in Hv. apply int_field_iff in Hx, Hy. rewrite E3 in Hx. rewrite E4 in Hy. injection Hx as <-. injection Hy as <-. fold dev in Hv. subst v. apply coord_is_make. }
    split. { intros v dx dy Hv Hu. apply int_or_iff in Hv. fold dev in Hv. subst v. apply unicast_entry_iff in Hu as (U1 & U2 & U3).
      destruct K as [(dx' & dy' & K & ->)|(ax & ay & bx & b_y & K & ->)].
      - apply unicast_entry_iff in K as (K1 & K2 & _). subst. eexists. split; [reflexivity|]. apply coord_is_make.
      - exfalso. destruct K as (K1 & K2 & _). apply int_or_iff in K1, K2. rewrite K1 in U1. rewrite K2 in U2. subst. discriminate. }
    split. { intros v ax ay bx b_y Hv Hm. apply int_or_iff in Hv. fold dev in Hv. subst v.
      destruct K as [(dx' & dy' & K & ->)|(ax' & ay' & bx' & by' & K & ->)].
      - exfalso. destruct Hm as (M1 & M2 & _). apply int_or_iff in M1, M2. apply unicast_entry_iff in K as (K1 & K2 & K3). rewrite M1 in K1. rewrite M2 in K2. subst. discriminate.
      - destruct K as (_ & _ & K1 & K2 & K3 & K4), Hm as (_ & _ & M1 & M2 & M3 & M4). apply int_field_iff in K1, K2, K3, K4, M1, M2, M3, M4.
        rewrite K1 in M1; rewrite K2 in M2; rewrite K3 in M3; rewrite K4 in M4. injection M1 as <-. injection M2 as <-. injection M3 as <-. injection M4 as <-.
        do 2 eexists. split; [reflexivity|]. split; apply coord_is_make. }
    split; [intros x Hx; apply real_or_iff in Hx; rewrite Hx; reflexivity|].
    split; [intros z Hz; apply int_or_iff in Hz; rewrite Hz; reflexivity|].
    split; [intros s Hs; apply string_iff in Hs; rewrite EN in Hs; injection Hs as <-; apply noc_is_if|].
    split; [intros s Hs; apply text_iff in Hs; assumption|]. repeat split; reflexivity.
Qed.
Lemma entries_spec es : forall os, mapM json_transfer es = Ok os -> loads es (somes os).
Proof.
  induction es as [|e es IH]; intros os H; [injection H as <-; constructor|]. cbn [mapM] in H. apply bind_ok in H as (o & Ho & H). apply bind_ok in H as (os' & Hos & H). injection H as <-.
  pose proof (entry_spec e o Ho) as S. destruct o as [t|]; cbn [somes flat_map app]; [destruct S as [S1 S2]; apply loads_take; auto|apply loads_skip; auto]; exact (IH _ Hos).
Qed.

(** * Files *)
Lemma number_content (ts : list trans) : forall ph id, Forall2 same_content ts (number_transfers ph id ts).
Proof. induction ts as [|t ts IH]; intros ph id; constructor; [unfold same_content; cbn; repeat split; reflexivity|apply IH]. Qed.
Lemma phases_spec ps : forall wl wl', foldM (fun wl p =>
    let! ts := or_throw (at_key as_array p "transfers") in
    let! trs := mapM json_transfer ts in
    let! r := addPhase wl (somes trs) in
    Ok (fst r)) ps wl = Ok wl' ->
  wl_golden wl' = wl_golden wl /\ wl_zones wl' = wl_zones wl /\ wl_groups wl' = wl_groups wl /\
  (forall h, built wl h -> exists h', built wl' h' /\ List.length h' = (List.length h + List.length ps)%nat) /\
  exists qs, wl_phases wl' = wl_phases wl ++ qs /\
    Forall2 (fun p q => exists es ts, holds p "transfers" (JArray es) /\ loads es ts /\ Forall2 same_content ts (ph_trs q)) ps qs.
Proof.
  induction ps as [|p ps IH]; intros wl wl' H.
  - injection H as <-. split; [reflexivity|]. split; [reflexivity|]. split; [reflexivity|]. split; [intros h B; exists h; cbn; auto|]. exists []. rewrite app_nil_r. split; [reflexivity|constructor].
  - cbn [foldM] in H. apply bind_ok in H as (w & Hw & H). apply bind_ok in Hw as (es & HE & Hw). apply bind_ok in Hw as (os & HO & Hw). apply bind_ok in Hw as ([w' id] & HA & Hw). injection Hw as <-. cbn [fst] in *.
    destruct (IH _ _ H) as (I1 & I2 & I3 & IB & qs & I4 & I5).
    assert (HA' := HA). unfold addPhase in HA'. destruct (_ <? _) in HA'; [|discriminate]. injection HA' as <- _. cbn [wl_golden wl_zones wl_groups wl_phases fst] in *.
    split; [exact I1|]. split; [exact I2|]. split; [exact I3|]. split.
    { intros h B. destruct (IB (h ++ [somes os])) as (h' & B' & L); [eapply built_add; [exact B|exact HA]|]. exists h'. split; [exact B'|]. rewrite L, app_length. cbn. lia. }
    eexists. split; [rewrite I4, <- app_assoc; reflexivity|]. constructor; [|exact I5].
    exists es, (somes os). split; [|split; [apply entries_spec, HO|apply number_content]]. apply array_iff. destruct (at_key as_array p "transfers"); [injection HE as ->; reflexivity|discriminate].
Qed.
Theorem workload_loaded path accept f wl : loadJSONWorkloadFormat path accept f = Ok (Some wl) ->
  exists j ps, f = Parsed j /\ accept = true /\ holds j "phases" (JArray ps) /\ (Z.of_nat (List.length ps) <= 2 ^ 31 -> dense wl) /\ wl_path wl = Some path /\ wl_zones wl = [] /\ wl_groups wl = 0 /\
    (forall g n, holds j "golden_result" g -> holds g "cycles" (JInt n) -> getGoldenResultCycles wl 0 = Ok (0, n mod 2 ^ 32)) /\
    (no_golden j -> wl_golden wl = []) /\
    Forall2 (fun p q => exists es ts, holds p "transfers" (JArray es) /\ loads es ts /\ Forall2 same_content ts (ph_trs q)) ps (wl_phases wl).
Proof.
  unfold loadJSONWorkloadFormat. destruct f as [| |j]; try discriminate. destruct accept; [|discriminate]. destruct (json_workload path j) as [o| | | | | |] eqn:E; try discriminate. intros H. injection H as ->.
  unfold json_workload in E. destruct j; try discriminate E. cbn [as_object] in E. set (j := JObject l) in *. apply bind_ok in E as (w0 & H0 & E).
  destruct (at_key as_array j "phases") as [ps|] eqn:EP; [|discriminate]. apply bind_ok in E as (w1 & H1 & E). injection E as <-.
  assert (B0 : exists h, h = [] /\ built w0 h /\ wl_phases w0 = [] /\ wl_zones w0 = [] /\ wl_groups w0 = 0).
  { destruct (get_field j "golden_result") as [g|]; [|injection H0 as <-; exists []; split; [reflexivity|split; [constructor|auto]]].
    destruct (get_field g "cycles") as [c|]; [|injection H0 as <-; exists []; split; [reflexivity|split; [constructor|auto]]]. apply bind_ok in H0 as (n & _ & H0). injection H0 as <-.
    exists []. split; [reflexivity|split; [apply built_golden; constructor|auto]]. }
  destruct B0 as (h & -> & B0 & P0 & Z0 & G0). destruct (phases_spec _ _ _ H1) as (I1 & I2 & I3 & IB & qs & I4 & I5). rewrite P0 in I4. cbn [app] in I4.
  exists j, ps. split; [reflexivity|]. split; [reflexivity|]. split; [apply array_iff, EP|].
  split. { intros LP. destruct (IB _ B0) as (h' & B1 & L). cbn in L. assert (LH : Z.of_nat (List.length h') <= 2 ^ 31) by exact (eq_ind_r (fun n => Z.of_nat n <= 2 ^ 31) LP L). destruct (built_ids _ _ B1 LH) as (D & _). destruct D as (D1 & D2 & D3). split; [exact D1|]. split; [exact D2|exact D3]. }
  split; [reflexivity|]. split; [exact (eq_trans I2 Z0)|]. split; [exact (eq_trans I3 G0)|].
  split. { intros g n Hg Hn. apply holds_iff in Hg, Hn. rewrite Hg, Hn in H0. apply bind_ok in H0 as (m & Hm & H0). cbn [as_uint] in Hm. destruct (0 <=? n); [|discriminate]. injection Hm as <-. injection H0 as <-.
    unfold getGoldenResultCycles. assert (EG : wl_golden (setSourceFilePath w1 path) = _) by exact I1. rewrite EG. reflexivity. }
  split. { intros N. assert (EW : wl_golden (setSourceFilePath w1 path) = _) by exact I1. rewrite EW. clear EW. destruct (get_field j "golden_result") as [g|] eqn:EG; [|injection H0 as <-; reflexivity].
    destruct (get_field g "cycles") as [c|] eqn:EC; [|injection H0 as <-; reflexivity]. exfalso. exact (N g c (proj2 (holds_iff _ _ _) EG) (proj2 (holds_iff _ _ _) EC)). }
  assert (EP' : wl_phases (setSourceFilePath w1 path) = _) by exact I4. rewrite EP'. exact I5.
Qed.

(* files that are accepted *)
Lemma entry_defined e : ~ reversed e -> exists o, json_transfer e = Ok o.
Proof.
  intros R. unfold json_transfer. destruct (at_key as_int e "packet_size"); [|eauto]. destruct (at_key as_int e "num_packets"); [|eauto].
  destruct (at_key as_int e "src_x"); [|eauto]. destruct (at_key as_int e "src_y"); [|eauto].
  assert (D : exists o, json_destination e (int_at e "device_id" 0) = Ok o).
  { unfold json_destination. destruct (_ && _) eqn:EB; [|eauto]. apply andb_prop in EB as [B1 B2]. apply Z.eqb_eq in B1, B2.
    destruct (at_key as_int e "mcast_start_x") as [ax|] eqn:F1; [|eauto]. destruct (at_key as_int e "mcast_start_y") as [ay|] eqn:F2; [|eauto].
    destruct (at_key as_int e "mcast_end_x") as [bx|] eqn:F3; [|eauto]. destruct (at_key as_int e "mcast_end_y") as [b_y|] eqn:F4; [|eauto].
    unfold mcast_make. cbn [c_dev Coord_make]. rewrite Z.eqb_refl. cbn [tt_assert bind].
    destruct (_ || _) eqn:EO; [cbn [tt_assert bind]; eauto|]. exfalso. apply R. exists (int_at e "device_id" 0), ax, ay, bx, b_y, (Coord_make (int_at e "device_id" 0) ay ax), (Coord_make (int_at e "device_id" 0) b_y bx).
    split; [apply int_or_iff; reflexivity|]. split; [unfold multicast_entry; rewrite !int_or_iff, !int_field_iff; auto 10|]. split; [apply coord_is_make|]. split; [apply coord_is_make|]. lia. }
  destruct D as (o & ->). cbn [bind]. destruct o; [|eauto]. destruct (at_key as_string e "noc_type"); eauto.
Qed.
Definition loadable (p : json) : Prop := exists es, holds p "transfers" (JArray es) /\ Forall (fun e => ~ reversed e) es.
Definition entries (ps : list json) : list json := flat_map (fun p => with_default (at_key as_array p "transfers") []) ps.
Lemma somes_length {X} (os : list (option X)) : (List.length (somes os) <= List.length os)%nat.
Proof. induction os as [|[x|] os IH]; [apply le_n|change (somes (Some x :: os)) with (x :: somes os); cbn [List.length]; lia|change (somes (None :: os)) with (somes os); cbn [List.length]; lia]. Qed.
Lemma mapM_length {X Y} (f : X -> outcome Y) l : forall r, mapM f l = Ok r -> List.length r = List.length l.
Proof. induction l as [|x l IH]; intros r H; [injection H as <-; reflexivity|]. cbn [mapM] in H. apply bind_ok in H as (y & _ & H). apply bind_ok in H as (ys & Hy & H). injection H as <-. cbn. rewrite (IH _ Hy). reflexivity. Qed.
Theorem workload_accepted path j fs ps : j = JObject fs -> holds j "phases" (JArray ps) ->
  (no_golden j \/ exists g n, holds j "golden_result" g /\ holds g "cycles" (JInt n) /\ 0 <= n) ->
  Forall loadable ps -> Z.of_nat (List.length (entries ps)) < 2 ^ 31 ->
  exists wl, loadJSONWorkloadFormat path true (Parsed j) = Ok (Some wl).
Proof.
  intros -> HP HG HL HB. unfold loadJSONWorkloadFormat, json_workload. cbn [as_object]. set (j := JObject fs) in *. apply array_iff in HP. rewrite HP.
  assert (G : exists w0, (match get_field j "golden_result" with
                 | Some g => match get_field g "cycles" with
                             | Some c => let! n := or_throw (as_uint c) in Ok (setGoldenResultCycles empty_workload [(0, (0, u32 n))])
                             | None => Ok empty_workload
                             end
                 | None => Ok empty_workload
                 end) = Ok w0 /\ wl_next (w0 : work) = 0).
  { destruct HG as [N|(g & n & G1 & G2 & G3)].
    - destruct (get_field j "golden_result") as [g|] eqn:EG; [|eexists; split; reflexivity]. destruct (get_field g "cycles") as [c|] eqn:EC; [|eexists; split; reflexivity].
      exfalso. exact (N g c (proj2 (holds_iff _ _ _) EG) (proj2 (holds_iff _ _ _) EC)).
    - apply holds_iff in G1, G2. rewrite G1, G2. cbn [as_uint]. replace (0 <=? n) with true by lia. cbn [or_throw bind]. eexists. split; reflexivity. }
  destruct G as (w0 & -> & N0). cbn [bind].
  assert (P : forall w : work, wl_next w + Z.of_nat (List.length (entries ps)) < 2 ^ 31 -> exists w', foldM (fun wl p =>
    let! ts := or_throw (at_key as_array p "transfers") in
    let! trs := mapM json_transfer ts in
    let! r := addPhase wl (somes trs) in
    Ok (fst r)) ps w = Ok w').
  { clear -HL. induction HL as [|p ps (es & HE & HR) HL IH]; intros w B; [eexists; reflexivity|]. cbn [foldM]. apply array_iff in HE. cbn [entries flat_map] in B. rewrite HE in *. cbn [with_default or_throw bind] in *.
    assert (M : exists os, mapM json_transfer es = Ok os).
    { clear -HR. induction HR as [|e es R HR IH]; [eexists; reflexivity|]. destruct (entry_defined e R) as (o & Ho). destruct IH as (os & Hos). exists (o :: os). cbn [mapM]. rewrite Ho, Hos. reflexivity. }
    destruct M as (os & Hos). rewrite Hos. cbn [bind]. pose proof (mapM_length _ _ _ Hos). pose proof (somes_length os). rewrite app_length in B. unfold addPhase.
    fold (entries ps) in B. replace (_ <? _) with true by lia. cbn [bind fst]. apply IH. cbn [wl_next]. lia. }
  destruct (P w0) as (w1 & ->); [lia|]. cbn [bind]. eexists. reflexivity.
Qed.
