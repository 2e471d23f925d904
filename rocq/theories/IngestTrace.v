(* Proofs about the conversion of traces (C47, C48, C50). *)
From Coq Require Import ZArith Lia Bool String List Floats.SpecFloat ZifyBool Reals.
From Flocq Require Import Core.
From Verif Require Import Base Arith Util Device Workload SpecWorkload Json Ingest SpecIngest UtilProofs WorkloadProofs TrackerProofs FloatProofs FloatProofs2 IngestProofs.
Import ListNotations.
Local Open Scope string_scope.
Local Open Scope list_scope.
Open Scope Z_scope.
Ltac Zify.zify_post_hook ::= idtac.

Lemma r53_exact z : 0 <= z <= 2 ^ 53 -> r53 z = z.
Proof.
  intros H. unfold r53. destruct (ofZ_exact prec64 emax64 eq_refl eq_refl z H) as [N V]. rewrite (trunc_fin prec64 emax64 _ N), V, Zfloor_IZR. reflexivity.
Qed.

(** * Kinds of events *)
Definition mem_of (l : list string) (s : string) : bool := existsb (String.eqb s) l.
Lemma mem_of_iff l s : mem_of l s = true <-> In s l.
Proof. unfold mem_of. rewrite existsb_exists. split; [intros (x & Hx & E); apply String.eqb_eq in E; subst; exact Hx|intros H; exists s; split; [exact H|apply String.eqb_refl]]. Qed.
Definition proc_b (ev : json) : bool := negb (String.eqb (string_at ev "proc") "").
Lemma proc_b_iff ev : has_proc ev <-> proc_b ev = true.
Proof.
  unfold has_proc, proc_b. split.
  - intros (p & Hp & N). apply text_iff in Hp. rewrite Hp. destruct (String.eqb_spec p ""); [contradiction|reflexivity].
  - intros H. exists (string_at ev "proc"). split; [apply text_iff; reflexivity|]. intros E. rewrite E in H. discriminate.
Qed.
Definition set_b (k : kind) (ev : json) : bool := mem_of (set_types k) (string_at ev "type") && proc_b ev.
Lemma set_b_iff k ev : is_set k ev <-> set_b k ev = true.
Proof.
  unfold is_set, set_b. rewrite andb_true_iff, mem_of_iff, <- proc_b_iff. split.
  - intros (ty & Ht & Hi & Hp). apply text_iff in Ht. subst. auto.
  - intros [H1 H2]. exists (string_at ev "type"). split; [apply text_iff; reflexivity|auto].
Qed.
Definition mcast_b (ev : json) : bool :=
  negb ((int_at ev "mcast_start_x" (-1) =? -1) || (int_at ev "mcast_start_y" (-1) =? -1) || (int_at ev "mcast_end_x" (-1) =? -1) || (int_at ev "mcast_end_y" (-1) =? -1)).
Definition moves_b (ev : json) : bool :=
  let ty := string_at ev "type" in
  mem_of data_types ty && proc_b ev && negb (String.eqb (string_at ev "noc") "") &&
  negb ((String.eqb ty "WRITE_" || String.eqb ty "READ") && (int_at ev "num_bytes" 0 =? 0)) && (negb (String.eqb ty "WRITE_MULTICAST") || mcast_b ev).
Lemma moves_b_iff ev : moves ev <-> moves_b ev = true.
Proof.
  unfold moves, moves_b. set (ty := string_at ev "type"). cbv zeta. split.
  - intros (ty' & noc & H1 & H2 & H3 & H4 & H5 & H6 & H7). apply text_iff in H1, H4. fold ty in H1. subst ty'. rewrite (proj2 (mem_of_iff _ _) H2), (proj1 (proc_b_iff _) H3), H4.
    destruct (String.eqb_spec noc ""); [contradiction|]. cbn [negb andb].
    assert (B : (String.eqb ty "WRITE_" || String.eqb ty "READ") && (int_at ev "num_bytes" 0 =? 0) = false).
    { destruct (int_at ev "num_bytes" 0 =? 0) eqn:E; [|apply andb_false_r]. apply Z.eqb_eq in E. rewrite andb_true_r. destruct (String.eqb_spec ty "WRITE_"); [exfalso; apply H6; [auto|apply int_or_iff, E]|].
      destruct (String.eqb_spec ty "READ"); [exfalso; apply H6; [auto|apply int_or_iff, E]|reflexivity]. }
    rewrite B. cbn [negb andb]. destruct (String.eqb_spec ty "WRITE_MULTICAST") as [E|]; [|reflexivity]. cbn [negb orb].
    destruct (H7 E) as (ax & ay & bx & b_y & (M1 & M2 & M3 & M4) & N). apply int_or_iff in M1, M2, M3, M4. unfold mcast_b. rewrite M1, M2, M3, M4. lia.
  - rewrite !andb_true_iff. intros ((((H1 & H2) & H3) & H4) & H5). exists ty, (string_at ev "noc"). split; [apply text_iff; reflexivity|]. split; [apply mem_of_iff, H1|]. split; [apply proc_b_iff, H2|].
    split; [apply text_iff; reflexivity|]. split; [intros E; rewrite E in H3; discriminate|]. split.
    + intros HT HZ. apply int_or_iff in HZ. rewrite HZ in H4. destruct HT as [HT|HT]; rewrite HT in H4; discriminate.
    + intros E. rewrite E in H5. cbn [String.eqb Ascii.eqb Bool.eqb negb orb] in H5. unfold mcast_b in H5. do 4 eexists. split; [unfold mcast_fields; rewrite !int_or_iff; auto|]. lia.
Qed.
Definition fabric_b (ev : json) : option json := at_key as_object ev "fabric_send".
Lemma fabric_some ev j : fabric_b ev = Some j <-> exists f, j = JObject f /\ fabric ev f.
Proof.
  unfold fabric_b, at_key, fabric. setoid_rewrite holds_iff. destruct (get_field ev "fabric_send") as [v|]; [|split; [discriminate|intros (f & _ & E); discriminate]].
  destruct v; cbn [as_object]; split; try discriminate; try (intros (f & _ & E); discriminate).
  - intros E. injection E as <-. eauto.
  - intros (f & -> & E). injection E as ->. reflexivity.
Qed.
Lemma fabric_none ev : fabric_b ev = None <-> forall f, ~ fabric ev f.
Proof.
  split.
  - intros E f H. assert (K : fabric_b ev = Some (JObject f)) by (apply fabric_some; eauto). congruence.
  - intros H. destruct (fabric_b ev) as [j|] eqn:E; [|reflexivity]. apply fabric_some in E as (f & _ & E). exfalso. exact (H f E).
Qed.

(** * State *)
Definition own_saved (ev : json) : saved := mkSaved (int_at ev "sx" (-1)) (int_at ev "sy" (-1)) (int_at ev "dx" (-1)) (int_at ev "dy" (-1)) (int_at ev "num_bytes" 0).
Definition save (k : kind) (s : saved) (ev : json) : saved := if set_b k ev then own_saved ev else s.
Definition req_of (s : saved) : request := mkReq (sv_sx s) (sv_sy s) (sv_dx s) (sv_dy s) (sv_bytes s).
Lemma own_fields_iff ev q : own_fields ev q <-> q = req_of (own_saved ev).
Proof.
  unfold own_fields. rewrite !int_or_iff. destruct q. unfold req_of, own_saved. simpl. split; [intros (-> & -> & -> & -> & ->); reflexivity|intros E; injection E as -> -> -> -> ->; auto].
Qed.
Lemma saved_spec k before : (exists s, last_set k before s /\ fold_left (save k) before no_state = own_saved s) \/
  (Forall (fun e => ~ is_set k e) before /\ fold_left (save k) before no_state = no_state).
Proof.
  induction before as [|e before IH] using rev_ind; [right; split; [constructor|reflexivity]|]. rewrite fold_left_app. cbn [fold_left]. unfold save at 1 3. destruct (set_b k e) eqn:E.
  - left. exists e. split; [|reflexivity]. exists before, []. split; [reflexivity|]. split; [apply set_b_iff, E|constructor].
  - assert (N : ~ is_set k e) by (rewrite set_b_iff; congruence). destruct IH as [(s & (l & r & -> & S1 & S2) & H)|[F H]].
    + left. exists s. split; [|exact H]. exists l, (r ++ [e]). split; [rewrite <- app_assoc; reflexivity|]. split; [exact S1|]. apply Forall_app. split; [exact S2|constructor; auto].
    + right. split; [apply Forall_app; split; [exact F|constructor; auto]|exact H].
Qed.
Definition use_state (s : saved) (ev : json) : saved :=
  mkSaved (sv_sx s) (sv_sy s) (sv_dx s) (sv_dy s) (if 0 <? sv_bytes s then sv_bytes s else int_at ev "num_bytes" 0).
(* the fields of an event, given the saved state of the two kinds *)
Definition event_fields (rd wr : saved) (ev : json) : saved :=
  let ty := string_at ev "type" in
  if mem_of (with_types Read) ty then use_state rd ev else if mem_of (with_types Write) ty then use_state wr ev else own_saved ev.
Lemma requests_spec before ev : In (string_at ev "type") data_types ->
  requests before ev (req_of (event_fields (fold_left (save Read) before no_state) (fold_left (save Write) before no_state) ev)).
Proof.
  intros HT. exists (string_at ev "type"), (req_of (own_saved ev)). split; [apply text_iff; reflexivity|]. split; [apply own_fields_iff; reflexivity|].
  assert (W : forall k, In (string_at ev "type") (with_types k) -> event_fields (fold_left (save Read) before no_state) (fold_left (save Write) before no_state) ev = use_state (fold_left (save k) before no_state) ev).
  { intros k Hk. unfold event_fields. destruct k.
    - rewrite (proj2 (mem_of_iff _ _) Hk). reflexivity.
    - destruct Hk as [<-|[]]. reflexivity. }
  assert (C : forall k, In (string_at ev "type") (with_types k) -> exists k, In (string_at ev "type") (with_types k) /\
    ((exists s st, last_set k before s /\ own_fields s st /\ from_state st (req_of (own_saved ev)) (req_of (event_fields (fold_left (save Read) before no_state) (fold_left (save Write) before no_state) ev))) \/
     (Forall (fun e => ~ is_set k e) before /\ from_state (mkReq 0 0 0 0 0) (req_of (own_saved ev)) (req_of (event_fields (fold_left (save Read) before no_state) (fold_left (save Write) before no_state) ev))))).
  { intros k Hk. exists k. split; [exact Hk|]. rewrite (W k Hk). destruct (saved_spec k before) as [(s & S1 & ->)|[S1 ->]].
    - left. exists s, (req_of (own_saved s)). split; [exact S1|]. split; [apply own_fields_iff; reflexivity|]. unfold from_state. cbn. auto.
    - right. split; [exact S1|]. unfold from_state. cbn. auto. }
  unfold data_types in HT. apply in_app_or in HT as [HT|HT]; [left|right; apply in_app_or in HT as [HT|HT]; eauto]. split; [exact HT|].
  unfold event_fields. clear W C. cbn [plain_types fabric_types app In] in HT.
  repeat (destruct HT as [<-|HT]; [reflexivity|]). destruct HT.
Qed.

(** * One event *)
Definition acts_b (ev : json) : bool :=
  let ty := string_at ev "type" in mem_of data_types ty && proc_b ev && negb ((String.eqb ty "WRITE_" || String.eqb ty "READ") && (int_at ev "num_bytes" 0 =? 0)).
Definition flip (ty : string) (s : saved) : saved := if mem_of read_types ty then mkSaved (sv_dx s) (sv_dy s) (sv_sx s) (sv_sy s) (sv_bytes s) else s.
Lemma supported_cases ty : supported_event ty = true -> In ty SUPPORTED_NOC_EVENTS.
Proof. apply mem_of_iff. Qed.
Lemma convert_event_spec d zones t0 st ev st' : convert_event d zones t0 st ev = Ok st' ->
  is_read st' = save Read (is_read st) ev /\ is_write st' = save Write (is_write st) ev /\
  if acts_b ev then exists path,
    let e := flip (string_at ev "type") (event_fields (is_read st) (is_write st) ev) in
    data_event d t0 path ev (sv_sx e) (sv_sy e) (sv_dx e) (sv_dy e) (sv_bytes e) (is_groups st) (is_trs st) = Ok (is_groups st', is_trs st')
  else is_groups st' = is_groups st /\ is_trs st' = is_trs st.
Proof.
  unfold convert_event. intros H. apply bind_ok in H as ([[prev it] path] & HZ & H). unfold save, set_b, acts_b, event_fields, flip. cbv zeta in *.
  destruct (supported_event (string_at ev "type")) eqn:ES; cbn [negb] in H.
  2:{ injection H as <-. cbn [is_read is_write is_groups is_trs]. assert (N : forall l, (forall x, In x l -> In x SUPPORTED_NOC_EVENTS) -> mem_of l (string_at ev "type") = false).
      { intros l Hl. destruct (mem_of l _) eqn:E; [|reflexivity]. apply mem_of_iff in E. apply Hl, mem_of_iff in E. unfold supported_event in ES. unfold mem_of in E. congruence. }
      rewrite (N (set_types Read)), (N (set_types Write)), (N data_types); [cbn [andb]; auto| | |]; clear; intros x Hx; cbn in *; tauto. }
  apply supported_cases in ES. unfold proc_b. destruct (String.eqb (string_at ev "proc") "") eqn:EP; cbn [negb].
  { injection H as <-. rewrite !andb_false_r. cbn [andb is_read is_write is_groups is_trs]. auto. }
  rewrite !andb_true_r.
  cbn [SUPPORTED_NOC_EVENTS In] in ES. repeat (destruct ES as [ES|ES]; [rewrite <- ES in *; clear ES; cbn -[data_event Z.eqb Z.ltb int_at string_at] in H |- *|]); try destruct ES.
  all: try (injection H as <-; cbn [is_read is_write is_groups is_trs]; auto; fail).
  all: try (destruct (int_at ev "num_bytes" 0 =? 0) eqn:EB; cbn [negb]; [injection H as <-; cbn [is_read is_write is_groups is_trs]; auto|]).
  all: apply bind_ok in H as ([g' trs'] & HD & H); injection H as <-; cbn [is_read is_write is_groups is_trs fst snd]; split; [reflexivity|]; split; [reflexivity|]; exists path; exact HD.
Qed.
Lemma moves_acts ev : moves_b ev = acts_b ev && negb (String.eqb (string_at ev "noc") "") && (negb (String.eqb (string_at ev "type") "WRITE_MULTICAST") || mcast_b ev).
Proof. unfold moves_b, acts_b. cbv zeta. destruct (mem_of _ _), (proc_b ev), (String.eqb (string_at ev "noc") ""), (_ && (int_at _ _ _ =? 0)); reflexivity. Qed.
Lemma write_latency_ok d sx sy dx dy noc l : event_write_latency d sx sy dx dy noc = Ok l -> write_latency d sx sy dx dy noc = Ok l.
Proof.
  unfold event_write_latency. destruct (String.eqb noc "NOC_0"); [intros H; apply bind_ok in H as (a & _ & H); apply bind_ok in H as (b & _ & H); exact H|].
  destruct (String.eqb noc "NOC_1"); [intros H; apply bind_ok in H as (a & _ & H); apply bind_ok in H as (b & _ & H); exact H|]. exact (fun H => H).
Qed.
Lemma add64_ok a b c : add64 a b = Ok c -> c = a + b.
Proof. unfold add64. destruct (in_i64 _); [|discriminate]. intros H. injection H as <-. reflexivity. Qed.
Definition dest_is (ev : json) (dx dy : Z) (dst : noc_dest) : Prop :=
  let src_dev := int_at ev "src_device_id" 0 in let dst_dev := int_at ev "dst_device_id" src_dev in
  let noc := string_at ev "noc" in
  let a := Coord_make dst_dev (int_at ev "mcast_start_y" (-1)) (int_at ev "mcast_start_x" (-1)) in
  let b := Coord_make dst_dev (int_at ev "mcast_end_y" (-1)) (int_at ev "mcast_end_x" (-1)) in
  (string_at ev "type" <> "WRITE_MULTICAST" -> dst = Unicast (Coord_make dst_dev dy dx)) /\
  (string_at ev "type" = "WRITE_MULTICAST" -> (noc = "NOC_0" -> dst = Multicast [mkGrid a b]) /\ (noc = "NOC_1" -> dst = Multicast [mkGrid b a])).
Lemma data_event_spec d t0 path ev sx sy dx dy bytes g trs g' trs' : acts_b ev = true ->
  data_event d t0 path ev sx sy dx dy bytes g trs = Ok (g', trs') ->
  if moves_b ev then
    exists lat, event_latency d (string_at ev "type") (string_at ev "noc") sx sy dx dy lat /\
      match fabric_b ev with
      | None => g' = g /\ exists dst, dest_is ev dx dy dst /\
          trs' = trs ++ [tr_make (u32 bytes) 1 (Coord_make (int_at ev "src_device_id" 0) sy sx) dst (f_zero f32A) (u32 (r53 (timestamp ev - t0) + lat)) (if String.eqb (string_at ev "noc") "NOC_0" then NOC0 else NOC1) (string_at ev "type") path (-1) (-1) (-1)]
      | Some f => g' = g + 1 /\ match at_key as_array f "path" with
                                | Some segs => exists r, foldM (fabric_segment d (string_at ev "type") path bytes g) segs (trs, r53 (timestamp ev - t0) + lat, 0) = Ok r /\ trs' = fst (fst r)
                                | None => trs' = trs
                                end
      end
  else g' = g /\ trs' = trs.
Proof.
  intros HA H. rewrite moves_acts, HA. cbn [andb]. unfold data_event in H. cbv zeta in H.
  assert (HT : In (string_at ev "type") data_types).
  { unfold acts_b in HA. cbv zeta in HA. rewrite !andb_true_iff in HA. apply mem_of_iff, HA. }
  destruct (String.eqb_spec (string_at ev "noc") "") as [|NN]; cbn [negb andb]; [injection H as <- <-; auto|].
  apply bind_ok in H as (off & HO & H). unfold to_i64 in HO. destruct (in_i64 _) in HO; [|discriminate]. injection HO as HO.
  apply bind_ok in H as (off' & HL & H). apply bind_ok in H as (dst & HD & H).
  assert (L : exists lat, event_latency d (string_at ev "type") (string_at ev "noc") sx sy dx dy lat /\ off' = off + lat).
  { clear - HT HL. unfold event_latency. cbn [data_types plain_types fabric_types with_types read_types app In] in HT.
    repeat (destruct HT as [HT|HT]; [rewrite <- HT in *; cbn in HL |- *; first [eexists; split; [reflexivity|apply add64_ok, HL]
      |apply bind_ok in HL as (l & HW & HL); exists l; split; [apply write_latency_ok, HW|apply add64_ok, HL]
      |injection HL as <-; exists 0; split; [reflexivity|lia]]|]). destruct HT. }
  destruct L as (lat & HLat & ->). clear HL. subst off.
  assert (D : if negb (String.eqb (string_at ev "type") "WRITE_MULTICAST") || mcast_b ev then exists x, dst = Some x /\ dest_is ev dx dy x else dst = None).
  { unfold dest_is. destruct (String.eqb_spec (string_at ev "type") "WRITE_MULTICAST") as [EM|NM]; cbn [negb orb].
    - unfold mcast_b. cbv zeta in HD. destruct (_ || _) eqn:EO; cbn [negb]; [injection HD as <-; reflexivity|].
      destruct (String.eqb_spec (string_at ev "noc") "NOC_0") as [E0|N0].
      { apply bind_ok in HD as (m & HM & HD). injection HD as <-. apply mcast_make_inv in HM as (-> & _). eexists. split; [reflexivity|]. split; [contradiction|]. intros _. split; [reflexivity|congruence]. }
      destruct (String.eqb_spec (string_at ev "noc") "NOC_1") as [E1|N1].
      { apply bind_ok in HD as (m & HM & HD). injection HD as <-. apply mcast_make_inv in HM as (-> & _). eexists. split; [reflexivity|]. split; [contradiction|]. intros _. split; [congruence|reflexivity]. }
      injection HD as <-. eexists. split; [reflexivity|]. split; [contradiction|]. intros _. split; congruence.
    - injection HD as <-. eexists. split; [reflexivity|]. split; [reflexivity|congruence]. }
  destruct (negb _ || mcast_b ev); [|subst dst; injection H as <- <-; auto]. destruct D as (x & -> & D).
  exists lat. split; [exact HLat|]. change (at_key as_object ev "fabric_send") with (fabric_b ev) in H. destruct (fabric_b ev) as [f|].
  - destruct (_ <? _) in H; [|discriminate]. destruct (at_key as_array f "path") as [segs|].
    + apply bind_ok in H as (r & HR & H). injection H as <- <-. split; [reflexivity|]. exists r. auto.
    + injection H as <- <-. auto.
  - injection H as <- <-. split; [reflexivity|]. exists x. auto.
Qed.
(** * The first timestamp *)
Lemma fold_min evs : forall m, let r := fold_left (fun t0 ev => Z.min t0 (timestamp ev)) evs m in
  r <= m /\ (forall ev, In ev evs -> r <= timestamp ev) /\ (r = m \/ exists ev, In ev evs /\ r = timestamp ev).
Proof.
  induction evs as [|e evs IH]; intros m; cbv zeta in *; cbn [fold_left]; [split; [lia|split; [intros ev []|auto]]|].
  destruct (IH (Z.min m (timestamp e))) as (I1 & I2 & I3). split; [lia|]. split.
  - intros ev [<-|H]; [lia|exact (I2 _ H)].
  - destruct I3 as [I3|(ev & H & I3)]; [|right; exists ev; split; [right; exact H|exact I3]].
    destruct (Z.min_spec m (timestamp e)) as [[_ E]|[_ E]]; [left; exact (eq_trans I3 E)|right; exists e; split; [left; reflexivity|exact (eq_trans I3 E)]].
Qed.
Lemma small_timestamp ev : small_time ev -> timestamp ev = int_at ev "timestamp" 0 /\ 0 <= int_at ev "timestamp" 0 <= 2 ^ 53.
Proof. intros H. specialize (H _ (proj2 (int_or_iff ev "timestamp" 0 _) eq_refl)). split; [apply r53_exact, H|exact H]. Qed.
Lemma big_time : 2 ^ 53 < r53 (2 * 10 ^ 30).
Proof. vm_compute. reflexivity. Qed.
Lemma t0_spec evs t0 : Forall small_time evs -> earliest evs t0 -> t0_of evs = t0.
Proof.
  intros HF ((e & He & E1) & E2). rewrite Forall_forall in HF. unfold t0_of. destruct (fold_min evs (r53 (2 * 10 ^ 30))) as (F1 & F2 & F3). cbv zeta in *. set (r := fold_left _ evs _) in *.
  apply int_or_iff in E1. destruct (small_timestamp e (HF _ He)) as [T1 T2]. specialize (F2 _ He). pose proof big_time. destruct F3 as [F3|(ev & Hv & F3)]; [lia|].
  destruct (small_timestamp ev (HF _ Hv)) as [T3 T4]. assert (E := E2 ev _ Hv (proj2 (int_or_iff _ _ _ _) eq_refl)). lia.
Qed.

(** * Fabric paths *)
Lemma narrow32_i32 z : narrow32 z (i32 z).
Proof.
  unfold narrow32, i32. change (2 ^ 31) with 2147483648. change (2 ^ 32) with 4294967296. pose proof (Z.mod_pos_bound (z + 2147483648) 4294967296 eq_refl). split; [lia|].
  replace (z - _) with ((z + 2147483648) - (z + 2147483648) mod 4294967296) by lia. rewrite Zminus_mod_idemp_r, Z.sub_diag. reflexivity.
Qed.
Definition seg_of (r : json) : seg := mkSeg (i16 (int_at r "device" (-1))) (int_at r "segment_start_x" (-1)) (int_at r "segment_start_y" (-1))
  (int_at r "forward_x" (-1)) (int_at r "forward_y" (-1)) (int_at r "parent_id" (-1)) (string_at r "noc").
Lemma segment_iff r s : segment r s <-> s = seg_of r.
Proof.
  unfold segment. rewrite !int_or_iff, text_iff. destruct s as [a b c e f p n]. unfold seg_of. simpl. split.
  - intros ((z & Z1 & Z2) & -> & -> & -> & -> & -> & ->). apply int_or_iff in Z1. apply narrow16_unique in Z2. subst. reflexivity.
  - intros E. injection E as -> -> -> -> -> -> ->. split; [|auto 10]. eexists. split; [apply int_or_iff; reflexivity|apply narrow16_i16].
Qed.
Definition numbered (k : Z) (ts : list trans) : Prop := map t_gix ts = map (fun i => k + Z.of_nat i) (seq 0 (List.length ts)).
Lemma numbered_app k a b : numbered k a -> numbered (k + Z.of_nat (List.length a)) b -> numbered k (a ++ b).
Proof.
  unfold numbered. intros HA HB. rewrite map_app, HA, HB, app_length, seq_app, map_app. f_equal. cbn [Nat.add]. clear. generalize (List.length b) as n, (List.length a) as m. intros n m.
  assert (G : forall j, map (fun i => k + Z.of_nat m + Z.of_nat i) (seq j n) = map (fun i => k + Z.of_nat i) (seq (m + j) n)).
  { induction n as [|n IH]; intros j; [reflexivity|]. cbn [seq map]. f_equal; [lia|]. rewrite IH. f_equal. f_equal. lia. }
  rewrite (G 0%nat). f_equal. f_equal. lia.
Qed.
Lemma leg_make ty path g s x y bytes off gix :
  leg ty g s x y bytes (tr_make (u32 bytes) 1 (Coord_make (sg_dev s) (sg_sy s) (sg_sx s)) (Unicast (Coord_make (sg_dev s) y x)) (f_zero f32A) (u32 off) (if String.eqb (sg_noc s) "NOC_0" then NOC0 else NOC1) ty path g gix (i32 (sg_parent s))).
Proof.
  unfold leg. cbn [tr_make t_psize t_npkts t_src t_dst t_noc t_event t_gid t_gpar]. split; [reflexivity|]. split; [reflexivity|]. split; [apply coord_is_make|]. split; [eexists; split; [reflexivity|apply coord_is_make]|].
  split; [apply noc_is_if|]. split; [reflexivity|]. split; [reflexivity|apply narrow32_i32].
Qed.
Lemma local_writes_spec ty path g s off ws : forall trs k, exists ts,
  fold_left (local_write (sg_dev s) (sg_sy s) (sg_sx s) off (if String.eqb (sg_noc s) "NOC_0" then NOC0 else NOC1) ty path g (sg_parent s)) ws (trs, k) = (trs ++ ts, k + Z.of_nat (List.length ts)) /\
  locals ty g s ws ts /\ numbered k ts /\ Forall (fun t => t_gid t = g /\ t_off t = u32 off) ts.
Proof.
  induction ws as [|w ws IH]; intros trs k; cbn [fold_left].
  - exists []. cbn [List.length]. rewrite app_nil_r, Z.add_0_r. split; [reflexivity|]. split; [constructor|]. split; [reflexivity|constructor].
  - unfold local_write at 2. cbv zeta. cbn [fst snd]. destruct (negb _ && _ && _) eqn:E.
    + destruct (IH (trs ++ [tr_make (u32 (int_at w "num_bytes" (-1))) 1 (Coord_make (sg_dev s) (sg_sy s) (sg_sx s)) (Unicast (Coord_make (sg_dev s) (int_at w "dy" (-1)) (int_at w "dx" (-1)))) (f_zero f32A) (u32 off) (if String.eqb (sg_noc s) "NOC_0" then NOC0 else NOC1) ty path g k (i32 (sg_parent s))]) (k + 1)) as (ts & I1 & I2 & I3 & I4).
      eexists (_ :: ts). split; [rewrite I1, <- app_assoc; cbn [app List.length]; f_equal; lia|]. split.
      * eapply locals_take; [|apply leg_make|exact I2]. unfold local_fields. rewrite !int_or_iff. lia.
      * split; [|constructor; [split; reflexivity|exact I4]]. apply (numbered_app k [_] ts); [|exact I3]. unfold numbered. cbn. rewrite Z.add_0_r. reflexivity.
    + destruct (IH trs k) as (ts & I1 & I2 & I3 & I4). exists ts. split; [exact I1|]. split; [|auto]. apply locals_skip; [|exact I2]. intros x y b (L1 & L2 & L3 & L4 & L5 & L6). apply int_or_iff in L1, L2, L3. lia.
Qed.
Lemma fabric_segment_spec d ty path bytes g trs off k r st' : fabric_segment d ty path bytes g (trs, off, k) r = Ok st' ->
  exists ts lat, st' = (trs ++ ts, off + lat, k + Z.of_nat (List.length ts)) /\ segment_yields bytes ty g r ts /\ numbered k ts /\
    Forall (fun t => t_gid t = g /\ t_off t = u32 (off + lat)) ts /\
    (k <> 0 -> lat = 0) /\ (k = 0 -> dv_arch d = WormholeB0 /\ write_latency d (sg_sx (seg_of r)) (sg_sy (seg_of r)) (sg_fx (seg_of r)) (sg_fy (seg_of r)) (sg_noc (seg_of r)) = Ok lat).
Proof.
  unfold fabric_segment. cbv zeta. intros H. apply bind_ok in H as (off' & HO & H).
  assert (L : exists lat, off' = off + lat /\ (k <> 0 -> lat = 0) /\ (k = 0 -> dv_arch d = WormholeB0 /\ write_latency d (sg_sx (seg_of r)) (sg_sy (seg_of r)) (sg_fx (seg_of r)) (sg_fy (seg_of r)) (sg_noc (seg_of r)) = Ok lat)).
  { destruct (Z.eqb_spec k 0) as [->|N].
    - destruct (dv_arch d).
      + apply bind_ok in HO as (l & HW & HO). apply add64_ok in HO. exists l. split; [exact HO|]. split; [congruence|]. intros _. split; [reflexivity|]. apply write_latency_ok, HW.
      + apply bind_ok in HO as (l & HW & HO). apply bind_ok in HO as (u & _ & HO). discriminate.
    - injection HO as <-. exists 0. split; [lia|]. split; [reflexivity|contradiction]. }
  destruct L as (lat & -> & L1 & L2). clear HO.
  set (s := seg_of r) in *.
  change (i16 (int_at r "device" (-1))) with (sg_dev s) in H. change (int_at r "segment_start_x" (-1)) with (sg_sx s) in H. change (int_at r "segment_start_y" (-1)) with (sg_sy s) in H.
  change (int_at r "forward_x" (-1)) with (sg_fx s) in H. change (int_at r "forward_y" (-1)) with (sg_fy s) in H. change (int_at r "parent_id" (-1)) with (sg_parent s) in H. change (string_at r "noc") with (sg_noc s) in H.
  assert (C : complete r s <-> ((sg_dev s =? -1) || (sg_sx s =? -1) || (sg_sy s =? -1) || (match at_key as_array r "local_writes" with None => (sg_fx s =? -1) || (sg_fy s =? -1) | Some _ => false end)) = false).
  { unfold complete, has_forward, writes. setoid_rewrite array_iff. split.
    - intros (_ & C1 & C2 & C3 & C4). destruct (at_key as_array r "local_writes"); [lia|]. destruct C4 as [C4|(ws & C4)]; [lia|discriminate].
    - intros E. split; [apply segment_iff; reflexivity|]. destruct (at_key as_array r "local_writes"); [|lia]. split; [lia|]. split; [lia|]. split; [lia|]. right. eauto. }
  destruct (_ || _) eqn:EB.
  { injection H as <-. exists [], lat. cbn [List.length]. rewrite app_nil_r, Z.add_0_r. split; [reflexivity|]. split; [|split; [reflexivity|split; [constructor|auto]]].
    intros s' Hs. apply segment_iff in Hs. fold s in Hs. subst s'. split; [reflexivity|]. intros K. apply C in K. discriminate. }
  assert (A : exists ls, (match at_key as_array r "local_writes" with
               | Some ws => fold_left (local_write (sg_dev s) (sg_sy s) (sg_sx s) (off + lat) (if String.eqb (sg_noc s) "NOC_0" then NOC0 else NOC1) ty path g (sg_parent s)) ws (trs, k)
               | None => (trs, k) end) = (trs ++ ls, k + Z.of_nat (List.length ls)) /\ (forall ws, writes r ws -> locals ty g s ws ls) /\ ((forall ws, ~ writes r ws) -> ls = []) /\ numbered k ls /\
               Forall (fun t => t_gid t = g /\ t_off t = u32 (off + lat)) ls).
  { unfold writes. setoid_rewrite array_iff. destruct (at_key as_array r "local_writes") as [ws|].
    - destruct (local_writes_spec ty path g s (off + lat) ws trs k) as (ts & I1 & I2 & I3 & I4). exists ts. split; [exact I1|]. split; [intros ws' E; injection E as <-; exact I2|]. split; [intros N; exfalso; exact (N ws eq_refl)|auto].
    - exists []. cbn [List.length]. rewrite app_nil_r, Z.add_0_r. split; [reflexivity|]. split; [discriminate|]. split; [reflexivity|]. split; [reflexivity|constructor]. }
  destruct A as (ls & HA & A1 & A2 & A3 & A4). rewrite HA in H. cbn [fst snd] in H. clear HA.
  assert (B : exists fs, st' = (trs ++ (ls ++ fs), off + lat, k + Z.of_nat (List.length (ls ++ fs))) /\ (~ has_forward s -> fs = []) /\ (has_forward s -> exists t, fs = [t] /\ leg ty g s (sg_fx s) (sg_fy s) bytes t) /\
            numbered (k + Z.of_nat (List.length ls)) fs /\ Forall (fun t => t_gid t = g /\ t_off t = u32 (off + lat)) fs).
  { unfold has_forward. destruct (negb (sg_fx s =? -1) && negb (sg_fy s =? -1)) eqn:EF; injection H as <-; cbn [fst snd].
    - eexists [_]. rewrite app_length. cbn [List.length]. split; [rewrite <- app_assoc; f_equal; lia|]. split; [lia|]. split; [intros _; eexists; split; [reflexivity|apply leg_make]|].
      split; [unfold numbered; cbn; rewrite Z.add_0_r; reflexivity|constructor; [split; reflexivity|constructor]].
    - exists []. rewrite app_nil_r. split; [reflexivity|]. split; [reflexivity|]. split; [lia|]. split; [reflexivity|constructor]. }
  destruct B as (fs & -> & B1 & B2 & B3 & B4). exists (ls ++ fs), lat. split; [reflexivity|]. split; [|split; [apply numbered_app; assumption|split; [apply Forall_app; auto|auto]]].
  intros s' Hs. apply segment_iff in Hs. fold s in Hs. subst s'. split; [intros K; exfalso; apply K, C; reflexivity|]. intros _. exists ls, fs. auto 10.
Qed.
Lemma fabric_spec d ty path bytes g segs : forall trs off k st', 0 <= k -> foldM (fabric_segment d ty path bytes g) segs (trs, off, k) = Ok st' ->
  exists tss, fst (fst st') = trs ++ concat tss /\ Forall2 (segment_yields bytes ty g) segs tss /\ numbered k (concat tss) /\ Forall (fun t => t_gid t = g) (concat tss) /\
    (k <> 0 -> Forall (fun t => t_off t = u32 off) (concat tss)) /\
    (k = 0 -> forall r rs, segs = r :: rs -> dv_arch d = WormholeB0 /\ (nth_error tss 0 <> Some [] -> exists lat,
       write_latency d (sg_sx (seg_of r)) (sg_sy (seg_of r)) (sg_fx (seg_of r)) (sg_fy (seg_of r)) (sg_noc (seg_of r)) = Ok lat /\ Forall (fun t => t_off t = u32 (off + lat)) (concat tss))).
Proof.
  induction segs as [|r segs IH]; intros trs off k st' Hk H; cbn [foldM] in H.
  - injection H as <-. exists []. cbn [concat fst]. rewrite app_nil_r. split; [reflexivity|]. split; [constructor|]. split; [reflexivity|]. split; [constructor|]. split; [constructor|]. discriminate.
  - apply bind_ok in H as (st1 & H1 & H). apply fabric_segment_spec in H1 as (ts & lat & -> & S1 & S2 & S3 & S4 & S5).
    apply IH in H as (tss & I1 & I2 & I3 & I4 & I5 & I6); [|lia]. exists (ts :: tss). cbn [concat]. split; [rewrite I1, app_assoc; reflexivity|]. split; [constructor; assumption|]. split; [apply numbered_app; assumption|].
    split; [apply Forall_app; split; [eapply Forall_impl; [|exact S3]; intros t [E _]; exact E|exact I4]|]. split.
    + intros N. rewrite (S4 N), Z.add_0_r in S3, I5. apply Forall_app. split; [eapply Forall_impl; [|exact S3]; intros t [_ E]; exact E|]. apply I5. lia.
    + intros E0 r' rs E. injection E as <- <-. destruct (S5 E0) as [S5a S5b]. split; [exact S5a|]. cbn [nth_error]. intros N. exists lat. split; [exact S5b|]. apply Forall_app. split; [eapply Forall_impl; [|exact S3]; intros t [_ E]; exact E|].
      apply I5. destruct ts; [congruence|]. cbn [List.length]. lia.
Qed.

(** * The whole trace *)
Lemma flip_source ty e : data_source ty (req_of e) (sv_sx (flip ty e)) (sv_sy (flip ty e)).
Proof. unfold data_source, flip, mem_of. destruct (existsb _ read_types); split; reflexivity. Qed.
Lemma flip_target ty e : data_target ty (req_of e) (sv_dx (flip ty e)) (sv_dy (flip ty e)).
Proof. unfold data_target, flip, mem_of. destruct (existsb _ read_types); split; reflexivity. Qed.
Lemma data_source_unique ty q a b c e : data_source ty q a b -> data_source ty q c e -> a = c /\ b = e.
Proof. unfold data_source. destruct (existsb _ _); intros [-> ->] [-> ->]; auto. Qed.
Lemma data_target_unique ty q a b c e : data_target ty q a b -> data_target ty q c e -> a = c /\ b = e.
Proof. unfold data_target. destruct (existsb _ _); intros [-> ->] [-> ->]; auto. Qed.
Lemma flip_bytes ty e : sv_bytes (flip ty e) = sv_bytes e.
Proof. unfold flip. destruct (mem_of _ _); reflexivity. Qed.
Lemma offset_small evs ev t0 z t0' : In ev evs -> t0 = t0_of evs -> Forall small_time evs -> int_or ev "timestamp" 0 z -> earliest evs t0' -> r53 (timestamp ev - t0) = z - t0'.
Proof.
  intros Hin -> HF HZ HE. rewrite (t0_spec _ _ HF HE). apply int_or_iff in HZ. assert (HF' := HF). rewrite Forall_forall in HF. destruct (small_timestamp ev (HF _ Hin)) as [T1 T2]. rewrite T1, HZ. apply r53_exact.
  destruct HE as [(e & He & E1) E2]. apply int_or_iff in E1. destruct (small_timestamp e (HF _ He)) as [T3 T4]. specialize (E2 ev z Hin (proj2 (int_or_iff _ _ _ _) HZ)). lia.
Qed.
Definition blackhole_path (d : device) (ev : json) : Prop := dv_arch d = Blackhole -> moves ev -> forall segs, path_of ev segs -> segs = [].
Lemma path_of_some ev j segs : fabric_b ev = Some j -> path_of ev segs <-> at_key as_array j "path" = Some segs.
Proof.
  intros E. apply fabric_some in E as (f & -> & F). unfold path_of. setoid_rewrite array_iff. split.
  - intros (f' & F' & H). unfold fabric in *. apply holds_iff in F, F'. rewrite F in F'. injection F' as <-. exact H.
  - intros H. eauto.
Qed.
Lemma event_yields d evs before zones t0 st ev st' : In ev evs -> t0 = t0_of evs ->
  is_read st = fold_left (save Read) before no_state -> is_write st = fold_left (save Write) before no_state -> fabric_number before (is_groups st) ->
  convert_event d zones t0 st ev = Ok st' ->
  is_read st' = fold_left (save Read) (before ++ [ev]) no_state /\ is_write st' = fold_left (save Write) (before ++ [ev]) no_state /\
  fabric_number (before ++ [ev]) (is_groups st') /\ blackhole_path d ev /\ exists ts, is_trs st' = is_trs st ++ ts /\ yields d evs before ev ts.
Proof.
  intros Hin Ht0 HR HW HG H. apply convert_event_spec in H as (R & W & H). rewrite !fold_left_app. cbn [fold_left]. rewrite <- HR, <- HW. split; [exact R|]. split; [exact W|]. clear R W.
  assert (STAY : moves_b ev = false -> is_groups st' = is_groups st -> is_trs st' = is_trs st -> fabric_number (before ++ [ev]) (is_groups st') /\ blackhole_path d ev /\ exists ts, is_trs st' = is_trs st ++ ts /\ yields d evs before ev ts).
  { intros NM E1 E2. assert (NM' : ~ moves ev) by (rewrite moves_b_iff; congruence). rewrite E1, E2. split; [apply number_same; [exact HG|]; intros f [K _]; contradiction|].
    split; [intros _ K; contradiction|]. exists []. rewrite app_nil_r. split; [reflexivity|]. split; [reflexivity|]. split; [intros K; contradiction|intros f K; contradiction]. }
  destruct (acts_b ev) eqn:EA; [|destruct H as [H1 H2]; apply STAY; [rewrite moves_acts, EA; reflexivity|exact H1|exact H2]].
  destruct H as (path & H). cbv zeta in H. set (ty := string_at ev "type") in *. set (e := event_fields (is_read st) (is_write st) ev) in *.
  apply (data_event_spec d t0 path ev) in H; [|exact EA]. rewrite flip_bytes in H. fold ty in H. destruct (moves_b ev) eqn:EM; [|destruct H; auto]. clear STAY.
  assert (M : moves ev) by (apply moves_b_iff, EM). assert (HT : In ty data_types). { unfold acts_b in EA. cbv zeta in EA. rewrite !andb_true_iff in EA. apply mem_of_iff, EA. }
  assert (HQ : requests before ev (req_of e)). { unfold e. rewrite HR, HW. apply requests_spec, HT. }
  destruct H as (lat & HL & H). destruct (fabric_b ev) as [f|] eqn:EF.
  - destruct H as (EG & H). assert (EF' := EF). apply fabric_some in EF' as (fo & -> & F). rewrite EG. split; [eapply number_more; eassumption|].
    assert (K : blackhole_path d ev /\ exists ts, is_trs st' = is_trs st ++ ts /\ path_transfers d evs before ev ts).
    { destruct (at_key as_array (JObject fo) "path") as [segs|] eqn:EP.
      - destruct H as (r & HF & ->). apply fabric_spec in HF as (tss & F1 & F2 & F3 & F4 & _ & F6); [|lia]. split.
        + intros HB _ segs' HP. apply (path_of_some _ _ _ EF) in HP. rewrite EP in HP. injection HP as <-. destruct segs as [|r0 rs]; [reflexivity|]. destruct (F6 eq_refl r0 rs eq_refl) as [K _]. congruence.
        + exists (concat tss). split; [exact F1|]. exists ty, (string_at ev "noc"), (req_of e), (is_groups st). split; [apply text_iff; reflexivity|]. split; [apply text_iff; reflexivity|]. split; [exact HQ|]. split; [exact HG|]. split; [exact F3|]. split; [exact F4|].
          split; [intros N; exfalso; exact (N segs (proj2 (path_of_some _ _ _ EF) EP))|].
          intros segs' HP. apply (path_of_some _ _ _ EF) in HP. rewrite EP in HP. injection HP as <-. exists tss. split; [reflexivity|]. split; [exact F2|].
          intros r0 rs s Es Hs N HS sx sy dx dy z t1 D1 D2 HZ HE. apply segment_iff in Hs. subst s. destruct (F6 eq_refl r0 rs Es) as [_ K]. destruct (K N) as (lat' & K1 & K2).
          destruct (data_source_unique _ _ _ _ _ _ D1 (flip_source ty e)) as [-> ->]. destruct (data_target_unique _ _ _ _ _ _ D2 (flip_target ty e)) as [-> ->].
          exists lat, lat'. split; [exact HL|]. split; [exact K1|]. rewrite (offset_small evs ev t0 z t1 Hin Ht0 HS HZ HE) in K2. exact K2.
      - split; [intros _ _ segs HP; apply (path_of_some _ _ _ EF) in HP; congruence|]. exists []. rewrite app_nil_r. split; [exact H|]. exists ty, (string_at ev "noc"), (req_of e), (is_groups st). split; [apply text_iff; reflexivity|]. split; [apply text_iff; reflexivity|]. split; [exact HQ|]. split; [exact HG|].
        split; [reflexivity|]. split; [constructor|]. split; [reflexivity|]. intros segs HP. apply (path_of_some _ _ _ EF) in HP. congruence. }
    destruct K as (K1 & ts & K2 & K3). split; [exact K1|]. exists ts. split; [exact K2|]. split; [contradiction|]. split; [intros _ N; exfalso; exact (N fo F)|]. intros _ _ _. exact K3.
  - destruct H as (EG & dst & HD & H). assert (NF := proj1 (fabric_none ev) EF). rewrite EG. split; [apply number_same; [exact HG|intros f [_ K]; exact (NF f K)]|].
    split. { intros _ _ segs (f & K & _). exfalso. exact (NF f K). }
    eexists. split; [exact H|]. split; [contradiction|]. split; [|intros f _ K; exfalso; exact (NF f K)]. intros _ _. eexists. split; [reflexivity|].
    exists ty, (string_at ev "noc"), (req_of e), (int_at ev "src_device_id" 0), (int_at ev "dst_device_id" (int_at ev "src_device_id" 0)), (sv_sx (flip ty e)), (sv_sy (flip ty e)), (sv_dx (flip ty e)), (sv_dy (flip ty e)).
    split; [apply text_iff; reflexivity|]. split; [apply text_iff; reflexivity|]. split; [exact HQ|]. split; [apply int_or_iff; reflexivity|]. split; [apply int_or_iff; reflexivity|].
    split; [apply flip_source|]. split; [apply flip_target|]. cbn [tr_make t_psize t_npkts t_bytes t_src t_dst t_noc t_event t_rate t_gid t_gix t_gpar t_off].
    split; [reflexivity|]. split; [reflexivity|]. split; [unfold u32; rewrite Z.mul_1_r, Z.mod_mod by discriminate; reflexivity|]. split; [apply coord_is_make|].
    destruct HD as [HD1 HD2]. fold ty in HD1, HD2. split; [intros NM; exists (Coord_make (int_at ev "dst_device_id" (int_at ev "src_device_id" 0)) (sv_dy (flip ty e)) (sv_dx (flip ty e))); split; [exact (HD1 NM)|apply coord_is_make]|].
    split. { intros YM ax ay bx b_y (M1 & M2 & M3 & M4). apply int_or_iff in M1, M2, M3, M4. destruct (HD2 YM) as [N0 N1]. rewrite M1, M2, M3, M4 in N0, N1.
      split; intros E; [rewrite (N0 E)|rewrite (N1 E)]; do 2 eexists; (split; [reflexivity|]); split; apply coord_is_make. }
    split; [apply noc_is_if|]. split; [reflexivity|]. split; [reflexivity|]. split; [reflexivity|]. split; [reflexivity|]. split; [reflexivity|].
    intros HS z t1 HZ HE. exists lat. split; [exact HL|]. rewrite (offset_small evs ev t0 z t1 Hin Ht0 HS HZ HE). reflexivity.
Qed.
Definition converts (d : device) (evs l : list json) (tss : list (list trans)) : Prop :=
  List.length tss = List.length l /\ forall i ev ts, nth_error l i = Some ev -> nth_error tss i = Some ts -> yields d evs (firstn i l) ev ts.
Lemma events_convert d evs zones t0 l : (forall ev, In ev l -> In ev evs) -> t0 = t0_of evs -> forall st, foldM (convert_event d zones t0) l init_state = Ok st ->
  is_read st = fold_left (save Read) l no_state /\ is_write st = fold_left (save Write) l no_state /\ fabric_number l (is_groups st) /\ (forall ev, In ev l -> blackhole_path d ev) /\
  exists tss, is_trs st = concat tss /\ converts d evs l tss.
Proof.
  intros Hl Ht0. induction l as [|ev l IH] using rev_ind; intros st H.
  - injection H as <-. split; [reflexivity|]. split; [reflexivity|]. split; [constructor|]. split; [intros ev []|]. exists []. split; [reflexivity|]. split; [reflexivity|]. intros [|i] ev ts H; discriminate.
  - rewrite foldM_snoc in H. apply bind_ok in H as (st1 & H1 & H). destruct (IH ltac:(intros x Hx; apply Hl, in_or_app; auto) st1 H1) as (I1 & I2 & I3 & I4 & tss & I5 & I6 & I7).
    apply (event_yields d evs l) in H as (E1 & E2 & E3 & E4 & ts & E5 & E6); [|apply Hl, in_or_app; right; left; reflexivity|exact Ht0|exact I1|exact I2|exact I3].
    split; [exact E1|]. split; [exact E2|]. split; [exact E3|]. split. { intros x Hx. apply in_app_or in Hx as [Hx|[<-|[]]]; auto. }
    exists (tss ++ [ts]). rewrite concat_app. cbn [concat]. rewrite app_nil_r, E5, I5. split; [reflexivity|]. split; [rewrite !app_length, I6; reflexivity|].
    intros i e t Hi Ht. destruct (Nat.lt_ge_cases i (List.length l)) as [L|L].
    + rewrite nth_error_app1 in Hi by exact L. rewrite nth_error_app1 in Ht by lia. rewrite firstn_app. replace (i - List.length l)%nat with 0%nat by lia. cbn [firstn]. rewrite app_nil_r. exact (I7 i e t Hi Ht).
    + rewrite nth_error_app2 in Hi by exact L. rewrite nth_error_app2 in Ht by lia. rewrite I6 in Ht. destruct (i - List.length l)%nat eqn:E; [|destruct n; discriminate]. cbn in Hi, Ht. injection Hi as <-. injection Ht as <-.
      rewrite firstn_app, E. cbn [firstn]. rewrite app_nil_r, firstn_all2 by lia. exact E6.
Qed.
Theorem trace_converted d path j wl : convert_trace d path j = Ok (Some wl) ->
  exists evs tss p, j = JArray evs /\ wl_phases wl = [p] /\ ph_id p = 0 /\ Forall2 (fun a b => same_content a b /\ t_phase b = 0) (concat tss) (ph_trs p) /\ map t_id (ph_trs p) = map Z.of_nat (seq 0 (List.length (ph_trs p))) /\
    converts d evs evs tss /\ fabric_number evs (wl_groups wl) /\ wl_path wl = Some path /\ (dv_arch d = Blackhole -> forall ev segs, In ev evs -> moves ev -> path_of ev segs -> segs = []).
Proof.
  unfold convert_trace. intros H. apply bind_ok in H as (evs & HJ & H). apply bind_ok in H as ([gm t0] & HC & H). cbn [fst snd] in H. apply bind_ok in H as (zones & HZ & H). apply bind_ok in H as (st & HS & H).
  apply bind_ok in H as ([w id] & HA & H). injection H as <-. cbn [fst].
  assert (EJ : j = JArray evs). { destruct j; try discriminate HJ. injection HJ as ->. reflexivity. }
  assert (Et : t0 = t0_of evs). { unfold computeGoldenCyclesAndT0 in HC. cbv zeta in HC. apply bind_ok in HC as (m & _ & HC). injection HC as _ <-. reflexivity. }
  destruct (events_convert d evs zones t0 evs ltac:(auto) Et st HS) as (_ & _ & G & B & tss & T1 & T2).
  unfold addPhase in HA. destruct (_ <? _) in HA; [|discriminate]. injection HA as <- _. cbn.
  exists evs, tss. eexists. split; [exact EJ|]. split; [reflexivity|]. cbn [ph_id ph_trs]. split; [reflexivity|]. rewrite T1.
  split; [apply WorkloadProofs.number_content|].
  split. { clear. generalize (concat tss) as l. intros l. assert (K : forall (l : list trans) id k, id = Z.of_nat k -> map t_id (number_transfers 0 id l) = map Z.of_nat (seq k (List.length (number_transfers 0 id l)))).
    { clear. induction l as [|t l IH]; intros id k E; [reflexivity|]. cbn. f_equal; [exact E|]. apply IH. lia. } exact (K l 0 0%nat eq_refl). }
  split; [exact T2|]. split; [exact G|]. split; [reflexivity|]. intros HB ev segs Hin M P. exact (B ev Hin HB M segs P).
Qed.
