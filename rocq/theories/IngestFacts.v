(* Consequences for the loaders: C47, C48, C49, C50. *)
From Coq Require Import ZArith Lia Bool String List Floats.SpecFloat ZifyBool.
From Verif Require Import Base Arith Util Device SpecDevice Workload SpecWorkload Json Ingest SpecIngest UtilProofs WorkloadProofs TrackerProofs FactoryProofs IngestProofs IngestTrace IngestTotal.
Import ListNotations.
Local Open Scope string_scope.
Local Open Scope list_scope.
Open Scope Z_scope.
Ltac Zify.zify_post_hook ::= idtac.

(** * C47 *)
Theorem conversion path name f wl : convertNocTracesToNpeWorkload path name f = Ok (Some wl) ->
  exists d evs tss p, createDeviceModel name = Ok d /\ f = Parsed (JArray evs) /\ wl_phases wl = [p] /\
    Forall2 (fun a b => same_content a b /\ t_phase b = ph_id p) (concat tss) (ph_trs p) /\ map t_id (ph_trs p) = map Z.of_nat (seq 0 (List.length (ph_trs p))) /\
    List.length tss = List.length evs /\ forall i ev ts, nth_error evs i = Some ev -> nth_error tss i = Some ts -> yields d evs (firstn i evs) ev ts.
Proof.
  unfold convertNocTracesToNpeWorkload. intros H. apply bind_ok in H as (d & HD & H). destruct f as [| |j]; try discriminate. apply trace_converted in H as (evs & tss & p & -> & P1 & P2 & P3 & P4 & [P5 P6] & _).
  exists d, evs, tss, p. rewrite P2. auto 10.
Qed.

(** * C48 *)
Lemma set_unique k before ev s s' : (forall e, In e before -> is_set k e -> same_processor e ev) -> own_set k before ev s -> last_set k before s' -> s' = s.
Proof.
  intros HA (l & r & -> & S1 & S2 & S3) (l' & r' & E & T1 & T2). revert l' E. induction l as [|x l IH]; intros l' E.
  - destruct l' as [|x' l']; cbn [app] in E; [congruence|]. injection E as <- E. assert (K : In s' r) by (rewrite E; apply in_or_app; right; left; reflexivity).
    rewrite Forall_forall in S3. exfalso. apply (S3 _ K). split; [exact T1|]. apply HA; [right; exact K|exact T1].
  - destruct l' as [|x' l']; cbn [app] in E.
    + injection E as E1 E2. rewrite Forall_forall in T2. exfalso. apply (T2 s); [rewrite <- E2; apply in_or_app; right; left; reflexivity|exact S1].
    + injection E as _ E. apply (IH (fun e He => HA e (or_intror He)) l' E).
Qed.
Lemma kind_unique ty k k' : In ty (with_types k) -> In ty (with_types k') -> k = k'.
Proof. destruct k, k'; try reflexivity; cbn; intros A B; exfalso; repeat (destruct A as [<-|A]; [destruct B as [B|B]; [discriminate|]; repeat (destruct B as [B|B]; [discriminate|]); destruct B|]); destruct A. Qed.
Lemma with_not_plain ty k : In ty (with_types k) -> ~ In ty plain_types.
Proof. intros A B. apply mem_of_iff in B. destruct k; cbn in A; repeat (destruct A as [<-|A]; [vm_compute in B; discriminate|]); destruct A. Qed.
Lemma own_fields_unique ev a b : own_fields ev a -> own_fields ev b -> a = b.
Proof. intros A B. apply own_fields_iff in A, B. congruence. Qed.
Theorem own_state k before ev s ty st own q : text ev "type" ty -> In ty (with_types k) -> own_set k before ev s -> own_fields s st -> own_fields ev own ->
  (forall e, In e before -> is_set k e -> same_processor e ev) -> requests before ev q -> from_state st own q.
Proof.
  intros HT HK HS HF HO HA (ty' & own' & T & O & [[HP _]|(k' & HK' & R)]).
  - exfalso. apply text_iff in HT, T. rewrite HT in T. subst ty'. exact (with_not_plain _ _ HK HP).
  - apply text_iff in HT, T. rewrite HT in T. subst ty'. assert (E := kind_unique _ _ _ HK HK'). subst k'. rewrite (own_fields_unique _ _ _ HO O). destruct R as [(s' & st' & L & F & R)|[N _]].
    + rewrite (set_unique k before ev s s' HA HS L) in F. rewrite (own_fields_unique _ _ _ HF F). exact R.
    + exfalso. destruct HS as (l & r & -> & S1 & _). rewrite Forall_forall in N. apply (N s); [apply in_or_app; right; left; reflexivity|exact S1].
Qed.
Theorem state_of_own_core path name wl evs : convertNocTracesToNpeWorkload path name (Parsed (JArray evs)) = Ok (Some wl) ->
  exists tss p, wl_phases wl = [p] /\ Forall2 same_content (concat tss) (ph_trs p) /\ List.length tss = List.length evs /\
  forall i ev ts ty k s st own, nth_error evs i = Some ev -> nth_error tss i = Some ts -> moves ev -> (forall f, ~ fabric ev f) -> text ev "type" ty -> In ty (with_types k) ->
    own_set k (firstn i evs) ev s -> (forall e, In e (firstn i evs) -> is_set k e -> same_processor e ev) -> own_fields s st -> own_fields ev own ->
    exists t q sx sy dx dy dev dst_dev c, ts = [t] /\ from_state st own q /\ data_source ty q sx sy /\ data_target ty q dx dy /\ int_or ev "src_device_id" 0 dev /\ int_or ev "dst_device_id" dev dst_dev /\
      t_psize t = rq_bytes q mod 2 ^ 32 /\ coord_is (t_src t) dev sy sx /\ t_dst t = Unicast c /\ coord_is c dst_dev dy dx.
Proof.
  intros H. apply conversion in H as (d & evs' & tss & p & _ & E & P1 & P2 & _ & P4 & P5). injection E as <-. exists tss, p. split; [exact P1|].
  split. { clear -P2. induction P2 as [|a b l l' [A _] F IH]; constructor; assumption. } split; [exact P4|].
  intros i ev ts ty k s st own Hi Ht HM HF HT HK HS HA HO1 HO2. destruct (P5 i ev ts Hi Ht) as (_ & Y & _). destruct (Y HM HF) as (t & -> & ty' & noc & q & dev & dst_dev & sx & sy & dx & dy & T1 & T2 & T3 & T4 & T5 & T6 & T7 & T8 & T9 & T10 & T11 & T12 & _).
  apply text_iff in HT, T1. rewrite HT in T1. subst ty'. assert (NM : ty <> "WRITE_MULTICAST") by (intros ->; destruct k; cbn in HK; intuition discriminate). destruct (T12 NM) as (c & C1 & C2).
  exists t, q, sx, sy, dx, dy, dev, dst_dev, c. split; [reflexivity|]. split; [|auto 15]. eapply own_state; try eassumption. apply text_iff, HT.
Qed.

(** * C49 *)
Theorem clean_total path name d accept evs : createDeviceModel name = Ok d -> wf_device d -> clean d evs -> exists o, createWorkloadFromJSON path name true accept (Parsed (JArray evs)) = Ok o.
Proof.
  intros HD HW HC. unfold createWorkloadFromJSON, convertNocTracesToNpeWorkload. rewrite HD. cbn [bind]. destruct (clean_defined d path evs HW HC) as [(wl & ->)|(e & ->)]; eauto.
Qed.

(** * C50 *)
Lemma number_unique l n : fabric_number l n -> forall m, fabric_number l m -> n = m.
Proof.
  assert (A : forall (l l' : list json) a b, l ++ [a] = l' ++ [b] -> l = l' /\ a = b) by (intros; apply app_inj_tail; assumption).
  induction 1 as [|l e f n H IH M F|l e n H IH K]; intros m Hm; inversion Hm as [E|l' e' f' n' H' M' F' E|l' e' n' H' K' E]; try (apply app_eq_nil in E as [_ E]; discriminate); try (symmetry in E; apply app_eq_nil in E as [_ E]; discriminate); try reflexivity.
  - apply A in E as [-> ->]. rewrite (IH _ H'). reflexivity.
  - apply A in E as [-> ->]. exfalso. exact (K' f (conj M F)).
  - apply A in E as [-> ->]. exfalso. exact (K f' (conj M' F')).
  - apply A in E as [-> ->]. exact (IH _ H').
Qed.
Lemma number_prefix l n : fabric_number l n -> forall i, exists m, fabric_number (firstn i l) m /\ m <= n /\ (forall ev f, nth_error l i = Some ev -> moves ev -> fabric ev f -> m < n).
Proof.
  induction 1 as [|l e f n H IH M F|l e n H IH K]; intros i.
  - exists 0. destruct i; (split; [constructor|]; split; [lia|]; intros; discriminate).
  - destruct (Nat.lt_ge_cases i (List.length l)) as [L|L].
    + destruct (IH i) as (m & I1 & I2 & I3). exists m. rewrite firstn_app. replace (i - List.length l)%nat with 0%nat by lia. cbn [firstn]. rewrite app_nil_r. split; [exact I1|]. split; [lia|]. intros. lia.
    + destruct (Nat.eq_dec i (List.length l)) as [->|N].
      * exists n. rewrite firstn_app, Nat.sub_diag, firstn_all. cbn [firstn]. rewrite app_nil_r. split; [exact H|]. split; [lia|]. intros. lia.
      * exists (n + 1). rewrite firstn_all2 by (rewrite app_length; cbn; lia). split; [eapply number_more; eassumption|]. split; [lia|]. intros ev f' E. assert (X : (i < List.length (l ++ [e]))%nat) by (apply nth_error_Some; congruence). rewrite app_length in X. cbn in X. lia.
  - destruct (Nat.lt_ge_cases i (List.length l)) as [L|L].
    + destruct (IH i) as (m & I1 & I2 & I3). exists m. rewrite firstn_app. replace (i - List.length l)%nat with 0%nat by lia. cbn [firstn]. rewrite app_nil_r. split; [exact I1|]. split; [lia|]. intros ev f E. rewrite nth_error_app1 in E by exact L. exact (I3 ev f E).
    + destruct (Nat.eq_dec i (List.length l)) as [->|N].
      * exists n. rewrite firstn_app, Nat.sub_diag, firstn_all. cbn [firstn]. rewrite app_nil_r. split; [exact H|]. split; [lia|]. intros ev f E M F. rewrite nth_error_app2, Nat.sub_diag in E by lia. injection E as <-. exfalso. exact (K f (conj M F)).
      * exists n. rewrite firstn_all2 by (rewrite app_length; cbn; lia). split; [apply number_same; assumption|]. split; [lia|]. intros ev f' E. assert (X : (i < List.length (l ++ [e]))%nat) by (apply nth_error_Some; congruence). rewrite app_length in X. cbn in X. lia.
Qed.
Lemma number_less l i j ev f a b : (i < j)%nat -> nth_error l i = Some ev -> moves ev -> fabric ev f -> (exists n, fabric_number l n) -> fabric_number (firstn i l) a -> fabric_number (firstn j l) b -> a < b.
Proof.
  intros L E M F (n & Hn) HA HB. destruct (number_prefix _ _ HB i) as (m & M1 & _ & M3). rewrite firstn_firstn, Nat.min_l in M1 by lia. rewrite (number_unique _ _ HA _ M1). apply (M3 ev f); [|exact M|exact F].
  rewrite <- E. clear -L. revert i j L. induction l as [|x l IH]; intros [|i] [|j] L; cbn; try reflexivity; try lia. apply IH. lia.
Qed.
Lemma number_pos l n : fabric_number l n -> 0 <= n.
Proof. induction 1; lia. Qed.
Lemma narrow32_small z c : - 2 ^ 31 <= z < 2 ^ 31 -> narrow32 z c -> c = z.
Proof.
  unfold narrow32. change (2 ^ 31) with 2147483648. change (2 ^ 32) with 4294967296. intros H [B E]. apply Z.mod_divide in E as [k E]; [|lia]. lia.
Qed.
Lemma fabric_unique ev f f' : fabric ev f -> fabric ev f' -> f = f'.
Proof. unfold fabric. rewrite !holds_iff. congruence. Qed.
Lemma chain_transfers bytes ty g segs tss : Forall2 (segment_yields bytes ty g) segs tss -> forall k, (forall i r, nth_error segs i = Some r -> exists s, complete r s /\ has_forward s /\ (forall ws, ~ writes r ws) /\ sg_parent s = k + Z.of_nat i - 1) ->
  0 <= k -> k + Z.of_nat (List.length segs) <= 2 ^ 31 -> List.length (concat tss) = List.length segs /\ forall i t, nth_error (concat tss) i = Some t -> t_gpar t = k + Z.of_nat i - 1 /\ t_event t = ty /\
    exists r s c, nth_error segs i = Some r /\ segment r s /\ t_psize t = bytes mod 2 ^ 32 /\ coord_is (t_src t) (sg_dev s) (sg_sy s) (sg_sx s) /\ t_dst t = Unicast c /\ coord_is c (sg_dev s) (sg_fy s) (sg_fx s).
Proof.
  induction 1 as [|r ts segs tss Y F IH]; intros k HC Hk HL.
  - split; [reflexivity|]. intros [|i] t E; discriminate.
  - destruct (HC 0%nat r eq_refl) as (s & C1 & C2 & C3 & C4). destruct (Y s (proj1 C1)) as [_ Y2]. destruct (Y2 C1) as (ls & fs & -> & _ & L2 & _ & F2). rewrite (L2 C3). destruct (F2 C2) as (t & -> & HT). cbn [app concat List.length] in *.
    destruct (IH (k + 1)) as [I1 I2]; [intros i r' E; destruct (HC (S i) r' E) as (s' & D1 & D2 & D3 & D4); exists s'; split; [exact D1|]; split; [exact D2|]; split; [exact D3|]; lia|lia|lia|].
    split; [rewrite I1; reflexivity|]. intros [|i] t' E; cbn [nth_error] in E.
    + injection E as <-. destruct HT as (T1 & T2 & T3 & (c & T4 & T5) & T6 & T7 & T8 & T9). rewrite C4 in T9. apply narrow32_small in T9; [|lia]. split; [lia|]. split; [exact T7|]. exists r, s, c. split; [reflexivity|]. split; [exact (proj1 C1)|]. auto.
    + destruct (I2 i t' E) as (J1 & J2 & J3). split; [lia|]. split; [exact J2|]. exact J3.
Qed.
Theorem fabric_chain path name wl evs : convertNocTracesToNpeWorkload path name (Parsed (JArray evs)) = Ok (Some wl) ->
  exists tss p, wl_phases wl = [p] /\ Forall2 same_content (concat tss) (ph_trs p) /\ List.length tss = List.length evs /\
  forall i ev ts segs q, nth_error evs i = Some ev -> nth_error tss i = Some ts -> moves ev -> path_of ev segs -> requests (firstn i evs) ev q ->
    exists g, 0 <= g < wl_groups wl /\ Forall (fun t => t_gid t = g) ts /\ map t_gix ts = map Z.of_nat (seq 0 (List.length ts)) /\
      (forall k ts', k <> i -> nth_error tss k = Some ts' -> Forall (fun t => t_gid t <> g) ts') /\
      (chain_path segs -> List.length ts = List.length segs /\ forall n t, nth_error ts n = Some t -> t_gpar t = Z.of_nat n - 1 /\
         exists r s c, nth_error segs n = Some r /\ segment r s /\ t_psize t = rq_bytes q mod 2 ^ 32 /\ coord_is (t_src t) (sg_dev s) (sg_sy s) (sg_sx s) /\ t_dst t = Unicast c /\ coord_is c (sg_dev s) (sg_fy s) (sg_fx s)).
Proof.
  unfold convertNocTracesToNpeWorkload. intros H. apply bind_ok in H as (d & HD & H). apply trace_converted in H as (evs' & tss & p & E & P1 & P2 & P3 & P4 & [P5 P6] & P7 & _). injection E as <-.
  exists tss, p. split; [exact P1|]. split. { clear -P3. induction P3 as [|a b l l' [A _] F IH]; constructor; assumption. } split; [exact P5|].
  intros i ev ts segs q Hi Ht HM HP HQ. assert (HP' := HP). destruct HP' as (f & HF & _). destruct (P6 i ev ts Hi Ht) as (_ & _ & Y). destruct (Y f HM HF) as (ty & noc & q' & g & Y1 & Y2 & Y3 & Y4 & Y5 & Y6 & _ & Y8).
  assert (EQ : q' = q). { destruct HQ as (ty1 & o1 & A1 & A2 & A3). destruct Y3 as (ty2 & o2 & B1 & B2 & B3). apply text_iff in A1, B1. rewrite A1 in B1. subst ty2. rewrite (own_fields_unique _ _ _ B2 A2) in B3. clear B2.
    assert (FS : forall st o a b, from_state st o a -> from_state st o b -> a = b). { intros st o [] [] (a1 & a2 & a3 & a4 & a5) (b1 & b2 & b3 & b4 & b5). cbn in *. congruence. }
    destruct A3 as [[A3 ->]|(k & A3 & A4)], B3 as [[B3 ->]|(k' & B3 & B4)]; [reflexivity|exfalso; exact (with_not_plain _ _ B3 A3)|exfalso; exact (with_not_plain _ _ A3 B3)|].
    assert (E := kind_unique _ _ _ A3 B3). subst k'. destruct A4 as [(s & st & L & O & Fr)|[Nn Fr]], B4 as [(s' & st' & L' & O' & Fr')|[Nn' Fr']].
    - assert (Es : s' = s). { destruct L as (l1 & r1 & E1 & L1 & L2), L' as (l2 & r2 & E2 & L3 & L4). rewrite E1 in E2. clear -E2 L1 L2 L3 L4. revert l2 E2. induction l1 as [|x l1 IH]; intros [|y l2] E; cbn [app] in E; injection E as E0 E.
        - congruence. - rewrite Forall_forall in L2. exfalso. apply (L2 s'); [rewrite E; apply in_or_app; right; left; reflexivity|exact L3].
        - rewrite Forall_forall in L4. exfalso. apply (L4 s); [rewrite <- E; apply in_or_app; right; left; reflexivity|exact L1]. - exact (IH l2 E). }
      subst s'. rewrite (own_fields_unique _ _ _ O' O) in Fr'. exact (FS _ _ _ _ Fr' Fr).
    - exfalso. destruct L as (l1 & r1 & E1 & L1 & _). rewrite E1, Forall_forall in Nn'. apply (Nn' s); [apply in_or_app; right; left; reflexivity|exact L1].
    - exfalso. destruct L' as (l1 & r1 & E1 & L1 & _). rewrite E1, Forall_forall in Nn. apply (Nn s'); [apply in_or_app; right; left; reflexivity|exact L1].
    - exact (FS _ _ _ _ Fr' Fr). }
  subst q'. exists g. split. { destruct (number_prefix _ _ P7 i) as (m & M1 & _ & M3). rewrite (number_unique _ _ Y4 _ M1). split; [eapply number_pos, M1|exact (M3 ev f Hi HM HF)]. }
  split; [exact Y6|]. split; [exact Y5|]. split.
  - intros k ts' Nk Hk. destruct (nth_error evs k) as [ev'|] eqn:Ek. 2:{ apply nth_error_None in Ek. assert (X : (k < List.length tss)%nat) by (apply nth_error_Some; congruence). lia. }
    destruct (P6 k ev' ts' Ek Hk) as (Z1 & Z2 & Z3). assert (DM : moves ev' \/ ~ moves ev') by (rewrite moves_b_iff; destruct (moves_b ev'); [left; reflexivity|right; discriminate]). destruct DM as [M'|NM]; [|rewrite (Z1 NM); constructor].
    destruct (fabric_b ev') as [j|] eqn:EF.
    + apply fabric_some in EF as (f' & _ & F'). destruct (Z3 f' M' F') as (_ & _ & _ & g' & _ & _ & _ & G1 & _ & G2 & _). eapply Forall_impl; [|exact G2]. intros t <-. intros <-. assert (C : (k < i \/ i < k)%nat) by lia.
      destruct C as [C|C]; [assert (L := number_less evs k i ev' f' _ _ C Ek M' F' (ex_intro _ _ P7) G1 Y4)|assert (L := number_less evs i k ev f _ _ C Hi HM HF (ex_intro _ _ P7) Y4 G1)]; lia.
    + destruct (Z2 M' (proj1 (fabric_none ev') EF)) as (t & -> & T). destruct T as (ty' & noc' & q' & dev & dd & sx & sy & dx & dy & T). decompose [and] T. constructor; [|constructor]. pose proof (number_pos _ _ Y4). lia.
  - intros [C1 C2]. destruct (Y8 segs HP) as (tss' & -> & F & _). destruct (chain_transfers _ _ _ _ _ F 0) as [L1 L2]; [intros n r E; destruct (C2 n r E) as (s & D); exists s; cbn; exact D|lia|lia|]. split; [exact L1|]. intros n t E. destruct (L2 n t E) as (K1 & _ & K2). split; [lia|exact K2].
Qed.
Theorem blackhole_fabric path name wl evs d ev segs : createDeviceModel name = Ok d -> dv_arch d = Blackhole -> convertNocTracesToNpeWorkload path name (Parsed (JArray evs)) = Ok (Some wl) ->
  In ev evs -> moves ev -> path_of ev segs -> segs = [].
Proof.
  intros HD HB H. unfold convertNocTracesToNpeWorkload in H. rewrite HD in H. cbn [bind] in H. apply trace_converted in H as (evs' & tss & p & E & _ & _ & _ & _ & _ & _ & _ & K). injection E as <-. exact (K HB ev segs).
Qed.

(** * C52 *)
Theorem file_accepted path j fs ps ess : j = JObject fs -> holds j "phases" (JArray ps) ->
  (no_golden j \/ exists g n, holds j "golden_result" g /\ holds g "cycles" (JInt n) /\ 0 <= n) ->
  Forall2 (fun p es => holds p "transfers" (JArray es) /\ Forall (fun e => ~ reversed e) es) ps ess -> Z.of_nat (List.length (concat ess)) < 2 ^ 31 ->
  exists wl, loadJSONWorkloadFormat path true (Parsed j) = Ok (Some wl).
Proof.
  intros HJ HP HG HF HL. apply (workload_accepted path j fs ps HJ HP HG).
  - clear -HF. induction HF as [|p es ps ess H F IH]; constructor; [exists es; exact H|exact IH].
  - replace (entries ps) with (concat ess); [exact HL|]. clear -HF. induction HF as [|p es ps ess [H _] F IH]; [reflexivity|]. cbn [concat entries flat_map]. apply array_iff in H. rewrite H, IH. reflexivity.
Qed.
Theorem clean_name path name d accept evs : createDeviceModel name = Ok d -> clean d evs -> exists o, createWorkloadFromJSON path name true accept (Parsed (JArray evs)) = Ok o.
Proof. intros HD. apply clean_total; [exact HD|]. apply supported_wf. exists name. apply createDeviceModel_iff, HD. Qed.
