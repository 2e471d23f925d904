(* Proofs that the conversion of clean traces is defined (C49). *)
From Coq Require Import ZArith Lia Bool String List Floats.SpecFloat ZifyBool.
From Verif Require Import Base Arith Util Device SpecDevice Workload SpecWorkload Json Ingest SpecIngest UtilProofs WorkloadProofs TrackerProofs IngestProofs IngestTrace.
Import ListNotations.
Local Open Scope string_scope.
Local Open Scope list_scope.
Open Scope Z_scope.
Ltac Zify.zify_post_hook ::= idtac.

Definition defined {X} (o : outcome X) : Prop := match o with Ok _ | Throw _ => True | _ => False end.
Lemma defined_bind {X Y} (m : outcome X) (f : X -> outcome Y) : defined m -> (forall x, m = Ok x -> defined (f x)) -> defined (bind m f).
Proof. destruct m; cbn; intros H K; auto. Qed.
Lemma defined_fold {X S} (P : S -> Prop) (f : S -> X -> outcome S) l : forall s, P s ->
  (forall x s, In x l -> P s -> defined (f s x) /\ forall s', f s x = Ok s' -> P s') -> defined (foldM f l s) /\ forall s', foldM f l s = Ok s' -> P s'.
Proof.
  induction l as [|x l IH]; intros s Hs H; cbn [foldM]; [split; [exact I|]; intros s' E; injection E as <-; exact Hs|].
  destruct (H x s (or_introl eq_refl) Hs) as [D K]. assert (IH' := fun s' E => IH s' (K s' E) (fun y t Hy => H y t (or_intror Hy))). split.
  - apply defined_bind; [exact D|]. intros s' E. exact (proj1 (IH' s' E)).
  - intros s' E. apply bind_ok in E as (s1 & E1 & E). exact (proj2 (IH' s1 E1) s' E).
Qed.
Lemma defined_map {X Y} (f : X -> outcome Y) l : (forall x, In x l -> defined (f x)) -> defined (mapM f l).
Proof.
  induction l as [|x l IH]; intros H; [exact I|]. cbn [mapM]. apply defined_bind; [apply H; left; reflexivity|]. intros y _. apply defined_bind; [apply IH; intros z Hz; apply H; right; exact Hz|]. intros ys _. exact I.
Qed.

(** * Windows *)
Definition window_ok (t0 : Z) (w : Z * Z) : Prop := t0 <= fst w <= 2 ^ 53 /\ t0 <= snd w <= 2 ^ 53.
Lemma core_ts_ok t0 m k ts : t0 <= ts <= 2 ^ 53 -> Forall (fun e => window_ok t0 (snd e)) m ->
  Forall (fun e => window_ok t0 (snd e)) (core_ts m k ts) /\ (forall k', In k' (map fst m) \/ k' = k -> In k' (map fst (core_ts m k ts))).
Proof.
  intros HT. induction m as [|[k0 w] m IH]; intros HF; cbn [core_ts].
  - split; [constructor; [unfold window_ok; cbn; lia|constructor]|]. intros k' [[]| ->]. left. reflexivity.
  - apply Forall_cons_iff in HF as [HW HF]. destruct (core_key_eqb k0 k) eqn:E.
    + split; [constructor; [unfold window_ok in *; cbn [fst snd] in *; lia|exact HF]|]. intros k' [H|H]; [exact H|]. left. cbn [fst]. subst k'.
      destruct k0 as [[[p x] y] c], k as [[[p' x'] y'] c']. cbn in E. apply andb_prop in E as [E E4]. apply andb_prop in E as [E E3]. apply andb_prop in E as [E1 E2]. apply String.eqb_eq in E1. apply Z.eqb_eq in E2, E3, E4. subst. reflexivity.
    + destruct (IH HF) as [I1 I2]. split; [constructor; assumption|]. cbn [map fst In]. intros k' [[H|H]|H]; [left; exact H|right; apply I2; auto|right; apply I2; auto].
Qed.
Definition key_of (ev : json) : core_key := (string_at ev "proc", int_at ev "sx" (-1), int_at ev "sy" (-1), int_at ev "src_device_id" (-1)).
Lemma windows_ok t0 evs : (forall ev, In ev evs -> t0 <= timestamp ev <= 2 ^ 53) ->
  Forall (fun e => window_ok t0 (snd e)) (core_windows evs) /\
  (forall ev, In ev evs -> string_at ev "proc" <> "" -> int_at ev "sx" (-1) <> -1 -> int_at ev "sy" (-1) <> -1 -> In (key_of ev) (map fst (core_windows evs))).
Proof.
  unfold core_windows. intros HT. induction evs as [|e evs IH] using rev_ind; [split; [constructor|intros ev []]|].
  destruct IH as [I1 I2]; [intros ev Hev; apply HT, in_or_app; auto|]. rewrite fold_left_app. cbn [fold_left]. cbv zeta.
  set (m := fold_left _ evs []) in *. assert (HTe : t0 <= timestamp e <= 2 ^ 53) by (apply HT, in_or_app; right; left; reflexivity).
  destruct (core_ts_ok t0 m (key_of e) (timestamp e) HTe I1) as [C1 C2]. unfold key_of in C1, C2 at 2.
  destruct (negb _ && _ && _) eqn:E.
  - split; [exact C1|]. intros ev Hev P1 P2 P3. apply C2. apply in_app_or in Hev as [Hev|[<-|[]]]; [left; apply I2; assumption|right; reflexivity].
  - split; [exact I1|]. intros ev Hev P1 P2 P3. apply in_app_or in Hev as [Hev|[<-|[]]]; [apply I2; assumption|]. exfalso.
    destruct (String.eqb_spec (string_at e "proc") ""); [contradiction|]. lia.
Qed.
Lemma chip_window_ok t0 ws dev : 0 <= t0 <= 2 ^ 53 -> Forall (fun e => window_ok t0 (snd e)) ws -> (exists k, In k (map fst ws) /\ snd k = dev) -> exists w, chip_window ws t0 dev = Ok w.
Proof.
  intros H0 HF (k & Hk & Ek). unfold chip_window.
  assert (F : forall acc, 0 <= fst acc -> 0 <= snd acc <= 2 ^ 53 -> (t0 <= fst acc /\ (fst acc <= 2 ^ 53 -> t0 <= snd acc)) -> exists w, foldM (fun acc e => if snd (fst e) =? dev then let! a := to_size (fst (snd e)) in let! b := to_size (snd (snd e)) in Ok (Z.min (fst acc) a, Z.max (snd acc) b) else Ok acc) ws acc = Ok w /\
              t0 <= fst w /\ 0 <= snd w <= 2 ^ 53 /\ ((fst acc <= 2 ^ 53 \/ exists k, In k (map fst ws) /\ snd k = dev) -> fst w <= 2 ^ 53 /\ t0 <= snd w)).
  { clear k Hk Ek. induction ws as [|[k w] ws IH]; intros acc A1 A2 A3; cbn [foldM].
    - exists acc. split; [reflexivity|]. split; [lia|]. split; [exact A2|]. intros [K|(k & [] & _)]. lia.
    - apply Forall_cons_iff in HF as [HW HF]. unfold window_ok in HW. cbn [fst snd] in *. destruct (Z.eqb_spec (snd k) dev) as [E|N].
      + unfold to_size. change (2 ^ 64) with 18446744073709551616. change (2 ^ 53) with 9007199254740992 in *. replace ((0 <=? fst w) && (fst w <? 18446744073709551616)) with true by lia. replace ((0 <=? snd w) && (snd w <? 18446744073709551616)) with true by lia. cbn [bind].
        destruct (IH HF (Z.min (fst acc) (fst w), Z.max (snd acc) (snd w))) as (w' & I1 & I2 & I3 & I4); cbn [fst snd] in *; [lia|lia|lia|]. exists w'. split; [exact I1|]. split; [exact I2|]. split; [exact I3|]. intros _. apply I4. left. lia.
      + cbn [bind]. destruct (IH HF acc A1 A2 A3) as (w' & I1 & I2 & I3 & I4). exists w'. split; [exact I1|]. split; [exact I2|]. split; [exact I3|]. intros [K|(k' & [<-|K] & Ek)]; [apply I4; left; exact K|exact (False_ind _ (N Ek))|]. apply I4. right. exists k'. auto. }
  destruct (F (2 ^ 63 - 1, 0)) as (w & F1 & F2 & F3 & F4); cbn [fst snd] in *; [lia|lia|change (2 ^ 53) with 9007199254740992 in *; change (2 ^ 63) with 9223372036854775808; lia|]. rewrite F1. cbn [bind].
  assert (F5 := F4 (or_intror (ex_intro _ k (conj Hk Ek)))). rewrite (r53_exact (fst w)), (r53_exact (snd w)), (r53_exact (fst w - t0)), (r53_exact (snd w - t0)) by lia.
  unfold to_size. change (2 ^ 64) with 18446744073709551616. change (2 ^ 53) with 9007199254740992 in *. replace ((0 <=? fst w - t0) && _) with true by lia. cbn [bind]. replace ((0 <=? snd w - t0) && _) with true by lia. cbn [bind]. eauto.
Qed.

(** * Zones *)
Lemma known_risc ev : known_proc ev -> exists r, risc_of (string_at ev "proc") = Ok r /\ string_at ev "proc" <> "".
Proof.
  intros (p & Hp & Hin). apply text_iff in Hp. rewrite Hp. clear Hp. cbn [known_procs In] in Hin.
  repeat (destruct Hin as [<-|Hin]; [eexists; split; [reflexivity|discriminate]|]). destruct Hin.
Qed.
Lemma risc_eqb_refl r : risc_eqb r r = true.
Proof. destruct r; reflexivity. Qed.
Lemma coord_eqb_refl c : coord_eqb c c = true.
Proof. unfold coord_eqb. rewrite !Z.eqb_refl. reflexivity. Qed.
Lemma proc_eqb_refl k : proc_eqb k k = true.
Proof. unfold proc_eqb. rewrite coord_eqb_refl, risc_eqb_refl. reflexivity. Qed.
Lemma push_same m k z : zones_get (zones_push m k z) k <> None.
Proof. induction m as [|[k' l] m IH]; cbn [zones_push zones_get]; [rewrite proc_eqb_refl; discriminate|]. destruct (proc_eqb k' k) eqn:E; cbn [zones_get]; rewrite E; [discriminate|exact IH]. Qed.
Lemma push_keeps m k z k' : zones_get m k' <> None -> zones_get (zones_push m k z) k' <> None.
Proof.
  induction m as [|[k0 l] m IH]; cbn [zones_push zones_get]; [congruence|]. destruct (proc_eqb k0 k) eqn:E; cbn [zones_get]; destruct (proc_eqb k0 k') eqn:E'; try discriminate; auto.
Qed.
Definition core_of (ev : json) (r : risc_type) : coord * risc_type := (Coord_make (int_at ev "src_device_id" 0) (int_at ev "sy" (-1)) (int_at ev "sx" (-1)), r).
Lemma zones_defined evs t0 : Forall known_proc evs -> Forall known_phase evs ->
  exists zs, extractZones evs t0 = Ok zs /\ forall ev dev r, In ev evs -> placed ev dev -> marks_zone ev -> risc_of (string_at ev "proc") = Ok r -> zones_get zs (core_of ev r) <> None.
Proof.
  unfold extractZones. induction evs as [|e evs IH] using rev_ind; intros HP HZ; [exists []; split; [reflexivity|intros ev dev r []]|].
  apply Forall_app in HP as [HP HPe]. apply Forall_app in HZ as [HZ HZe]. apply Forall_cons_iff in HPe as [HPe _]. apply Forall_cons_iff in HZe as [HZe _].
  destruct (IH HP HZ) as (zs & I1 & I2). rewrite foldM_snoc, I1. cbn [bind]. cbv zeta. destruct (known_risc e HPe) as (re & HRe & NPe).
  destruct (negb _ && _ && _ && _ && _) eqn:E.
  - rewrite HRe. cbn [bind]. destruct HZe as (zp & Hzp & Hin). apply text_iff in Hzp. assert (HPh : exists ph, zone_phase_of (string_at e "zone_phase") = Ok ph).
    { rewrite Hzp in *. cbn [In] in Hin. destruct Hin as [<-|[<-|[<-|[]]]]; [rewrite andb_false_r in E; discriminate|eexists; reflexivity|eexists; reflexivity]. }
    destruct HPh as (ph & ->). cbn [bind]. eexists. split; [reflexivity|]. intros ev dev r Hev HPl HM HR. apply in_app_or in Hev as [Hev|[<-|[]]].
    + apply push_keeps. exact (I2 ev dev r Hev HPl HM HR).
    + rewrite HRe in HR. injection HR as <-. apply push_same.
  - exists zs. split; [reflexivity|]. intros ev dev r Hev HPl HM HR. apply in_app_or in Hev as [Hev|[<-|[]]]; [exact (I2 ev dev r Hev HPl HM HR)|]. exfalso.
    destruct HPl as (P1 & P2 & _), HM as (M1 & M2). rewrite int_or_iff in P1, P2. rewrite text_iff in M1, M2.
    destruct (String.eqb_spec (string_at e "proc") ""); [contradiction|]. destruct (String.eqb_spec (string_at e "zone") ""); [contradiction|]. destruct (String.eqb_spec (string_at e "zone_phase") ""); [contradiction|]. lia.
Qed.
Definition iter_ok (it : zone_iter) : Prop := (zi_index it <= List.length (zi_list it))%nat.
Lemma advance_ok limit fuel : forall it, iter_ok it -> (List.length (zi_list it) - zi_index it < fuel)%nat -> defined (advance fuel it limit) /\ forall it', advance fuel it limit = Ok it' -> iter_ok it'.
Proof.
  unfold iter_ok. induction fuel as [|fuel IH]; intros it H1 H2; [lia|]. cbn [advance]. unfold zi_is_end. destruct (Nat.eqb_spec (zi_index it) (List.length (zi_list it))) as [E|N]; [split; [exact I|]; intros it' Eq; injection Eq as <-; exact H1|].
  unfold vec_get. destruct (nth_error (zi_list it) (zi_index it)) as [z|] eqn:EN; [|apply nth_error_None in EN; lia]. cbn [bind]. destruct (_ <=? _); [|split; [exact I|]; intros it' Eq; injection Eq as <-; exact H1].
  assert (K : match zi_next it with Ok it' => zi_list it' = zi_list it /\ zi_index it' = S (zi_index it) | Throw _ => True | _ => False end).
  { unfold zi_next. rewrite EN. destruct (z_phase z); [cbn; auto|]. destruct (last_enclosing it) as [[top n]|]; [|exact I]. destruct (String.eqb _ _); [cbn; auto|exact I]. }
  destruct (zi_next it) as [it1|e| | | | |]; try contradiction; [|split; [exact I|discriminate]]. destruct K as [K1 K2]. cbn [bind]. apply IH; rewrite K1, K2; lia.
Qed.
Definition it_ok (o : option zone_iter) : Prop := match o with Some it => iter_ok it | None => False end.
Lemma zone_of_ok zones t0 prev it ev r : risc_of (string_at ev "proc") = Ok r ->
  it_ok it \/ (zones_get zones (core_of ev r) <> None /\ proc_eqb (core_of ev r) prev = false) ->
  defined (zone_of zones t0 prev it ev) /\ forall x, zone_of zones t0 prev it ev = Ok x -> it_ok (snd (fst x)).
Proof.
  intros HR H. unfold zone_of. rewrite HR. cbn [bind]. change (Coord_make (int_at ev "src_device_id" 0) (int_at ev "sy" (-1)) (int_at ev "sx" (-1)), r) with (core_of ev r).
  destruct (zones_get zones (core_of ev r)) as [l|].
  - set (pi := if proc_eqb (core_of ev r) prev then (prev, it) else (core_of ev r, Some (zi_make l))).
    assert (K : it_ok (snd pi)). { subst pi. destruct (proc_eqb (core_of ev r) prev) eqn:E; [|cbn; unfold iter_ok; cbn; lia]. cbn [snd]. destruct H as [H|[_ H]]; [exact H|discriminate]. }
    destruct pi as [prev' it']. cbn [snd] in K. destruct it' as [it'|]; [|destruct K]. cbn [it_ok] in K.
    destruct (advance_ok (r53 (timestamp ev - t0)) (S (List.length (zi_list it'))) it' K ltac:(lia)) as [D A].
    destruct (advance _ it' _) as [it1|e| | | | |]; try contradiction; cbn [bind snd fst]; [|split; [exact I|discriminate]]. split; [exact I|]. intros x E. injection E as <-. cbn. apply A. reflexivity.
  - cbn [bind snd fst]. destruct H as [H|[H _]]; [|congruence]. destruct it as [it|]; [|destruct H]. split; [exact I|]. intros x E. injection E as <-. exact H.
Qed.

(** * Events *)
Definition sm (z : Z) : Prop := - 2 ^ 31 <= z < 2 ^ 31.
Lemma small_at j k : small j k -> sm (int_at j k (-1)).
Proof. intros H. apply H, int_or_iff. reflexivity. Qed.
Lemma modulo_range n m : 0 < m -> exists r, modulo n m = Ok r /\ 0 <= r < m.
Proof.
  intros H. unfold modulo. destruct (Z.eqb_spec m 0); [lia|]. cbv zeta. pose proof (Z.rem_bound_abs n m ltac:(lia)). destruct (Z.ltb_spec (Z.rem n m) 0); eexists; (split; [reflexivity|lia]).
Qed.
Lemma latency_ok d sx sy dx dy noc : wf_device d -> sm sx -> sm sy -> sm dx -> sm dy -> exists l, event_write_latency d sx sy dx dy noc = Ok l /\ 0 <= l <= 2 ^ 20.
Proof.
  intros (W1 & W2 & W3 & W4 & _) S1 S2 S3 S4. unfold sm in *. change (2 ^ 31) with 2147483648 in *. change (2 ^ 15) with 32768 in W4.
  assert (R : 0 < Z.of_nat (dv_rows d) <= 32768 /\ 0 < Z.of_nat (dv_cols d) <= 32768) by nia. destruct R as [R1 R2].
  assert (SUB : forall a b, - 2147483648 <= a < 2147483648 -> - 2147483648 <= b < 2147483648 -> sub64 a b = Ok (a - b)).
  { intros a b Ha Hb. unfold sub64, in_i64. change (2 ^ 63) with 9223372036854775808. replace (_ && _) with true by lia. reflexivity. }
  assert (W : exists l, write_latency d sx sy dx dy noc = Ok l /\ 0 <= l <= 2 ^ 20).
  { unfold write_latency, route_hops. cbv zeta. change (2 ^ 20) with 1048576. destruct (String.eqb noc "NOC_0").
    - destruct (modulo_range (dx - sx) (Z.of_nat (dv_cols d)) ltac:(lia)) as (a & -> & A). destruct (modulo_range (dy - sy) (Z.of_nat (dv_rows d)) ltac:(lia)) as (b & -> & B). cbn [bind]. eexists. split; [reflexivity|]. destruct (dv_arch d); nia.
    - destruct (String.eqb noc "NOC_1").
      + destruct (modulo_range (sx - dx) (Z.of_nat (dv_cols d)) ltac:(lia)) as (a & -> & A). destruct (modulo_range (sy - dy) (Z.of_nat (dv_rows d)) ltac:(lia)) as (b & -> & B). cbn [bind]. eexists. split; [reflexivity|]. destruct (dv_arch d); nia.
      + cbn [bind]. eexists. split; [reflexivity|]. destruct (dv_arch d); lia. }
  unfold event_write_latency. rewrite !SUB by lia. cbn [bind]. destruct (String.eqb noc "NOC_0"); [exact W|]. destruct (String.eqb noc "NOC_1"); exact W.
Qed.
Lemma add64_small a b : 0 <= a <= 2 ^ 62 -> 0 <= b <= 2 ^ 20 -> add64 a b = Ok (a + b).
Proof. intros Ha Hb. unfold add64, in_i64. change (2 ^ 62) with 4611686018427387904 in Ha. change (2 ^ 20) with 1048576 in Hb. change (2 ^ 63) with 9223372036854775808. replace (_ && _) with true by lia. reflexivity. Qed.
Definition seg_size (r : json) : Z := match at_key as_array r "local_writes" with Some ws => Z.of_nat (List.length ws) + 1 | None => 1 end.
Lemma seg_size_pos r : 1 <= seg_size r.
Proof. unfold seg_size. destruct (at_key _ _ _); lia. Qed.
Definition seg_small (r : json) : Prop := small r "segment_start_x" /\ small r "segment_start_y" /\ small r "forward_x" /\ small r "forward_y".
Lemma locals_length ty g s ws ts : locals ty g s ws ts -> (List.length ts <= List.length ws)%nat.
Proof. induction 1; cbn; lia. Qed.
Lemma yields_length bytes ty g r ts : segment_yields bytes ty g r ts -> Z.of_nat (List.length ts) <= seg_size r.
Proof.
  intros H. destruct (H _ (proj2 (segment_iff r _) eq_refl)) as [H1 H2]. pose proof (seg_size_pos r).
  assert (C : complete r (seg_of r) \/ ~ complete r (seg_of r)).
  { unfold complete, has_forward, writes. setoid_rewrite array_iff. destruct (at_key as_array r "local_writes") as [ws|].
    - destruct (Z.eq_dec (sg_dev (seg_of r)) (-1)); [right; tauto|]. destruct (Z.eq_dec (sg_sx (seg_of r)) (-1)); [right; tauto|]. destruct (Z.eq_dec (sg_sy (seg_of r)) (-1)); [right; tauto|]. left. split; [apply segment_iff; reflexivity|]. eauto 10.
    - destruct (Z.eq_dec (sg_dev (seg_of r)) (-1)); [right; tauto|]. destruct (Z.eq_dec (sg_sx (seg_of r)) (-1)); [right; tauto|]. destruct (Z.eq_dec (sg_sy (seg_of r)) (-1)); [right; tauto|].
      destruct (Z.eq_dec (sg_fx (seg_of r)) (-1)); [right; intros (_ & _ & _ & _ & [[K _]|(ws & K)]); [tauto|discriminate]|]. destruct (Z.eq_dec (sg_fy (seg_of r)) (-1)); [right; intros (_ & _ & _ & _ & [[_ K]|(ws & K)]); [tauto|discriminate]|].
      left. split; [apply segment_iff; reflexivity|]. auto 10. }
  destruct C as [C|C]; [|rewrite (H1 C); cbn; lia]. destruct (H2 C) as (ls & fs & -> & L1 & L2 & F1 & F2). rewrite app_length.
  assert (LF : (List.length fs <= 1)%nat).
  { assert (D : has_forward (seg_of r) \/ ~ has_forward (seg_of r)) by (unfold has_forward; lia). destruct D as [D|D]; [destruct (F2 D) as (t & -> & _)|rewrite (F1 D)]; cbn; lia. }
  assert (LL : Z.of_nat (List.length ls) + 1 <= seg_size r).
  { unfold seg_size. destruct (at_key as_array r "local_writes") as [ws|] eqn:E.
    - assert (K := locals_length _ _ _ _ _ (L1 ws (proj2 (array_iff _ _ _) E))). lia.
    - rewrite L2; [cbn; lia|]. intros ws K. apply array_iff in K. congruence. }
  lia.
Qed.
Definition segs_size (segs : list json) : Z := fold_right (fun r n => n + seg_size r) 0 segs.
Lemma segment_defined d ty path bytes g trs off k r : wf_device d -> seg_small r -> 0 <= off <= 2 ^ 62 -> defined (fabric_segment d ty path bytes g (trs, off, k) r).
Proof.
  intros HW (S1 & S2 & S3 & S4) HO. apply small_at in S1, S2, S3, S4. unfold fabric_segment. cbv zeta. apply defined_bind.
  - destruct (k =? 0); [|exact I]. destruct (latency_ok d _ _ _ _ (string_at r "noc") HW S1 S2 S3 S4) as (l & El & Bl). rewrite El. cbn [bind]. rewrite add64_small by assumption. destruct (dv_arch d); exact I.
  - intros off' _. destruct (_ || _); exact I.
Qed.
Lemma segments_defined d ty path bytes g : wf_device d -> forall segs trs off k, Forall seg_small segs -> 0 <= off -> off + 2 ^ 20 * Z.of_nat (List.length segs) <= 2 ^ 62 ->
  defined (foldM (fabric_segment d ty path bytes g) segs (trs, off, k)) /\
  forall st', foldM (fabric_segment d ty path bytes g) segs (trs, off, k) = Ok st' -> Z.of_nat (List.length (fst (fst st'))) <= Z.of_nat (List.length trs) + segs_size segs.
Proof.
  intros HW. change (2 ^ 20) with 1048576. induction segs as [|r segs IH]; intros trs off k HS H0 HO; cbn [foldM segs_size fold_right].
  - split; [exact I|]. intros st' E. injection E as <-. cbn [fst]. lia.
  - apply Forall_cons_iff in HS as [HSr HS]. cbn [List.length] in HO. assert (D := segment_defined d ty path bytes g trs off k r HW HSr ltac:(lia)).
    assert (N : forall x, fabric_segment d ty path bytes g (trs, off, k) r = Ok x -> exists trs1 off1 k1, x = (trs1, off1, k1) /\ Z.of_nat (List.length trs1) <= Z.of_nat (List.length trs) + seg_size r /\
              defined (foldM (fabric_segment d ty path bytes g) segs (trs1, off1, k1)) /\
              forall st', foldM (fabric_segment d ty path bytes g) segs (trs1, off1, k1) = Ok st' -> Z.of_nat (List.length (fst (fst st'))) <= Z.of_nat (List.length trs1) + segs_size segs).
    { intros x E. assert (E' := E). apply fabric_segment_spec in E as (ts & lat & -> & Y & _ & _ & L1 & L2). do 3 eexists. split; [reflexivity|]. split; [rewrite app_length; apply yields_length in Y; lia|].
      assert (B : 0 <= lat <= 1048576). { destruct (Z.eq_dec k 0) as [->|NK]; [|rewrite (L1 NK); lia]. destruct (L2 eq_refl) as [_ L]. destruct HSr as (S1 & S2 & S3 & S4). apply small_at in S1, S2, S3, S4.
        destruct (latency_ok d _ _ _ _ (string_at r "noc") HW S1 S2 S3 S4) as (l & El & Bl). apply write_latency_ok in El. cbn [seg_of sg_sx sg_sy sg_fx sg_fy sg_noc] in L. rewrite El in L. injection L as ->. exact Bl. }
      apply IH; [exact HS|lia|lia]. }
    split.
    + apply defined_bind; [exact D|]. intros x E. destruct (N x E) as (trs1 & off1 & k1 & -> & _ & K & _). exact K.
    + intros st' E. apply bind_ok in E as (x & E1 & E). destruct (N x E1) as (trs1 & off1 & k1 & -> & K1 & _ & K2). specialize (K2 st' E). fold (segs_size segs). lia.
Qed.
Definition event_size (ev : json) : Z :=
  match fabric_b ev with Some f => match at_key as_array f "path" with Some segs => segs_size segs + 1 | None => 1 end | None => 1 end.
Lemma segs_size_length segs : Z.of_nat (List.length segs) <= segs_size segs.
Proof. induction segs as [|r segs IH]; cbn [List.length segs_size fold_right]; [lia|]. fold (segs_size segs). pose proof (seg_size_pos r). lia. Qed.
Lemma data_event_defined d t0 path ev sx sy dx dy bytes g trs : wf_device d -> acts_b ev = true -> sm sx -> sm sy -> sm dx -> sm dy -> small_event ev ->
  0 <= r53 (timestamp ev - t0) <= 2 ^ 53 -> 0 <= g -> g + 1 < 2 ^ 31 -> event_size ev < 2 ^ 31 ->
  defined (data_event d t0 path ev sx sy dx dy bytes g trs) /\
  forall g' trs', data_event d t0 path ev sx sy dx dy bytes g trs = Ok (g', trs') -> g <= g' <= g + 1 /\ Z.of_nat (List.length trs') <= Z.of_nat (List.length trs) + event_size ev.
Proof.
  intros HW HA S1 S2 S3 S4 (_ & _ & _ & _ & HSE) HT HG0 HG HSZ.
  assert (HSeg : forall f segs, fabric_b ev = Some f -> at_key as_array f "path" = Some segs -> Forall seg_small segs).
  { intros f segs HF HP. apply Forall_forall. intros r Hr. exact (HSE segs r (proj2 (path_of_some _ _ _ HF) HP) Hr). }
  assert (HLen : forall f segs, fabric_b ev = Some f -> at_key as_array f "path" = Some segs -> Z.of_nat (List.length segs) < 2 ^ 31).
  { intros f segs HF HP. unfold event_size in HSZ. rewrite HF, HP in HSZ. pose proof (segs_size_length segs). lia. }
  change (2 ^ 53) with 9007199254740992 in *. change (2 ^ 31) with 2147483648 in *.
  assert (LAT : forall l, 0 <= l <= 2 ^ 20 -> add64 (r53 (timestamp ev - t0)) l = Ok (r53 (timestamp ev - t0) + l)).
  { intros l Hl. apply add64_small; [|exact Hl]. change (2 ^ 62) with 4611686018427387904. lia. }
  split.
  - unfold data_event. cbv zeta. destruct (String.eqb _ ""); [exact I|]. unfold to_i64, in_i64. change (2 ^ 63) with 9223372036854775808. replace (_ && _) with true by lia. cbn [bind].
    assert (O : exists off, (if starts_with (string_at ev "type") "READ" then add64 (r53 (timestamp ev - t0)) (read_latency (dv_arch d) sx sy dx dy) else if starts_with (string_at ev "type") "WRITE" then let! l := event_write_latency d sx sy dx dy (string_at ev "noc") in add64 (r53 (timestamp ev - t0)) l else Ok (r53 (timestamp ev - t0))) = Ok off /\ 0 <= off <= 9007199254740992 + 1048576).
    { destruct (starts_with _ "READ").
      - assert (RL : 0 <= read_latency (dv_arch d) sx sy dx dy <= 2 ^ 20). { unfold read_latency. destruct (dv_arch d); destruct (sx =? dx), (sy =? dy); cbn; lia. } eexists. split; [apply LAT, RL|]. change (2 ^ 20) with 1048576 in RL. lia.
      - destruct (starts_with _ "WRITE").
        + destruct (latency_ok d sx sy dx dy (string_at ev "noc") HW S1 S2 S3 S4) as (l & -> & Bl). cbn [bind]. eexists. split; [apply LAT, Bl|]. change (2 ^ 20) with 1048576 in Bl. lia.
        + eexists. split; [reflexivity|]. lia. }
    destruct O as (off & -> & HO). cbn [bind]. apply defined_bind.
    + destruct (String.eqb _ "WRITE_MULTICAST"); [|exact I]. destruct (_ || _); [exact I|]. unfold mcast_make, tt_assert. destruct (String.eqb _ "NOC_0"); [destruct (_ =? _); [|exact I]; cbn [bind]; destruct (_ || _); exact I|].
      destruct (String.eqb _ "NOC_1"); [destruct (_ =? _); [|exact I]; cbn [bind]; destruct (_ || _); exact I|exact I].
    + intros [dst|] _; [|exact I]. change (at_key as_object ev "fabric_send") with (fabric_b ev). destruct (fabric_b ev) as [f|] eqn:EF; [|exact I]. destruct (Z.ltb_spec (g + 1) (2 ^ 31)); [|change (2 ^ 31) with 2147483648 in *; lia].
      destruct (at_key as_array f "path") as [segs|] eqn:EP; [|exact I]. apply defined_bind; [|intros; exact I]. apply segments_defined; [exact HW|exact (HSeg f segs eq_refl EP)|lia|]. specialize (HLen f segs eq_refl EP). change (2 ^ 62) with 4611686018427387904. change (2 ^ 20) with 1048576. lia.
  - intros g' trs' E. apply (data_event_spec d t0 path ev) in E; [|exact HA]. unfold event_size. destruct (moves_b ev).
    + destruct E as (lat & HL & E). destruct (fabric_b ev) as [f|] eqn:EF.
      * destruct E as (-> & E). split; [lia|]. destruct (at_key as_array f "path") as [segs|] eqn:EP; [|subst; lia]. destruct E as (r & E & ->).
        assert (BL : 0 <= lat <= 1048576). { unfold event_latency in HL. destruct (existsb _ read_types); [subst lat; unfold read_latency; destruct (dv_arch d); destruct (sx =? dx), (sy =? dy); cbn; lia|]. destruct (existsb _ fabric_types); [lia|].
          destruct (latency_ok d sx sy dx dy (string_at ev "noc") HW S1 S2 S3 S4) as (l & El & Bl). apply write_latency_ok in El. rewrite El in HL. injection HL as ->. exact Bl. }
        specialize (HLen f segs eq_refl EP). destruct (segments_defined d (string_at ev "type") path bytes g HW segs trs (r53 (timestamp ev - t0) + lat) 0 (HSeg f segs eq_refl EP)) as [_ K]; [lia|change (2 ^ 62) with 4611686018427387904; change (2 ^ 20) with 1048576; lia|]. specialize (K r E). lia.
      * destruct E as (-> & dst & _ & ->). rewrite app_length. cbn. lia.
    + destruct E as [-> ->]. split; [lia|]. destruct (fabric_b ev) as [f|]; [|lia]. destruct (at_key as_array f "path") as [segs|]; [|lia]. pose proof (segs_size_length segs). lia.
Qed.

(** * Traces *)
Definition small_saved (s : saved) : Prop := sm (sv_sx s) /\ sm (sv_sy s) /\ sm (sv_dx s) /\ sm (sv_dy s).
Lemma own_small ev : small_event ev -> small_saved (own_saved ev).
Proof. intros (S1 & S2 & S3 & S4 & _). apply small_at in S1, S2, S3, S4. unfold small_saved, own_saved. cbn. auto. Qed.
Lemma fields_small rd wr ev : small_event ev -> small_saved rd -> small_saved wr -> small_saved (flip (string_at ev "type") (event_fields rd wr ev)).
Proof.
  intros H HR HW. assert (K : small_saved (event_fields rd wr ev)).
  { unfold event_fields. cbv zeta. destruct (mem_of _ _); [exact HR|]. destruct (mem_of _ _); [exact HW|apply own_small, H]. }
  unfold flip. destruct (mem_of _ _); [|exact K]. destruct K as (K1 & K2 & K3 & K4). unfold small_saved. cbn. auto.
Qed.
Definition state_ok (st : istate) (n sz : Z) : Prop :=
  0 <= is_groups st /\ is_groups st + n < 2 ^ 31 /\ Z.of_nat (List.length (is_trs st)) + sz < 2 ^ 31 /\ small_saved (is_read st) /\ small_saved (is_write st).
Definition events_size (l : list json) : Z := fold_right (fun ev n => event_size ev + n) 0 l.
Lemma event_size_pos ev : 1 <= event_size ev.
Proof. unfold event_size. destruct (fabric_b ev) as [f|]; [|lia]. destruct (at_key as_array f "path") as [segs|]; [|lia]. pose proof (segs_size_length segs). lia. Qed.
Lemma events_size_pos l : 0 <= events_size l.
Proof. induction l as [|e l IH]; cbn [events_size fold_right]; [lia|]. pose proof (event_size_pos e). fold (events_size l). lia. Qed.
Lemma convert_event_ok d zones t0 st ev r n sz : wf_device d -> small_event ev -> risc_of (string_at ev "proc") = Ok r -> string_at ev "proc" <> "" ->
  0 <= r53 (timestamp ev - t0) <= 2 ^ 53 -> 0 <= n -> 0 <= sz -> state_ok st (1 + n) (event_size ev + sz) ->
  it_ok (is_it st) \/ (zones_get zones (core_of ev r) <> None /\ proc_eqb (core_of ev r) (is_prev st) = false) ->
  defined (convert_event d zones t0 st ev) /\ forall st', convert_event d zones t0 st ev = Ok st' -> it_ok (is_it st') /\ state_ok st' n sz.
Proof.
  intros HW HS HR HP HT Hn Hsz (G0 & G1 & G2 & G3 & G4) HI. destruct (zone_of_ok zones t0 (is_prev st) (is_it st) ev r HR HI) as [Z1 Z2]. pose proof (event_size_pos ev) as EP.
  set (e := flip (string_at ev "type") (event_fields (is_read st) (is_write st) ev)). assert (HE : small_saved e) by (apply fields_small; assumption). destruct HE as (E1 & E2 & E3 & E4).
  assert (DE : acts_b ev = true -> forall path, defined (data_event d t0 path ev (sv_sx e) (sv_sy e) (sv_dx e) (sv_dy e) (sv_bytes e) (is_groups st) (is_trs st)) /\
    forall g' trs', data_event d t0 path ev (sv_sx e) (sv_sy e) (sv_dx e) (sv_dy e) (sv_bytes e) (is_groups st) (is_trs st) = Ok (g', trs') -> is_groups st <= g' <= is_groups st + 1 /\ Z.of_nat (List.length trs') <= Z.of_nat (List.length (is_trs st)) + event_size ev).
  { intros HA path. apply data_event_defined; auto; lia. }
  split.
  - unfold convert_event. apply defined_bind; [exact Z1|]. intros [[prev it] path] _. cbv zeta. destruct (supported_event (string_at ev "type")) eqn:ES; cbn [negb]; [|exact I].
    destruct (String.eqb (string_at ev "proc") "") eqn:EPr; [exact I|]. destruct ((String.eqb (string_at ev "type") "WRITE_" || _) && _) eqn:EB; [exact I|].
    apply supported_cases in ES.
    assert (AC : mem_of data_types (string_at ev "type") = true -> acts_b ev = true). { intros M. unfold acts_b, proc_b. cbv zeta. rewrite M, EPr, EB. reflexivity. }
    clear Z1 Z2 EB. unfold e, event_fields, flip, own_saved, use_state in DE. clear e E1 E2 E3 E4. cbv zeta in DE.
    cbn [SUPPORTED_NOC_EVENTS In] in ES. repeat (destruct ES as [ES|ES]; [rewrite <- ES in *; clear ES; cbn -[data_event Z.eqb Z.ltb int_at string_at acts_b defined] in DE, AC |- *|]); try destruct ES.
    all: try exact I.
    all: apply defined_bind; [exact (proj1 (DE (AC eq_refl) path))|intros; exact I].
  - intros st' H. assert (H' := H). unfold convert_event in H'. apply bind_ok in H' as ([[prev it] path0] & HZ & H'). specialize (Z2 _ HZ). cbn [fst snd] in Z2.
    assert (IT : is_it st' = it). { clear - H'. cbv zeta in H'. destruct (negb _); [injection H' as <-; reflexivity|]. destruct (String.eqb (string_at ev "proc") ""); [injection H' as <-; reflexivity|]. destruct (_ && (_ =? 0)); [injection H' as <-; reflexivity|].
      destruct (ends_with _ _); [destruct (starts_with _ "READ"); [injection H' as <-; reflexivity|]; destruct (starts_with _ "WRITE"); injection H' as <-; reflexivity|].
      destruct (if contains (string_at ev "type") "WITH_STATE" then _ else _) as [[[[a b] c] x] y]. destruct (if starts_with (string_at ev "type") "READ" then _ else _) as [[[a' b'] c'] x']. apply bind_ok in H' as (r0 & _ & H'). injection H' as <-. reflexivity. }
    rewrite IT. split; [exact Z2|]. apply convert_event_spec in H as (R1 & R2 & R3).
    assert (SV : forall k s, small_saved s -> small_saved (save k s ev)). { intros k s Hs. unfold save. destruct (set_b k ev); [apply own_small, HS|exact Hs]. }
    unfold state_ok. rewrite R1, R2. destruct (acts_b ev) eqn:EA.
    + destruct R3 as (path & R3). cbv zeta in R3. fold e in R3. destruct (proj2 (DE eq_refl path) _ _ R3) as [D1 D2]. split; [lia|]. split; [lia|]. split; [lia|]. split; apply SV; assumption.
    + destruct R3 as [-> ->]. split; [lia|]. split; [lia|]. split; [lia|]. split; apply SV; assumption.
Qed.
Lemma events_defined d zones t0 l : wf_device d -> forall st, (forall ev, In ev l -> small_event ev /\ known_proc ev /\ 0 <= r53 (timestamp ev - t0) <= 2 ^ 53) ->
  it_ok (is_it st) -> state_ok st (Z.of_nat (List.length l)) (events_size l) ->
  defined (foldM (convert_event d zones t0) l st) /\ forall st', foldM (convert_event d zones t0) l st = Ok st' -> state_ok st' 0 0.
Proof.
  intros HW. induction l as [|ev l IH]; intros st HL HI HS; cbn [foldM].
  - split; [exact I|]. intros st' E. injection E as <-. exact HS.
  - destruct (HL ev (or_introl eq_refl)) as (S1 & S2 & S3). destruct (known_risc ev S2) as (r & HR & NP). cbn [events_size fold_right] in HS. fold (events_size l) in HS.
    assert (HS' : state_ok st (1 + Z.of_nat (List.length l)) (event_size ev + events_size l)). { cbn [List.length] in HS. rewrite Nat2Z.inj_succ in HS. unfold state_ok in *. split; [lia|]. split; [lia|]. tauto. }
    destruct (convert_event_ok d zones t0 st ev r (Z.of_nat (List.length l)) (events_size l) HW S1 HR NP S3 ltac:(lia) (events_size_pos l) HS' (or_introl HI)) as [D N].
    assert (IH' := fun st' E => IH st' (fun x Hx => HL x (or_intror Hx)) (proj1 (N st' E)) (proj2 (N st' E))). split.
    + apply defined_bind; [exact D|]. intros st' E. exact (proj1 (IH' st' E)).
    + intros st' E. apply bind_ok in E as (s1 & E1 & E). exact (proj2 (IH' s1 E1) st' E).
Qed.
Lemma segments_size_eq segs n : segments_size segs n -> n = segs_size segs.
Proof.
  induction 1 as [|r rs ws n HW H IH|r rs n HW H IH]; cbn [segs_size fold_right]; [reflexivity| |]; fold (segs_size rs); rewrite IH; unfold seg_size.
  - apply array_iff in HW. rewrite HW. lia.
  - destruct (at_key as_array r "local_writes") as [ws|] eqn:E; [exfalso; exact (HW ws (proj2 (array_iff _ _ _) E))|]. lia.
Qed.
Lemma trace_size_le evs n : trace_size evs n -> events_size evs <= n.
Proof.
  induction 1 as [|ev evs segs m n HP HS HT IH|ev evs n HP HT IH]; cbn [events_size fold_right]; [lia| |]; fold (events_size evs); unfold event_size.
  - destruct (fabric_b ev) as [f|] eqn:EF.
    + apply (path_of_some _ _ _ EF) in HP. rewrite HP. apply segments_size_eq in HS. lia.
    + apply segments_size_eq in HS. pose proof (segs_size_length segs). lia.
  - destruct (fabric_b ev) as [f|] eqn:EF; [|lia]. destruct (at_key as_array f "path") as [segs|] eqn:EP; [|lia]. exfalso. exact (HP segs (proj2 (path_of_some _ _ _ EF) EP)).
Qed.
Lemma trace_size_length evs n : trace_size evs n -> Z.of_nat (List.length evs) <= n.
Proof.
  induction 1 as [|ev evs segs m n HP HS HT IH|ev evs n HP HT IH]; cbn [List.length]; [lia| |lia]. apply segments_size_eq in HS. pose proof (segs_size_length segs). lia.
Qed.
Theorem clean_defined d path evs : wf_device d -> clean d evs -> (exists wl, convert_trace d path (JArray evs) = Ok (Some wl)) \/ exists e, convert_trace d path (JArray evs) = Throw e.
Proof.
  intros HW (C1 & C2 & C3 & C4 & C5 & C6 & n & C7 & C8).
  assert (D : defined (convert_trace d path (JArray evs))).
  2:{ destruct (convert_trace d path (JArray evs)) as [o|e| | | | |] eqn:E; try contradiction; [|eauto]. left. unfold convert_trace in E. repeat (apply bind_ok in E as (? & _ & E)). injection E as <-. eauto. }
  destruct C6 as (ev & rest & z & dev & x & y & EV & Hz & SP & PL & MZ & Hx & Hy & Bx & By).
  assert (TS : forall e, In e evs -> timestamp e = int_at e "timestamp" 0 /\ 0 <= int_at e "timestamp" 0 <= 2 ^ 53). { intros e He. apply small_timestamp. rewrite Forall_forall in C3. auto. }
  assert (T0 : 0 <= t0_of evs <= 2 ^ 53 /\ forall e, In e evs -> t0_of evs <= timestamp e).
  { unfold t0_of. destruct (fold_min evs (r53 (2 * 10 ^ 30))) as (F1 & F2 & F3). cbv zeta in *. set (t0 := fold_left _ evs _) in *. split; [|exact F2]. pose proof big_time. assert (Hev : In ev evs) by (rewrite EV; left; reflexivity).
    specialize (F2 _ Hev). destruct (TS _ Hev) as [A B]. destruct F3 as [F3|(e & He & F3)]; [lia|]. destruct (TS _ He). lia. }
  destruct T0 as [T0 T0'].
  unfold convert_trace. cbn [as_array or_throw bind]. unfold computeGoldenCyclesAndT0. cbv zeta.
  assert (TW : forall e, In e evs -> t0_of evs <= timestamp e <= 2 ^ 53). { intros e He. destruct (TS _ He). specialize (T0' _ He). lia. }
  destruct (windows_ok (t0_of evs) evs TW) as [W1 W2].
  apply defined_bind. { apply defined_bind; [|intros; exact I]. apply defined_map. intros dv Hd. destruct (C5 dv Hd) as (e & He & P1 & P2 & P3). rewrite Forall_forall in C1. destruct (known_risc e (C1 _ He)) as (r & _ & NP). rewrite int_or_iff in P1, P2, P3.
    destruct (chip_window_ok (t0_of evs) (core_windows evs) dv T0 W1) as (w & ->); [exists (key_of e); split; [apply W2; assumption|exact P3]|exact I]. }
  intros [gm t0] E. apply bind_ok in E as (m & _ & E). injection E as <- <-. cbn [fst snd].
  destruct (zones_defined evs (t0_of evs) C1 C2) as (zs & EZ & HZ). rewrite EZ. cbn [bind].
  assert (TR : forall e, In e evs -> 0 <= r53 (timestamp e - t0_of evs) <= 2 ^ 53). { intros e He. specialize (TW _ He). rewrite r53_exact by lia. lia. }
  rewrite Forall_forall in C1, C4. assert (Hev : In ev evs) by (rewrite EV; left; reflexivity).
  destruct (known_risc ev (C1 _ Hev)) as (r & HR & NP).
  assert (FO : zones_get zs (core_of ev r) <> None /\ proc_eqb (core_of ev r) (is_prev init_state) = false).
  { destruct SP as (p & px & py & pc & A1 & A2 & A3 & A4 & A5 & A6 & A7 & A8). apply text_iff in A1, A2. apply int_or_iff in A3, A4, A5, A6, A7, A8, Hx, Hy. split.
    - assert (EC : core_of ev r = core_of z r). { unfold core_of. rewrite A3, A4, A5, A6, A7, A8. reflexivity. } rewrite EC. apply (HZ z dev r Hz PL MZ). rewrite A2, <- A1. exact HR.
    - unfold core_of, proc_eqb, coord_eqb. cbn [init_state is_prev fst snd Coord_make c_dev c_row c_col]. rewrite Hy. unfold i16. change (2 ^ 15) with 32768 in *. change (2 ^ 16) with 65536. rewrite (Z.mod_small (y + 32768)) by lia. replace (y + 32768 - 32768 =? -1) with false by lia. rewrite andb_false_r. reflexivity. }
  assert (ST : state_ok init_state (1 + Z.of_nat (List.length rest)) (event_size ev + events_size rest)).
  { assert (L1 := trace_size_le _ _ C7). assert (L2 := trace_size_length _ _ C7). rewrite EV in L1, L2. cbn [events_size fold_right List.length] in L1, L2. fold (events_size rest) in L1. unfold state_ok. cbn [init_state is_groups is_trs is_read is_write List.length]. split; [lia|]. split; [lia|]. split; [lia|]. unfold small_saved, sm. cbn. lia. }
  destruct (convert_event_ok d zs (t0_of evs) init_state ev r (Z.of_nat (List.length rest)) (events_size rest) HW (C4 _ Hev) HR NP (TR _ Hev) ltac:(lia) (events_size_pos rest) ST (or_intror FO)) as [DD N].
  apply defined_bind.
  2:{ intros st E. apply defined_bind; [|intros; exact I]. unfold addPhase. cbn [wl_next setZones setGoldenResultCycles empty_workload]. assert (K : state_ok st 0 0).
      - rewrite EV in E at 2. cbn [foldM] in E. apply bind_ok in E as (s1 & E1 & E). destruct (N _ E1) as [N1 N2].
        refine (proj2 (events_defined d zs (t0_of evs) rest HW s1 _ N1 N2) st E). intros e He. assert (He' : In e evs) by (rewrite EV; right; exact He). auto.
      - destruct K as (_ & _ & K & _). destruct (Z.ltb_spec (0 + Z.of_nat (List.length (is_trs st))) (2 ^ 31)) as [|B]; [exact I|]. lia. }
  rewrite EV at 2. cbn [foldM].
  apply defined_bind; [exact DD|]. intros s1 E1. destruct (N _ E1) as [N1 N2]. refine (proj1 (events_defined d zs (t0_of evs) rest HW s1 _ N1 N2)). intros e He. assert (He' : In e evs) by (rewrite EV; right; exact He). auto.
Qed.
