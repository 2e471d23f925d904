(* Proofs about the device factory, core types, rates (Device.v) *)
From Coq Require Import ZArith Arith String List Bool Lia ZifyBool ZifyNat Floats.SpecFloat.
From Verif Require Import Base Arith Util Device SpecUtil SpecDevice UtilProofs DeviceProofs RouteProofs.
Import ListNotations.
Open Scope Z_scope.
Ltac Zify.zify_post_hook ::= idtac.

Lemma createDeviceModel_iff name d : createDeviceModel name = Ok d <-> In (name, d) documented_devices.
Proof.
  unfold createDeviceModel. split.
  - intros H.
    repeat match type of H with
    | context [String.eqb name ?s] =>
        destruct (String.eqb_spec name s); [subst name; simpl in H; injection H as <-; simpl; tauto|]
    end. simpl in H. discriminate.
  - intros H. cbn [documented_devices In] in H.
    repeat match goal with H : _ \/ _ |- _ => destruct H as [H|H] end; try contradiction;
      injection H as <- <-; reflexivity.
Qed.
Lemma createDeviceModel_other name : (forall d, ~ In (name, d) documented_devices) ->
  createDeviceModel name = Throw DEVICE_MODEL_INIT_FAILED.
Proof.
  intros H. destruct (createDeviceModel name) as [d|e| | | | |] eqn:E.
  - apply createDeviceModel_iff in E. exfalso. eapply H; eauto.
  - unfold createDeviceModel in E.
    repeat match type of E with context [if ?b then _ else _] => destruct b end; congruence.
  - unfold createDeviceModel in E.
    repeat match type of E with context [if ?b then _ else _] => destruct b end; congruence.
  - unfold createDeviceModel in E.
    repeat match type of E with context [if ?b then _ else _] => destruct b end; congruence.
  - unfold createDeviceModel in E.
    repeat match type of E with context [if ?b then _ else _] => destruct b end; congruence.
  - unfold createDeviceModel in E.
    repeat match type of E with context [if ?b then _ else _] => destruct b end; congruence.
  - unfold createDeviceModel in E.
    repeat match type of E with context [if ?b then _ else _] => destruct b end; congruence.
Qed.

Lemma supported_cases d : supported d ->
  d = mkDevice ClsWormhole 12 10 1 12 \/ (exists n, In n [2; 8; 36; 32]%nat /\ d = mkDevice ClsMultichip 12 10 n 12) \/
  d = mkDevice ClsBlackhole 12 17 1 7 \/ d = mkDevice ClsBlackhole 12 17 1 8.
Proof.
  intros [name H]. cbn [documented_devices In] in H.
  repeat match goal with H : _ \/ _ |- _ => destruct H as [H|H] end; try contradiction;
    injection H as _ <-; auto; right; left; eexists; (split; [|reflexivity]); simpl; auto.
Qed.
Lemma supported_wf d : supported d -> wf_device d.
Proof.
  intros H. apply supported_cases in H. unfold wf_device.
  destruct H as [->|[[n [Hn ->]]|[->| ->]]]; cbn [dv_chips dv_rows dv_cols dv_class]; try (repeat split; lia).
  simpl in Hn. repeat split; try lia. congruence.
Qed.

(** * Core types *)
Definition layout_table (a : dev_arch) (rows cols : nat) : list (list core_type) :=
  map (fun r => map (fun c => layout a (Z.of_nat r) (Z.of_nat c)) (seq 0 cols)) (seq 0 rows).
Lemma core_rows_layout d : supported d -> core_rows d = layout_table (dv_arch d) (dv_rows d) (dv_cols d).
Proof. intros H. apply supported_cases in H. destruct H as [->|[[n [Hn ->]]|[->| ->]]]; reflexivity. Qed.
Lemma nth_map_seq {A} (f : nat -> A) n k : (k < n)%nat -> nth_error (map f (seq 0 n)) k = Some (f k).
Proof. intros H. apply map_nth_error. apply nth_error_seq0. auto. Qed.
Lemma core_type_in_grid d c : supported d -> in_grid d c ->
  getCoreType d c = Ok (layout (dv_arch d) (c_row c) (c_col c)).
Proof.
  intros Hs (_ & Hr & Hc). unfold getCoreType.
  replace ((c_row c <? 0) || (c_col c <? 0)) with false by lia.
  rewrite core_rows_layout by auto. unfold layout_table.
  rewrite nth_map_seq by lia. rewrite nth_map_seq by lia. rewrite !Z2Nat.id by lia. reflexivity.
Qed.
Lemma core_type_out_of_grid d c : supported d ->
  ~ (0 <= c_row c < Z.of_nat (dv_rows d) /\ 0 <= c_col c < Z.of_nat (dv_cols d)) -> getCoreType d c = Abort.
Proof.
  intros Hs Hn. unfold getCoreType. destruct ((c_row c <? 0) || (c_col c <? 0)) eqn:E; auto.
  rewrite core_rows_layout by auto. unfold layout_table.
  destruct (nth_error _ (Z.to_nat (c_row c))) as [row|] eqn:Er; auto.
  assert (Hlt : (Z.to_nat (c_row c) < dv_rows d)%nat).
  { assert (nth_error (map (fun r => map (fun c => layout (dv_arch d) (Z.of_nat r) (Z.of_nat c)) (seq 0 (dv_cols d))) (seq 0 (dv_rows d))) (Z.to_nat (c_row c)) <> None) as Hsome by congruence.
    apply nth_error_Some in Hsome. rewrite map_length, seq_length in Hsome. auto. }
  rewrite nth_map_seq in Er by auto. injection Er as <-.
  destruct (nth_error _ (Z.to_nat (c_col c))) as [t|] eqn:Ec; auto.
  assert (nth_error (map (fun c0 => layout (dv_arch d) (Z.of_nat (Z.to_nat (c_row c))) (Z.of_nat c0)) (seq 0 (dv_cols d))) (Z.to_nat (c_col c)) <> None) as Hsome by congruence.
  apply nth_error_Some in Hsome. rewrite map_length, seq_length in Hsome. lia.
Qed.

Lemma inj_rate_ok d t : supported d ->
  finite_positive (inj_rate f32A d t) /\
  f_lt f32A (dlit f32A (fst (fastest_rate (dv_arch d))) (snd (fastest_rate (dv_arch d)))) (inj_rate f32A d t) = false.
Proof.
  intros H. apply supported_cases in H. unfold finite_positive.
  destruct H as [->|[[n [Hn ->]]|[->| ->]]]; destruct t; (split; [do 2 eexists; vm_compute; reflexivity|vm_compute; reflexivity]).
Qed.
Lemma abs_rate_ok d t : supported d ->
  finite_positive (abs_rate f32A d t) /\
  f_lt f32A (dlit f32A (fst (fastest_rate (dv_arch d))) (snd (fastest_rate (dv_arch d)))) (abs_rate f32A d t) = false.
Proof.
  intros H. apply supported_cases in H. unfold finite_positive.
  destruct H as [->|[[n [Hn ->]]|[->| ->]]]; destruct t; (split; [do 2 eexists; vm_compute; reflexivity|vm_compute; reflexivity]).
Qed.
Theorem rates_in_grid d c : supported d -> in_grid d c ->
  exists i a, getSrcInjectionRate f32A d c = Ok i /\ getSinkAbsorptionRate f32A d c = Ok a /\
    finite_positive i /\ finite_positive a /\
    let m := dlit f32A (fst (fastest_rate (dv_arch d))) (snd (fastest_rate (dv_arch d))) in
    f_lt f32A m i = false /\ f_lt f32A m a = false.
Proof.
  intros Hs Hg. unfold getSrcInjectionRate, getSinkAbsorptionRate. rewrite core_type_in_grid by auto. cbn [bind].
  destruct (inj_rate_ok d (layout (dv_arch d) (c_row c) (c_col c)) Hs).
  destruct (abs_rate_ok d (layout (dv_arch d) (c_row c) (c_col c)) Hs). do 2 eexists. auto 10.
Qed.
Theorem rates_out_of_grid (A : arith) d c : supported d ->
  ~ (0 <= c_row c < Z.of_nat (dv_rows d) /\ 0 <= c_col c < Z.of_nat (dv_cols d)) ->
  getSrcInjectionRate A d c = Abort /\ getSinkAbsorptionRate A d c = Abort.
Proof.
  intros Hs Hn. unfold getSrcInjectionRate, getSinkAbsorptionRate. rewrite core_type_out_of_grid by auto. auto.
Qed.

(** * Identifiers *)
Definition link_count (d : device) : Z := 4 * Z.of_nat (dv_chips d) * Z.of_nat (dv_rows d) * Z.of_nat (dv_cols d).
Lemma link_id_in_grid d a : wf_device d -> in_grid d (l_coord a) ->
  exists id, getLinkID d a = Ok id /\ getLinkAttributes d id = Ok a /\ 0 <= id < 2 ^ 15.
Proof.
  intros Hwf Hg. exists (link_idx d a). rewrite getLinkID_eq by auto.
  pose proof (getLinkAttributes_eq d a (wf_small d Hwf) Hg) as E. split; auto. split; auto.
  destruct (proj1 (getLinkAttributes_dom d (link_idx d a) (wf_small d Hwf)) (ex_intro _ a E)) as [H1 H2].
  destruct Hwf as (_ & _ & _ & H & _). lia.
Qed.
Lemma niu_id_in_grid d a : wf_device d -> in_grid d (n_coord a) ->
  exists id, getNIUID d a = Ok id /\ getNIUAttributes d id = Ok a /\ 0 <= id < 2 ^ 15.
Proof.
  intros Hwf Hg. exists (niu_idx d a). rewrite getNIUID_eq by auto.
  pose proof (getNIUAttributes_eq d a (wf_small d Hwf) Hg) as E. split; auto. split; auto.
  destruct (proj1 (getNIUAttributes_dom d (niu_idx d a) (wf_small d Hwf)) (ex_intro _ a E)) as [H1 H2].
  destruct Hwf as (_ & _ & _ & H & _). lia.
Qed.
Lemma link_id_iff d id a : wf_device d -> getLinkID d a = Ok id <-> getLinkAttributes d id = Ok a.
Proof.
  intros Hwf. pose proof (wf_small d Hwf) as Hs. split.
  - intros E. destruct (getLinkAttributes d id) as [b| | | | | |] eqn:Eb.
    all: assert (Hd : in_grid d (l_coord a) \/ ~ in_grid d (l_coord a)) by (unfold in_grid; lia).
    all: destruct Hd as [Hd|Hd]; [|rewrite getLinkID_bad in E by auto; discriminate].
    all: rewrite getLinkID_eq in E by auto; injection E as <-; rewrite getLinkAttributes_eq in Eb by auto; congruence.
  - intros E. apply getLinkAttributes_inv in E; auto. destruct E as [Hg ->]. apply getLinkID_eq; auto.
Qed.
Lemma niu_id_iff d id a : wf_device d -> getNIUID d a = Ok id <-> getNIUAttributes d id = Ok a.
Proof.
  intros Hwf. pose proof (wf_small d Hwf) as Hs. split.
  - intros E. destruct (getNIUAttributes d id) as [b| | | | | |] eqn:Eb.
    all: assert (Hd : in_grid d (n_coord a) \/ ~ in_grid d (n_coord a)) by (unfold in_grid; lia).
    all: destruct Hd as [Hd|Hd]; [|rewrite getNIUID_bad in E by auto; discriminate].
    all: rewrite getNIUID_eq in E by auto; injection E as <-; rewrite getNIUAttributes_eq in Eb by auto; congruence.
  - intros E. apply getNIUAttributes_inv in E; auto. destruct E as [Hg ->]. apply getNIUID_eq; auto.
Qed.
Lemma link_id_range d id : wf_device d ->
  (exists a, getLinkID d a = Ok id) <-> 0 <= id < 4 * Z.of_nat (dv_chips d * (dv_rows d * dv_cols d)).
Proof.
  intros Hwf. rewrite <- getLinkAttributes_dom by (apply wf_small; auto).
  split; intros [a H]; exists a; apply link_id_iff; auto.
Qed.
Lemma niu_id_range d id : wf_device d ->
  (exists a, getNIUID d a = Ok id) <-> 0 <= id < 4 * Z.of_nat (dv_chips d * (dv_rows d * dv_cols d)).
Proof.
  intros Hwf. rewrite <- getNIUAttributes_dom by (apply wf_small; auto).
  split; intros [a H]; exists a; apply niu_id_iff; auto.
Qed.
Lemma link_id_defined d a : wf_device d ->
  (in_grid d (l_coord a) -> exists id, getLinkID d a = Ok id /\ 0 <= id < 2 ^ 15) /\
  (~ in_grid d (l_coord a) -> getLinkID d a = Throw UNDEF_ERR).
Proof.
  intros Hwf. split; intros H.
  - destruct (link_id_in_grid d a Hwf H) as [id [H1 [H2 H3]]]. eauto.
  - apply getLinkID_bad; auto. apply wf_small; auto.
Qed.
Lemma niu_id_defined d a : wf_device d ->
  (in_grid d (n_coord a) -> exists id, getNIUID d a = Ok id /\ 0 <= id < 2 ^ 15) /\
  (~ in_grid d (n_coord a) -> getNIUID d a = Throw UNDEF_ERR).
Proof.
  intros Hwf. split; intros H.
  - destruct (niu_id_in_grid d a Hwf H) as [id [H1 [H2 H3]]]. eauto.
  - apply getNIUID_bad; auto. apply wf_small; auto.
Qed.
Lemma link_hash a b : link_attr_eqb a b = true -> hash_link_attr a = hash_link_attr b.
Proof. intros H. apply link_attr_eqb_eq in H. congruence. Qed.
Lemma niu_hash a b : niu_attr_eqb a b = true -> hash_niu_attr a = hash_niu_attr b.
Proof. intros H. apply niu_attr_eqb_eq in H. congruence. Qed.
