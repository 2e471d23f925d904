(* Workload facts on whole workloads, and the counterexamples of C16-C18, C21. *)
From Coq Require Import ZArith Arith String List Bool Lia ZifyBool Floats.SpecFloat.
From Verif Require Import Base Arith Util Device Workload SpecDevice SpecWorkload RouteProofs FactoryProofs WorkloadProofs ScheduleProofs.
Import ListNotations.
Ltac Zify.zify_post_hook ::= idtac.
Open Scope Z_scope.

Section Generic.
  Context {Fl : Type}.
  Lemma validated_accepted d (wl : workload Fl) h : built wl h -> Z.of_nat (List.length h) <= 2 ^ 31 ->
    Forall (fun t => 0 <= t_off t) (all_transfers wl) -> validate d wl = Ok true -> Forall (accepted d) (all_transfers wl).
  Proof.
    intros HB HL HO HV. destruct (built_validate d wl h HB HL HO) as [H1 H2].
    assert (HE : Exists empty_multicast (all_transfers wl) \/ Forall (fun t => ~ empty_multicast t) (all_transfers wl)).
    { clear. induction (all_transfers wl) as [|t ts IH]; [right; constructor|].
      destruct IH as [IH|IH]; [left; right; auto|]. unfold empty_multicast.
      destruct (t_dst t) as [c|[|g m]] eqn:E; [right|left; left; auto|right]; constructor; auto; unfold empty_multicast; congruence. }
    destruct HE as [HE|HE]; [destruct (H1 HE); congruence|]. destruct (H2 HE) as [b [Hb Hi]]. apply Hi. congruence.
  Qed.
  Theorem validated_routes d (wl : workload Fl) h : wf_device d -> built wl h -> Z.of_nat (List.length h) <= 2 ^ 31 ->
    Forall (fun t => 0 <= t_off t) (all_transfers wl) -> validate d wl = Ok true ->
    Forall (fun t => (exists ids, route d (t_noc t) (t_src t) (t_dst t) = Ok ids) \/
                     route d (t_noc t) (t_src t) (t_dst t) = Throw UNDEF_ERR) (all_transfers wl).
  Proof.
    intros Hwf HB HL HO HV. pose proof (validated_accepted d wl h HB HL HO HV) as HA.
    eapply Forall_impl; [|exact HA]. intros t Ht. destruct (route_accepted d t Hwf Ht) as [R1 R2].
    unfold at_most_one_rectangle in *. destruct (t_dst t) as [c|m]; [left; auto|].
    destruct (le_lt_dec (List.length m) 1); [left; auto|]. right. apply R2. lia.
  Qed.
  Theorem accepted_infers (A : arith) d (wl : workload (F A)) : supported d -> Forall (accepted d) (all_transfers wl) ->
    exists wl', inferInjectionRates A d wl = Ok wl'.
  Proof.
    intros Hs HA. apply infer_defined; auto. eapply Forall_impl; [|exact HA]. intros t (_ & _ & (_ & R & C) & _). split; auto.
  Qed.
  (* outside the grid a unicast route never ends, whatever the number of iterations *)
  Theorem out_of_grid_diverges d noc s e : wf_device d -> dv_class d <> ClsMultichip -> on_chip_grid d s -> ~ on_chip_grid d e ->
    forall fuel, route_f fuel d noc s (Unicast e) = Diverge.
  Proof.
    intros Hwf Hc [S1 S2] He fuel. unfold route_f. destruct (dv_class d) eqn:E; try congruence;
      cbn [chip_route]; unfold unicastRoute; apply unicast_loop_diverges; auto.
  Qed.
End Generic.

(** Counterexamples *)
Definition wtr (dst : noc_dest) (off : Z) : transfer spec_float :=
  tr_make 1024 1 (mkCoord 0 1 1) dst (S754_zero false) off NOC0 "WRITE_MULTICAST" "" (-1) (-1) (-1).
(* one good rectangle and one far outside the grid *)
Definition two_rects : mcast :=
  [mkGrid (mkCoord 0 1 1) (mkCoord 0 2 2); mkGrid (mkCoord 0 100 100) (mkCoord 0 200 200)].

Lemma one_phase_built (ts : list (transfer spec_float)) : Z.of_nat (List.length ts) < 2 ^ 31 ->
  exists wl, addPhase empty_workload ts = Ok (wl, 0) /\ built wl [ts].
Proof.
  intros H. destruct (addPhase_ok (Fl := spec_float) empty_workload ts) as [wl E]; [cbn; lia|].
  cbn in E. exists wl. split; auto. change [ts] with ([] ++ [ts]). econstructor; [constructor|exact E].
Qed.
Lemma validate_bad_rectangle : exists (wl : workload spec_float) h t, built wl h /\
  validate wormhole_b0 wl = Ok true /\ In t (all_transfers wl) /\ ~ routable wormhole_b0 t.
Proof.
  destruct (one_phase_built [wtr (Multicast two_rects) 0]) as [wl [E B]]; [cbn; lia|].
  exists wl, [[wtr (Multicast two_rects) 0]], (set_ids 0 0 (wtr (Multicast two_rects) 0)).
  assert (EW : wl = mkWl None [mkPhase 0 [set_ids 0 0 (wtr (Multicast two_rects) 0)]] 1 0 [] []).
  { vm_compute in E. injection E as <-. reflexivity. }
  split; auto. subst wl. split; [vm_compute; reflexivity|]. split; [vm_compute; auto|].
  intros (_ & _ & _ & _ & HF). cbn in HF. inversion HF as [|? ? _ HF2]; subst. inversion HF2 as [|? ? HG _]; subst.
  unfold on_chip_grid in HG. cbn in HG. lia.
Qed.
Lemma validate_empty_multicast_ub : exists (wl : workload spec_float) h s, built wl h /\ validate wormhole_b0 wl = UB s.
Proof.
  destruct (one_phase_built [wtr (Multicast []) 0]) as [wl [E B]]; [cbn; lia|].
  exists wl, [[wtr (Multicast []) 0]].
  assert (EW : wl = mkWl None [mkPhase 0 [set_ids 0 0 (wtr (Multicast []) 0)]] 1 0 [] []).
  { vm_compute in E. injection E as <-. reflexivity. }
  eexists. split; auto. subst wl. vm_compute. reflexivity.
Qed.
Lemma scale_one_changes : exists o o', 0 <= o < 2 ^ 32 /\ scale_offset f32A (f_one f32A) o = Ok o' /\ o' <> o.
Proof. exists 16777217, 16777216. split; [lia|]. split; [vm_compute; reflexivity|lia]. Qed.
Lemma scale_undefined : exists o, 0 <= o < 2 ^ 32 /\ scale_offset f32A (f_one f32A) o = UB "float to integer".
Proof. exists 4294967295. split; [lia|]. vm_compute. reflexivity. Qed.

Definition wl_mc : workload spec_float :=
  mkWl (Some "trace.json"%string)
    [mkPhase 0 [set_ids 0 0 (wtr (Multicast [mkGrid (mkCoord 0 2 1) (mkCoord 0 4 4)]) 0);
                set_ids 0 1 (wtr (Unicast (mkCoord 0 4 4)) 0)]] 2 1 [(0, (0, 100)); (-1, (0, 100))]
    [((mkCoord 0 1 1, BRISC), [])].
Lemma removal_drops_multicast : exists (wl wl' : workload spec_float) t,
  dense wl /\ removeLocalUnicastTransfers wl = Ok wl' /\ In t (all_transfers wl) /\ ~ local_unicast t /\
  (forall t', In t' (all_transfers wl') -> ~ same_content t t').
Proof.
  exists wl_mc. eexists. exists (set_ids 0 0 (wtr (Multicast [mkGrid (mkCoord 0 2 1) (mkCoord 0 4 4)]) 0)).
  split; [unfold dense; cbn; auto|]. split; [vm_compute; reflexivity|]. split; [left; reflexivity|].
  split; [intros [c [E _]]; discriminate|]. cbn. intros t' [<-|[]] (_ & _ & _ & E & _). discriminate.
Qed.
Lemma removal_loses_metadata : exists wl wl' : workload spec_float,
  dense wl /\ removeLocalUnicastTransfers wl = Ok wl' /\ wl_path wl' <> wl_path wl /\ wl_groups wl' <> wl_groups wl /\
  wl_zones wl' <> wl_zones wl.
Proof.
  exists wl_mc. eexists. split; [unfold dense; cbn; auto|]. split; [vm_compute; reflexivity|]. cbn. repeat split; discriminate.
Qed.
Lemma total_bytes_wraps : exists ps np, 0 < ps < 2 ^ 32 /\ 0 < np < 2 ^ 32 /\
  t_bytes (tr_make ps np (mkCoord 0 1 1) (Unicast (mkCoord 0 2 2)) (S754_zero false) 0 NOC0 "" "" (-1) (-1) (-1)) = 0.
Proof. exists 65536, 65536. split; [lia|]. split; [lia|]. vm_compute. reflexivity. Qed.
