(* C73: what a configuration makes of a fabric send. *)
From Coq Require Import ZArith Arith Lia Bool String List Permutation ZifyBool ZifyNat.
From Verif Require Import Util Fabric SpecFabric FabricProofs FabricPaths FabricGrid.
Import ListNotations.
Local Open Scope string_scope.
Local Open Scope list_scope.
Open Scope Z_scope.

Section Sends.
  Context (t : topology) (W : Type).
  Lemma grid_not_line : grid t -> (String.eqb (tp_config t) "FABRIC_1D" || String.eqb (tp_config t) "FABRIC_1D_RING") = false.
  Proof. intros [-> | ->]; reflexivity. Qed.
  Lemma grid_test : (String.eqb (tp_config t) "FABRIC_2D" || String.eqb (tp_config t) "FABRIC_2D_TORUS") = true <-> grid t.
  Proof. unfold grid. rewrite orb_true_iff, !String.eqb_eq. tauto. Qed.
  Lemma line_test : (String.eqb (tp_config t) "FABRIC_1D" || String.eqb (tp_config t) "FABRIC_1D_RING") = true <-> (tp_config t = "FABRIC_1D" \/ tp_config t = "FABRIC_1D_RING").
  Proof. rewrite orb_true_iff, !String.eqb_eq. tauto. Qed.
  (* what the path of a send is, on a grid *)
  Theorem send_2d (WF : well_formed t) (GR : grid t) (e e' : event W) s ns ew w p g : elaborate t W e = Val e' -> ev_send W e = Some s -> fs_2d W s = Some (ns, ew, w, false) ->
    channel_of t (ev_dev W e) (fs_chan W s) p g -> 0 <= ns -> 0 <= ew -> 0 <= w -> (g = dE -> 0 < ew) -> (g = dW -> 0 < w) ->
    exists s' path d, ev_send W e' = Some s' /\ fs_path W s' = Some path /\ ev_dst_dev W e' = Some d /\ connected t path /\ one_write path d (ev_dst W e) /\
      match g with
      | dE => straight t (ev_dev W e) dE ew d
      | dW => straight t (ev_dev W e) dW w d
      | _ => (ew = 0 -> w = 0 -> straight t (ev_dev W e) g ns d) /\
             (0 < ew -> exists mid, straight t (ev_dev W e) g (ns + 1) mid /\ straight t mid dE (ew - 1) d) /\ (0 < w -> exists mid, straight t (ev_dev W e) g (ns + 1) mid /\ straight t mid dW (w - 1) d)
      end.
  Proof.
    intros H ES E2 HC H1 H2 H3 H4 H5. unfold elaborate in H. rewrite ES, (grid_not_line GR), (proj2 grid_test GR), E2 in H.
    apply pbind_val in H as ([path d] & HF & H). injection H as <-. cbn [ev_send ev_dst_dev fst snd]. eexists _, path, d. split; [reflexivity|]. cbn [fs_path]. split; [reflexivity|]. split; [reflexivity|].
    exact (unicast t WF GR W _ _ _ _ _ _ _ _ _ _ _ _ _ HC H1 H2 H3 H4 H5 HF).
  Qed.
  Theorem send_failures (e : event W) s : ev_send W e = Some s ->
    (fs_1d W s = None -> tp_config t = "FABRIC_1D" \/ tp_config t = "FABRIC_1D_RING" -> elaborate t W e = Raised "KeyError") /\
    (fs_2d W s = None -> grid t -> elaborate t W e = Raised "KeyError") /\
    (tp_config t <> "FABRIC_1D" -> tp_config t <> "FABRIC_1D_RING" -> ~ grid t -> elaborate t W e = Processing).
  Proof.
    intros ES. unfold elaborate. rewrite ES. split; [|split].
    - intros E1 HC. rewrite (proj2 line_test HC), E1. reflexivity.
    - intros E2 GR. rewrite (grid_not_line GR), (proj2 grid_test GR), E2. reflexivity.
    - intros N1 N2 NG. destruct (String.eqb (tp_config t) "FABRIC_1D" || String.eqb (tp_config t) "FABRIC_1D_RING") eqn:E1; [apply line_test in E1; tauto|].
      destruct (String.eqb (tp_config t) "FABRIC_2D" || String.eqb (tp_config t) "FABRIC_2D_TORUS") eqn:E2; [apply grid_test in E2; tauto|]. reflexivity.
  Qed.
End Sends.
