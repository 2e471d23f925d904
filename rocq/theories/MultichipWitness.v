(* Witnesses for the generator of timeline files (C84, C85). *)
From Coq Require Import ZArith QArith Qminmax Lia String List Bool.
From Verif Require Import Base Util Device Multichip SpecMultichip MultichipProofs MultichipSteps.
Import ListNotations.
Local Open Scope string_scope.
Local Open Scope list_scope.
Open Scope Z_scope.

(* two draws on the default grid with 8 chips; the second is between chips *)
Definition two_draws : list draw := [mkDraw 4096 false 2 (1, 1) (3, 7) NOC0 100; mkDraw 2048 true 1 (2, 2) (2, 3) NOC1 50].
Lemma chips_refuted : exists rows cols devices cpt rs, Forall (drawn rows cols devices) rs /\ Exists (between_chips devices) rs /\ generate 100 rows cols devices cpt rs = StdThrow "AssertionError".
Proof.
  exists 12, 10, 8, 32, two_draws. split; [repeat constructor; cbn; lia || discriminate|]. split; [apply Exists_cons_tl, Exists_cons_hd; split; [reflexivity|lia]|reflexivity].
Qed.

(* on each of nine chips of two rows and three columns: two transfers in either direction between the two worker cores *)
Definition busy_chip (dev : Z) : list draw :=
  [mkDraw 8192 false dev (1, 1) (1, 2) NOC0 0; mkDraw 8192 false dev (1, 1) (1, 2) NOC0 0;
   mkDraw 8192 false dev (1, 2) (1, 1) NOC0 0; mkDraw 8192 false dev (1, 2) (1, 1) NOC0 0].
Definition busy : list draw := flat_map busy_chip (zrange 0 8).
Definition busy_util : option Q := match generate 10 2 3 9 32 busy with Ok (_, s :: _) => Some (gs_noc_util s NOC0) | _ => None end.
Lemma busy_util_eq : match busy_util with Some q => Qle_bool q 112 | None => true end = false.
Proof. vm_compute. reflexivity. Qed.
Lemma util_refuted : exists rows cols devices cpt rs ts ss s noc, 0 < cpt /\ Forall (drawn rows cols devices) rs /\ Forall (fun r => ~ between_chips devices r) rs /\
  generate 10 rows cols devices cpt rs = Ok (ts, ss) /\ In s ss /\ ~ (gs_noc_util s noc <= 100)%Q.
Proof.
  exists 2, 3, 9, 32, busy. pose proof busy_util_eq as B. unfold busy_util in B. destruct (generate 10 2 3 9 32 busy) as [[ts [|s ss]]| | | | | |]; try discriminate B.
  exists ts, (s :: ss), s, NOC0. split; [lia|]. split; [|split].
  - unfold busy. cbn [flat_map zrange zseq busy_chip app Z.to_nat Z.sub Z.add Z.opp Z.pos_sub Pos.to_nat Pos.iter_op Nat.add]. repeat constructor; cbn; lia || discriminate.
  - apply Forall_forall. intros r H (K & _). apply in_flat_map in H as (d & _ & H). cbn in H. destruct H as [<-|[<-|[<-|[<-|[]]]]]; discriminate.
  - split; [reflexivity|]. split; [left; reflexivity|]. intros L. assert (X : Qle_bool (gs_noc_util s NOC0) 112 = true); [|congruence].
    apply Qle_bool_iff. eapply Qle_trans; [exact L|]. discriminate.
Qed.

(* the shares of a transfer over its cycles do not add up to its bytes *)
Lemma bytes_refuted : exists rows cols devices cpt rs ts ss t, 0 < cpt /\ Forall (drawn rows cols devices) rs /\ generate 100 rows cols devices cpt rs = Ok (ts, ss) /\ In t ts /\
  ~ (share t * inject_Z (gt_end t - gt_start t) == inject_Z (gt_bytes t))%Q.
Proof.
  exists 12, 10, 1, 32, [mkDraw 2048 false 0 (1, 1) (3, 7) NOC0 100]. destruct (generate 100 12 10 1 32 [mkDraw 2048 false 0 (1, 1) (3, 7) NOC0 100]) as [[ts ss]| | | | | |] eqn:E; try discriminate E.
  destruct (generate_inv _ _ _ _ _ _ _ _ E) as (T & _ & _). vm_compute in T. injection T as <-. eexists _, ss, _. split; [lia|]. split; [repeat constructor; cbn; lia || discriminate|]. split; [reflexivity|]. split; [left; reflexivity|]. vm_compute. discriminate.
Qed.
(* example: the transfers and the first three timesteps of a file *)
Definition sample : option (list (list plink) * list (Z * Z * list Z * list (plink * Q))) :=
  match generate 100 12 10 8 32 [mkDraw 2048 false 2 (1, 1) (2, 2) NOC0 10; mkDraw 4096 false 2 (1, 1) (1, 2) NOC0 70] with
  | Ok (ts, ss) => Some (map gt_links ts, map (fun s => (gs_start s, gs_end s, gs_active s, map (fun e => (fst e, Qred (snd e))) (gs_demands s))) (firstn 3 ss))
  | _ => None
  end.
(* example: the transfers of that file, and the averages of its third timestep: demand, utilisation, and those of either NoC *)
Definition sample_file : outcome (list gen_transfer * list gen_step) :=
  generate 100 12 10 8 32 [mkDraw 2048 false 2 (1, 1) (2, 2) NOC0 10; mkDraw 4096 false 2 (1, 1) (1, 2) NOC0 70].
Definition sample_transfers : option (list gen_transfer) := match sample_file with Ok (ts, _) => Some ts | _ => None end.
Definition sample_averages : option (list Q) :=
  match sample_file with
  | Ok (_, [_; _; s; _; _; _; _; _]) => Some (map Qred [gs_demand s; gs_util s; gs_noc_demand s NOC0; gs_noc_util s NOC0; gs_noc_demand s NOC1])
  | _ => None
  end.
