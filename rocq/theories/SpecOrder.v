(* What two runs with different orders of the hash containers have in common (C23). *)
From Coq Require Import ZArith String List Bool.
From Verif Require Import Base Arith Util Device Workload SpecWorkload DepTracker Rates Stats Engine SpecEngine.
Import ListNotations.
Open Scope Z_scope.

(* the direction of the first link of a list of links *)
Definition heading (d : device) (l : list Z) : option (outcome link_type) :=
  match l with
  | [] => None
  | id :: _ => Some (let! a := getLinkAttributes d id in Ok (l_type a))
  end.
(* both orders put links of one direction first into the link sets of the multicasts of the workload *)
Definition same_headings {Fl} (d : device) (wl : workload Fl) (ord ord' : Z -> list Z -> list Z) : Prop :=
  forall t m r, In t (all_transfers wl) -> t_dst t = Multicast m -> route d (t_noc t) (t_src t) (t_dst t) = Ok r ->
    heading d (ord (t_id t) r) = heading d (ord' (t_id t) r).
(* the links of each multicast all have one direction *)
Definition straight_multicasts {Fl} (d : device) (wl : workload Fl) : Prop :=
  forall t m r, In t (all_transfers wl) -> t_dst t = Multicast m -> route d (t_noc t) (t_src t) (t_dst t) = Ok r ->
    forall a b, In a r -> In b r -> heading d [a] = heading d [b].
Definition unicasts_only {Fl} (wl : workload Fl) : Prop := Forall (fun t => exists c, t_dst t = Unicast c) (all_transfers wl).

(* the same transfers with the same start, end and number of bytes, and the same statistics *)
Definition same_results {A : arith} (s s' : sim A) : Prop :=
  sm_curr A s' = sm_curr A s /\ sm_stats A s' = sm_stats A s /\ sm_live A s' = sm_live A s /\
  Forall2 (fun x x' => s_tr x' = s_tr x /\ s_start x' = s_start x /\ s_end x' = s_end x /\ s_done x' = s_done x) (sm_sts A s) (sm_sts A s').
(* both simulations end with the same results, or both stop with the same error *)
Definition same_outcome {A : arith} (o o' : outcome (sim A + npe_error)) : Prop :=
  (exists s s', o = Ok (inl s) /\ o' = Ok (inl s') /\ same_results s s') \/ (o = o' /\ forall s, o <> Ok (inl s)).
