(* Specifications for the simulation (C24-C37). *)
From Coq Require Import ZArith String List Bool Sorting.Permutation.
From Verif Require Import Base Arith Util Device Workload SpecWorkload DepTracker Rates Stats Engine.
Import ListNotations.
Open Scope Z_scope.

(* an order of the links of a multicast route / of the buckets only permutes them *)
Definition link_order (ord : Z -> list Z -> list Z) : Prop := forall i l, Permutation (ord i l) l.
Definition bucket_order (bord : list bucket -> list bucket) : Prop := forall bs, Permutation (bord bs) bs.

(* the values fit the integer types of the code *)
Definition transfer_ranges {Fl} (t : transfer Fl) : Prop :=
  0 <= t_off t < 2 ^ 32 /\ 0 <= t_bytes t < 2 ^ 32 /\ 0 <= t_psize t < 2 ^ 32 /\ 0 <= t_npkts t < 2 ^ 32.
(* a workload as the engine gets it: identifiers 0, 1, 2, ... (C15), fields in range *)
Definition proper {Fl} (wl : workload Fl) : Prop := dense wl /\ Forall transfer_ranges (all_transfers wl).
(* an accepted timestep length, uint32_t *)
Definition proper_cpt (cpt : Z) : Prop := 1 <= cpt < 2 ^ 32.

Definition sum (l : list Z) : Z := fold_right Z.add 0 l.

Section Spec.
  Context (A : arith) (ord : Z -> list Z -> list Z) (bord : list bucket -> list bucket).
  Context (d : device) (congestion : bool) (cpt : Z) (wl : workload (F A)).
  Notation state := (tstate (F A)).
  Notation sim := (sim A).

  (* the states in which a timestep begins *)
  Inductive reach : sim -> Prop :=
  | reach_init s : sim_init A ord bord d cpt wl = Ok s -> reach s
  | reach_step s s' : reach s -> timestep A d congestion cpt wl s = Ok s' -> finished A s' = false ->
      sm_curr A s' <= MAX_CYCLE_LIMIT -> reach (advance A cpt s').
  (* the states in which a timestep ends *)
  Definition step_end (s' : sim) : Prop := exists s, reach s /\ timestep A d congestion cpt wl s = Ok s'.
  (* every state of a run at a timestep boundary *)
  Definition visited (s : sim) : Prop := reach s \/ step_end s.
  (* the last state of a successful run *)
  Definition succeeds (s : sim) : Prop := simulate A ord bord d congestion cpt wl = Ok (inl s).

  (* where a transfer is *)
  Definition is_queued (s : sim) (i : nat) : Prop := In i (map snd (sm_queue A s)).
  Definition is_live (s : sim) (i : nat) : Prop := In i (sm_live A s).
  Definition is_finished (s : sim) (i : nat) : Prop :=
    (i < List.length (sm_sts A s))%nat /\ ~ is_queued s i /\ ~ is_live s i.
  Definition has_started (s : sim) (i : nat) : Prop := is_live s i \/ is_finished s i.

  (* transfer [i] depends on transfer [j] with the given delay: the checkpoint of [i] is required by [j] *)
  Definition depends (sts : list state) (tk : tracker) (i j : nat) (delay : Z) : Prop :=
    exists x y k c, nth_error sts i = Some x /\ nth_error sts j = Some y /\ s_dep x = Some k /\ In k (s_req y) /\
                    nth_error tk k = Some c /\ cp_delay c = delay.

  (** ** The dependency rules (C24, C27-C29) *)
  (* direction of the first link of the route *)
  Definition first_direction (x : state) : option link_type :=
    match s_route x with
    | [] => None
    | l :: _ => option_map l_type (nth_error (link_table d) (Z.to_nat l))
    end.
  (* two transfers that the code serialises: same NoC, same row and column of the source, same first direction.
     The chip of the source is not compared. *)
  Definition same_lane (x y : state) : Prop :=
    t_noc (s_tr x) = t_noc (s_tr y) /\ c_row (t_src (s_tr x)) = c_row (t_src (s_tr y)) /\
    c_col (t_src (s_tr x)) = c_col (t_src (s_tr y)) /\ first_direction x = first_direction y.
  (* order by start offset, then identifier *)
  Definition before (x y : state) : Prop :=
    t_off (s_tr x) < t_off (s_tr y) \/ (t_off (s_tr x) = t_off (s_tr y) /\ t_id (s_tr x) < t_id (s_tr y)).
  (* exactly one transfer of the lane lies between [j] and [i] *)
  Definition two_before (sts : list state) (j i : nat) : Prop :=
    exists x y, nth_error sts i = Some x /\ nth_error sts j = Some y /\ same_lane y x /\ before y x /\
      exists m, forall k, k = m <-> exists z, nth_error sts k = Some z /\ same_lane z x /\ before y z /\ before z x.
  (* at most one transfer of the lane comes before [i] *)
  Definition first_two (sts : list state) (i : nat) : Prop :=
    exists x, nth_error sts i = Some x /\
      forall j k y z, nth_error sts j = Some y -> nth_error sts k = Some z ->
        same_lane y x -> same_lane z x -> before y x -> before z x -> j = k.

  (* transfer groups *)
  Definition has_group_parent (t : transfer (F A)) : Prop := t_gid t <> -1 /\ t_gpar t <> -1.
  Definition names_parent (t p : transfer (F A)) : Prop := t_gid p = t_gid t /\ t_gix p = t_gpar t.
  (* delay between a transfer and its parent: the write latency of the hop, and for a parent issued by another chip
     also 600 cycles and 0.1055 cycles per byte of a packet *)
  Definition hop_delay (t p : transfer (F A)) (delay : Z) : Prop :=
    exists c lat, t_dst t = Unicast c /\
      write_latency d (c_col (t_src t)) (c_row (t_src t)) (c_col c) (c_row c)
        (match t_noc t with NOC0 => "NOC_0"%string | NOC1 => "NOC_1"%string end) = Ok lat /\
      (c_dev (t_src t) = c_dev (t_src p) -> delay = u32 lat) /\
      (c_dev (t_src t) <> c_dev (t_src p) ->
         f_to_uint A 32 (f_add A (f_ofZ A (u32 lat))
           (f_add A (f_ofZ A 600) (f_mul A (f_lit A 1055 10000) (f_ofZ A (t_psize t))))) = Ok delay).
  (* every group parent that is named exists, and all candidates come before the child *)
  Definition parents_first (ts : list (transfer (F A))) : Prop :=
    forall t, In t ts -> has_group_parent t ->
      (exists p, In p ts /\ names_parent t p) /\
      forall p, In p ts -> names_parent t p -> t_off p < t_off t \/ (t_off p = t_off t /\ t_id p < t_id t).

  (* the dependency of a transfer is met at a cycle: the transfer it depends on has finished, and the delay has passed *)
  Definition fulfilled (s : sim) (i : nat) (cycle : Z) : Prop :=
    forall j dl, depends (sm_sts A s) (sm_trk A s) i j dl -> is_finished s j /\
      exists y, nth_error (sm_sts A s) j = Some y /\ u32 (s_end y + dl) <= cycle.

  (* the n-th timestep of a run begins in state s *)
  Inductive begins : nat -> sim -> Prop :=
  | begins_first s : sim_init A ord bord d cpt wl = Ok s -> begins 1 s
  | begins_next n s s' : begins n s -> timestep A d congestion cpt wl s = Ok s' -> finished A s' = false ->
      sm_curr A s' <= MAX_CYCLE_LIMIT -> begins (S n) (advance A cpt s').

  (** ** Speed (C34) *)
  (* in one timestep the transfer moved what [c] cycles at its bandwidth allow *)
  Definition moved_in (c : Z) (x x' : state) : Prop :=
    (c = 0 /\ s_done x' = s_done x) \/
    exists m, f_to_uint A 64 (f_mul A (f_ofZ A c) (s_bw x')) = Ok m /\
      s_done x' = s_done x + Z.min (t_bytes (s_tr x) - s_done x) m.
  (* transfer [i] got the cycles [cs] in the timesteps so far, the last one first *)
  Inductive paced (i : nat) : sim -> list Z -> Prop :=
  | paced_first s : sim_init A ord bord d cpt wl = Ok s -> paced i s []
  | paced_step s s' x x' c cs : paced i s cs -> timestep A d congestion cpt wl s = Ok s' ->
      nth_error (sm_sts A s) i = Some x -> nth_error (sm_sts A s') i = Some x' -> moved_in c x x' -> paced i s' (c :: cs)
  | paced_next s cs : paced i s cs -> paced i (advance A cpt s) cs.

  (** ** End cycles (C26, C33) *)
  (* how the end cycle of a finished transfer came about: in its last timestep it moved [b] bytes, which [c] cycles at its
     bandwidth allow, from cycle [first] on *)
  Definition ended (curr : Z) (x : state) : Prop :=
    exists first c m b e, s_start x <= first <= curr /\ 0 <= c <= 2 * cpt /\ first + c <= curr + cpt /\
      f_to_uint A 64 (f_mul A (f_ofZ A c) (s_bw x)) = Ok m /\ 0 <= b <= m /\ b <= t_bytes (s_tr x) /\
      f_to_uint A 64 (f_add A (f_ofZ A first) (f_ceil A (f_div A (f_ofZ A b) (s_bw x)))) = Ok e /\ s_end x = u32 e.

  (** ** Estimated cycles (C35) *)
  (* the end cycles that count for a device (or for the mesh): of transfers from that device that start inside the window *)
  Definition counted (id : Z) (window : Z * Z) (sts : list state) (e : Z) : Prop :=
    exists i x, nth_error sts i = Some x /\ (id = MESH_DEVICE \/ id = c_dev (t_src (s_tr x))) /\
      fst window <= t_off (s_tr x) <= snd window /\ e = s_end x.
  Definition is_largest (P : Z -> Prop) (w : Z) : Prop := (forall e, P e -> e <= w) /\ P w.
  Definition estimate (id : Z) (window : Z * Z) (sts : list state) (est : Z) : Prop :=
    (exists w, is_largest (counted id window sts) w /\ fst window < w /\ est = w - fst window) \/
    ((forall e, counted id window sts e -> e <= fst window) /\ est = 0).
End Spec.
