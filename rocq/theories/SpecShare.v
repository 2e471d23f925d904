(* Specification for C90: what two transfers share. *)
From Coq Require Import ZArith String List Bool Floats.SpecFloat.
From Verif Require Import Base Arith Util Device Workload Rates Engine SpecEngine SpecRates.
Import ListNotations.
Open Scope Z_scope.

(* the same core; devices of one chip do not look at the chip *)
Definition same_place (d : device) (a b : coord) : Prop :=
  (dv_class d = ClsMultichip -> c_dev a = c_dev b) /\ c_row a = c_row b /\ c_col a = c_col b.
(* a core that a transfer is sent to; a rectangle always contains its first core *)
Definition arrives {X} (d : device) (t : transfer X) (c : coord) : Prop :=
  match t_dst t with
  | Unicast c' => same_place d c' c
  | Multicast m => exists g, In g m /\ (dv_class d = ClsMultichip -> c_dev (g_start g) = c_dev c) /\
      c_row (g_start g) <= c_row c <= Z.max (c_row (g_start g)) (c_row (g_end g)) /\
      c_col (g_start g) <= c_col c <= Z.max (c_col (g_start g)) (c_col (g_end g))
  end.
(* two transfers that have a link, the interface of the source or the interface of a destination in common *)
Definition contend {X} (d : device) (x y : tstate X) : Prop :=
  (exists l, In l (s_route x) /\ In l (s_route y)) \/
  t_noc (s_tr x) = t_noc (s_tr y) /\
    (same_place d (t_src (s_tr x)) (t_src (s_tr y)) \/ exists c, arrives d (s_tr x) c /\ arrives d (s_tr y) c).
(* the bandwidth [b] exceeds neither that of a link nor that of the destination of a unicast *)
Definition within_capacity (d : device) (t : transfer spec_float) (b : spec_float) : Prop :=
  le_float b (link_bandwidth f32A d) /\
  forall c ty, t_dst t = Unicast c -> getCoreType d c = Ok ty -> le_float b (abs_rate f32A d ty).
(* what one transfer can get: the lesser of its injection rate and the bandwidth of its packet size *)
Definition own_bandwidth (d : device) (t : transfer spec_float) (b : spec_float) : Prop :=
  exists noc : spec_float, interpolateBW f32A (tbt f32A d) (max_noc_bandwidth f32A d) (t_psize t) (t_npkts t) = Ok noc /\ b = f_fmin f32A (t_rate t) noc.
