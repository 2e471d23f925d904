(* Specifications for workloads (C05, C15-C21). *)
From Coq Require Import ZArith Reals String List Bool Floats.SpecFloat.
From Verif Require Import Base Util Device Workload SpecDevice.
Import ListNotations.
Open Scope Z_scope.

Section Spec.
  Context {Fl : Type}.

  Definition all_transfers (wl : workload Fl) : list (transfer Fl) := flat_map ph_trs (wl_phases wl).

  (* every workload a user can build through the public interface, with the history of the lists of
     transfers given to addPhase *)
  Inductive built : workload Fl -> list (list (transfer Fl)) -> Prop :=
  | built_empty : built empty_workload []
  | built_add wl h ts wl' id : built wl h -> addPhase wl ts = Ok (wl', id) -> built wl' (h ++ [ts])
  | built_group wl h wl' id : built wl h -> registerTransferGroupID wl = Ok (wl', id) -> built wl' h
  | built_path wl h p : built wl h -> built (setSourceFilePath wl p) h
  | built_zones wl h z : built wl h -> built (setZones wl z) h
  | built_golden wl h m : built wl h -> built (setGoldenResultCycles wl m) h.

  (* [b] is [a] up to the two identifiers *)
  Definition same_content (a b : transfer Fl) : Prop :=
    t_psize b = t_psize a /\ t_npkts b = t_npkts a /\ t_src b = t_src a /\ t_dst b = t_dst a /\
    t_rate b = t_rate a /\ t_off b = t_off a /\ t_noc b = t_noc a /\ t_event b = t_event a /\
    t_bytes b = t_bytes a /\ t_zone b = t_zone a /\ t_gid b = t_gid a /\ t_gix b = t_gix a /\
    t_gpar b = t_gpar a.
  (* [b] is [a] up to the start offset *)
  Definition same_but_offset (a b : transfer Fl) : Prop :=
    t_psize b = t_psize a /\ t_npkts b = t_npkts a /\ t_src b = t_src a /\ t_dst b = t_dst a /\
    t_rate b = t_rate a /\ t_noc b = t_noc a /\ t_event b = t_event a /\
    t_bytes b = t_bytes a /\ t_zone b = t_zone a /\ t_gid b = t_gid a /\ t_gix b = t_gix a /\
    t_gpar b = t_gpar a /\ t_phase b = t_phase a /\ t_id b = t_id a.
  (* [b] is [a] up to the injection rate *)
  Definition same_but_rate (a b : transfer Fl) : Prop :=
    t_psize b = t_psize a /\ t_npkts b = t_npkts a /\ t_src b = t_src a /\ t_dst b = t_dst a /\
    t_off b = t_off a /\ t_noc b = t_noc a /\ t_event b = t_event a /\
    t_bytes b = t_bytes a /\ t_zone b = t_zone a /\ t_gid b = t_gid a /\ t_gix b = t_gix a /\
    t_gpar b = t_gpar a /\ t_phase b = t_phase a /\ t_id b = t_id a.

  (* the workloads agree except in their phases *)
  Definition same_frame (a b : workload Fl) : Prop :=
    wl_path b = wl_path a /\ wl_next b = wl_next a /\ wl_groups b = wl_groups a /\
    wl_golden b = wl_golden a /\ wl_zones b = wl_zones a.

  (* identifiers 0, 1, 2, ... *)
  Definition dense (wl : workload Fl) : Prop :=
    map ph_id (wl_phases wl) = map Z.of_nat (seq 0 (List.length (wl_phases wl))) /\
    map t_id (all_transfers wl) = map Z.of_nat (seq 0 (List.length (all_transfers wl))) /\
    wl_next wl = Z.of_nat (List.length (all_transfers wl)).

  (** ** Validation (C16) *)
  Definition on_chip_grid (d : device) (c : coord) : Prop :=
    0 <= c_row c < Z.of_nat (dv_rows d) /\ 0 <= c_col c < Z.of_nat (dv_cols d).
  (* what the property asks of a transfer: every destination in the grid, on the chip of the source *)
  Definition routable (d : device) (t : transfer Fl) : Prop :=
    0 < t_npkts t /\ 0 < t_psize t /\ in_grid d (t_src t) /\
    match t_dst t with
    | Unicast c => in_grid d c /\ c_dev c = c_dev (t_src t)
    | Multicast m => m <> [] /\
        Forall (fun g => on_chip_grid d (g_start g) /\ on_chip_grid d (g_end g) /\
                         c_dev (g_start g) = c_dev (t_src t)) m
    end.
  (* what validation asks: some rectangle in the grid, the first one on the chip of the source *)
  Definition accepted (d : device) (t : transfer Fl) : Prop :=
    0 < t_npkts t /\ 0 < t_psize t /\ in_grid d (t_src t) /\
    match t_dst t with
    | Unicast c => in_grid d c /\ c_dev c = c_dev (t_src t)
    | Multicast m =>
        (exists g m', m = g :: m' /\ c_dev (g_start g) = c_dev (t_src t)) /\
        (exists g, In g m /\ on_chip_grid d (g_start g) /\ on_chip_grid d (g_end g))
    end.
  Definition at_most_one_rectangle (t : transfer Fl) : Prop :=
    match t_dst t with Unicast _ => True | Multicast m => (List.length m <= 1)%nat end.
  Definition empty_multicast (t : transfer Fl) : Prop := t_dst t = Multicast [].

  (** ** Local unicasts (C18) *)
  (* the 2x2 block of a position with non-negative coordinates *)
  Definition same_block (a b : coord) : Prop := c_row a / 2 = c_row b / 2 /\ c_col a / 2 = c_col b / 2.
  Definition local_unicast (t : transfer Fl) : Prop := exists c, t_dst t = Unicast c /\ same_block (t_src t) c.
  Definition nonneg_coords (t : transfer Fl) : Prop :=
    0 <= c_row (t_src t) /\ 0 <= c_col (t_src t) /\
    match t_dst t with Unicast c => 0 <= c_row c /\ 0 <= c_col c | Multicast _ => True end.

  (** ** Golden windows (C20) *)
  Definition contains (w v : Z * Z) : Prop := fst w <= fst v /\ snd v <= snd w.
  Definition smallest_window (w : Z * Z) (vs : list (Z * Z)) : Prop :=
    (forall v, In v vs -> contains w v) /\ (forall u, (forall v, In v vs -> contains u v) -> contains u w).
  Definition u32_window (w : Z * Z) : Prop := 0 <= fst w < 2 ^ 32 /\ 0 <= snd w < 2 ^ 32.
End Spec.

(** ** Scales (C17): the finite floats that are not negative, and their value *)
Definition nonneg_scale (s : spec_float) : Prop :=
  SpecFloat.valid_binary 24 128 s = true /\
  (s = S754_zero false \/ s = S754_zero true \/ exists m e, s = S754_finite false m e).
Definition scale_value (s : spec_float) : R :=
  match s with
  | S754_finite false m e => (IZR (Zpos m) * powerRZ 2 e)%R
  | _ => 0%R
  end.
Definition u32_offsets (wl : workload spec_float) : Prop := Forall (fun t => 0 <= t_off t < 2 ^ 32) (all_transfers wl).
