(* Specifications for the loaders (C47-C50, C52). *)
From Coq Require Import ZArith Bool String List Floats.SpecFloat.
From Verif Require Import Base Arith Util Device Workload Json Ingest.
Import ListNotations.
Local Open Scope string_scope.
Local Open Scope list_scope.
Open Scope Z_scope.

(** * Fields of a JSON value *)
Definition holds (j : json) (k : string) (v : json) : Prop := exists fs, j = JObject fs /\ field fs k = Some v.
Definition int_field (j : json) (k : string) (z : Z) : Prop := holds j k (JInt z) /\ - 2 ^ 63 <= z < 2 ^ 63.
Definition int_or (j : json) (k : string) (d z : Z) : Prop := int_field j k z \/ ((forall z', ~ int_field j k z') /\ z = d).
Definition text (j : json) (k s : string) : Prop := holds j k (JString s) \/ ((forall s', ~ holds j k (JString s')) /\ s = "").
(* a real number: a double, or an integer converted to one *)
Definition real_field (j : json) (k : string) (x : spec_float) : Prop := holds j k (JDouble x) \/ exists z, holds j k (JInt z) /\ x = sf_ofZ prec64 emax64 z.
Definition real_or (j : json) (k : string) (x : spec_float) : Prop :=
  real_field j k x \/ ((forall x', ~ real_field j k x') /\ x = S754_zero false).

(* [c] is [z] in 16 bits *)
Definition narrow16 (z c : Z) : Prop := - 2 ^ 15 <= c < 2 ^ 15 /\ (z - c) mod 2 ^ 16 = 0.
Definition coord_is (c : coord) (dev row col : Z) : Prop := narrow16 dev (c_dev c) /\ narrow16 row (c_row c) /\ narrow16 col (c_col c).
Definition noc_is (s : string) (n : noc_type) : Prop := (s = "NOC_0" /\ n = NOC0) \/ (s <> "NOC_0" /\ n = NOC1).

(** * C52: entries of a workload file *)
Definition unicast_entry (e : json) (dx dy : Z) : Prop := int_or e "dst_x" (-1) dx /\ int_or e "dst_y" (-1) dy /\ (dx <> -1 \/ dy <> -1).
Definition multicast_entry (e : json) (sx sy ex ey : Z) : Prop := int_or e "dst_x" (-1) (-1) /\ int_or e "dst_y" (-1) (-1) /\
  int_field e "mcast_start_x" sx /\ int_field e "mcast_start_y" sy /\ int_field e "mcast_end_x" ex /\ int_field e "mcast_end_y" ey.
Definition well_formed_entry (e : json) : Prop :=
  (exists z, int_field e "packet_size" z) /\ (exists z, int_field e "num_packets" z) /\ (exists z, int_field e "src_x" z) /\ (exists z, int_field e "src_y" z) /\
  ((exists dx dy, unicast_entry e dx dy) \/ (exists sx sy ex ey, multicast_entry e sx sy ex ey)) /\ (exists s, holds e "noc_type" (JString s)).
(* the rectangle has a corner to the bottom right of its start, or the code refuses it *)
Definition describes (e : json) (t : trans) : Prop :=
  (forall z, int_field e "packet_size" z -> t_psize t = z mod 2 ^ 32) /\
  (forall z, int_field e "num_packets" z -> t_npkts t = z mod 2 ^ 32) /\
  (forall dev x y, int_or e "device_id" 0 dev -> int_field e "src_x" x -> int_field e "src_y" y -> coord_is (t_src t) dev y x) /\
  (forall dev dx dy, int_or e "device_id" 0 dev -> unicast_entry e dx dy -> exists c, t_dst t = Unicast c /\ coord_is c dev dy dx) /\
  (forall dev sx sy ex ey, int_or e "device_id" 0 dev -> multicast_entry e sx sy ex ey ->
     exists a b, t_dst t = Multicast [mkGrid a b] /\ coord_is a dev sy sx /\ coord_is b dev ey ex) /\
  (forall x, real_or e "injection_rate" x -> t_rate t = f_of_d f32A x) /\
  (forall z, int_or e "phase_cycle_offset" 0 z -> t_off t = z mod 2 ^ 32) /\
  (forall s, holds e "noc_type" (JString s) -> noc_is s (t_noc t)) /\
  (forall s, text e "noc_event_type" s -> t_event t = s) /\
  t_zone t = "" /\ t_gid t = -1 /\ t_gix t = -1 /\ t_gpar t = -1 /\ t_bytes t = t_psize t * t_npkts t mod 2 ^ 32.
(* one transfer for each well-formed entry, in order *)
Inductive loads : list json -> list trans -> Prop :=
| loads_nil : loads [] []
| loads_skip e es ts : ~ well_formed_entry e -> loads es ts -> loads (e :: es) ts
| loads_take e es t ts : well_formed_entry e -> describes e t -> loads es ts -> loads (e :: es) (t :: ts).
(* a multicast whose end is above and to the left of its start *)
Definition reversed (e : json) : Prop := exists dev sx sy ex ey a b, int_or e "device_id" 0 dev /\ multicast_entry e sx sy ex ey /\
  coord_is a dev sy sx /\ coord_is b dev ey ex /\ c_row b < c_row a /\ c_col b < c_col a.

(* no golden cycles are given *)
Definition no_golden (j : json) : Prop := forall g c, holds j "golden_result" g -> ~ holds g "cycles" c.

(** * Events of a trace *)
Inductive kind : Type := Read | Write.
Definition set_types (k : kind) : list string :=
  match k with Read => ["READ_SET_STATE"; "READ_DRAM_SHARDED_SET_STATE"] | Write => ["WRITE_SET_STATE"] end.
Definition with_types (k : kind) : list string :=
  match k with Read => ["READ_WITH_STATE"; "READ_WITH_STATE_AND_TRID"; "READ_DRAM_SHARDED_WITH_STATE"] | Write => ["WRITE_WITH_STATE"] end.
Definition fabric_types : list string :=
  ["FABRIC_UNICAST_WRITE"; "FABRIC_UNICAST_INLINE_WRITE"; "FABRIC_UNICAST_ATOMIC_INC"; "FABRIC_FUSED_UNICAST_ATOMIC_INC"; "FABRIC_UNICAST_SCATTER_WRITE"].
Definition plain_types : list string := ["READ"; "WRITE_"; "WRITE_MULTICAST"] ++ fabric_types.
Definition data_types : list string := plain_types ++ with_types Read ++ with_types Write.
Definition read_types : list string := "READ" :: with_types Read.

Definition has_proc (ev : json) : Prop := exists p, text ev "proc" p /\ p <> "".
Definition is_set (k : kind) (ev : json) : Prop := exists ty, text ev "type" ty /\ In ty (set_types k) /\ has_proc ev.
(* the most recent SET_STATE event, of any core *)
Definition last_set (k : kind) (before : list json) (s : json) : Prop :=
  exists l r, before = l ++ s :: r /\ is_set k s /\ Forall (fun e => ~ is_set k e) r.
Record request : Type := mkReq { rq_sx : Z; rq_sy : Z; rq_dx : Z; rq_dy : Z; rq_bytes : Z }.
Definition own_fields (ev : json) (q : request) : Prop :=
  int_or ev "sx" (-1) (rq_sx q) /\ int_or ev "sy" (-1) (rq_sy q) /\ int_or ev "dx" (-1) (rq_dx q) /\ int_or ev "dy" (-1) (rq_dy q) /\
  int_or ev "num_bytes" 0 (rq_bytes q).
Definition from_state (s own q : request) : Prop :=
  rq_sx q = rq_sx s /\ rq_sy q = rq_sy s /\ rq_dx q = rq_dx s /\ rq_dy q = rq_dy s /\
  rq_bytes q = if 0 <? rq_bytes s then rq_bytes s else rq_bytes own.
(* what an event asks for *)
Definition requests (before : list json) (ev : json) (q : request) : Prop :=
  exists ty own, text ev "type" ty /\ own_fields ev own /\
    ((In ty plain_types /\ q = own) \/
     exists k, In ty (with_types k) /\
       ((exists s st, last_set k before s /\ own_fields s st /\ from_state st own q) \/
        (Forall (fun e => ~ is_set k e) before /\ from_state (mkReq 0 0 0 0 0) own q))).
Definition mcast_fields (ev : json) (ax ay bx b_y : Z) : Prop :=
  int_or ev "mcast_start_x" (-1) ax /\ int_or ev "mcast_start_y" (-1) ay /\ int_or ev "mcast_end_x" (-1) bx /\ int_or ev "mcast_end_y" (-1) b_y.
(* the event moves data *)
Definition moves (ev : json) : Prop :=
  exists ty noc, text ev "type" ty /\ In ty data_types /\ has_proc ev /\ text ev "noc" noc /\ noc <> "" /\
    (ty = "READ" \/ ty = "WRITE_" -> ~ int_or ev "num_bytes" 0 0) /\
    (ty = "WRITE_MULTICAST" -> exists ax ay bx b_y, mcast_fields ev ax ay bx b_y /\ ax <> -1 /\ ay <> -1 /\ bx <> -1 /\ b_y <> -1).
Definition fabric (ev : json) (f : list (string * json)) : Prop := holds ev "fabric_send" (JObject f).

(* source and destination of the data, as (x, y) *)
Definition data_source (ty : string) (q : request) (x y : Z) : Prop :=
  if existsb (String.eqb ty) read_types then x = rq_dx q /\ y = rq_dy q else x = rq_sx q /\ y = rq_sy q.
Definition data_target (ty : string) (q : request) (x y : Z) : Prop :=
  if existsb (String.eqb ty) read_types then x = rq_sx q /\ y = rq_sy q else x = rq_dx q /\ y = rq_dy q.
Definition small_time (ev : json) : Prop := forall z, int_or ev "timestamp" 0 z -> 0 <= z <= 2 ^ 53.
Definition earliest (evs : list json) (t0 : Z) : Prop :=
  (exists ev, In ev evs /\ int_or ev "timestamp" 0 t0) /\ forall ev z, In ev evs -> int_or ev "timestamp" 0 z -> t0 <= z.
(* cycles between the event and the start of the data; none is added for fabric events here *)
Definition event_latency (d : device) (ty noc : string) (sx sy dx dy lat : Z) : Prop :=
  if existsb (String.eqb ty) read_types then lat = read_latency (dv_arch d) sx sy dx dy
  else if existsb (String.eqb ty) fabric_types then lat = 0
  else write_latency d sx sy dx dy noc = Ok lat.
(* the transfer of an event without fabric path *)
Definition transfer_of (d : device) (evs before : list json) (ev : json) (t : trans) : Prop :=
  exists ty noc q dev dst_dev sx sy dx dy, text ev "type" ty /\ text ev "noc" noc /\ requests before ev q /\
    int_or ev "src_device_id" 0 dev /\ int_or ev "dst_device_id" dev dst_dev /\ data_source ty q sx sy /\ data_target ty q dx dy /\
    t_psize t = rq_bytes q mod 2 ^ 32 /\ t_npkts t = 1 /\ t_bytes t = t_psize t /\ coord_is (t_src t) dev sy sx /\
    (ty <> "WRITE_MULTICAST" -> exists c, t_dst t = Unicast c /\ coord_is c dst_dev dy dx) /\
    (ty = "WRITE_MULTICAST" -> forall ax ay bx b_y, mcast_fields ev ax ay bx b_y ->
       (noc = "NOC_0" -> exists a b, t_dst t = Multicast [mkGrid a b] /\ coord_is a dst_dev ay ax /\ coord_is b dst_dev b_y bx) /\
       (noc = "NOC_1" -> exists a b, t_dst t = Multicast [mkGrid a b] /\ coord_is a dst_dev b_y bx /\ coord_is b dst_dev ay ax)) /\
    noc_is noc (t_noc t) /\ t_event t = ty /\ t_rate t = f_zero f32A /\ t_gid t = -1 /\ t_gix t = -1 /\ t_gpar t = -1 /\
    (Forall small_time evs -> forall ts t0, int_or ev "timestamp" 0 ts -> earliest evs t0 ->
       exists lat, event_latency d ty noc sx sy dx dy lat /\ t_off t = (ts - t0 + lat) mod 2 ^ 32).

(** * C50: fabric paths *)
Definition narrow32 (z c : Z) : Prop := - 2 ^ 31 <= c < 2 ^ 31 /\ (z - c) mod 2 ^ 32 = 0.
(* a segment: chip, start, core to which it forwards, parent; -1 for what is absent *)
Record seg : Type := mkSeg { sg_dev : Z; sg_sx : Z; sg_sy : Z; sg_fx : Z; sg_fy : Z; sg_parent : Z; sg_noc : string }.
Definition segment (r : json) (s : seg) : Prop :=
  (exists z, int_or r "device" (-1) z /\ narrow16 z (sg_dev s)) /\ int_or r "segment_start_x" (-1) (sg_sx s) /\ int_or r "segment_start_y" (-1) (sg_sy s) /\
  int_or r "forward_x" (-1) (sg_fx s) /\ int_or r "forward_y" (-1) (sg_fy s) /\ int_or r "parent_id" (-1) (sg_parent s) /\ text r "noc" (sg_noc s).
Definition writes (r : json) (ws : list json) : Prop := holds r "local_writes" (JArray ws).
(* the segment forwards the data *)
Definition has_forward (s : seg) : Prop := sg_fx s <> -1 /\ sg_fy s <> -1.
(* the segment is not skipped: it has a chip and a start, and forwards data or has a list of local writes *)
Definition complete (r : json) (s : seg) : Prop :=
  segment r s /\ sg_dev s <> -1 /\ sg_sx s <> -1 /\ sg_sy s <> -1 /\ (has_forward s \/ exists ws, writes r ws).
(* a transfer of the segment: from its start to (x, y) of the same chip *)
Definition leg (ty : string) (g : Z) (s : seg) (x y bytes : Z) (t : trans) : Prop :=
  t_psize t = bytes mod 2 ^ 32 /\ t_npkts t = 1 /\ coord_is (t_src t) (sg_dev s) (sg_sy s) (sg_sx s) /\
  (exists c, t_dst t = Unicast c /\ coord_is c (sg_dev s) y x) /\ noc_is (sg_noc s) (t_noc t) /\ t_event t = ty /\ t_gid t = g /\ narrow32 (sg_parent s) (t_gpar t).
Definition local_fields (w : json) (x y b : Z) : Prop :=
  int_or w "dx" (-1) x /\ int_or w "dy" (-1) y /\ int_or w "num_bytes" (-1) b /\ x <> -1 /\ y <> -1 /\ b <> -1.
(* one transfer for each complete local write, in order *)
Inductive locals (ty : string) (g : Z) (s : seg) : list json -> list trans -> Prop :=
| locals_nil : locals ty g s [] []
| locals_skip w ws ts : (forall x y b, ~ local_fields w x y b) -> locals ty g s ws ts -> locals ty g s (w :: ws) ts
| locals_take w ws t ts x y b : local_fields w x y b -> leg ty g s x y b t -> locals ty g s ws ts -> locals ty g s (w :: ws) (t :: ts).
(* the transfers of a segment: those of the local writes, then the one that forwards *)
Definition segment_yields (bytes : Z) (ty : string) (g : Z) (r : json) (ts : list trans) : Prop :=
  forall s, segment r s ->
    (~ complete r s -> ts = []) /\
    (complete r s -> exists ls fs, ts = ls ++ fs /\
       (forall ws, writes r ws -> locals ty g s ws ls) /\ ((forall ws, ~ writes r ws) -> ls = []) /\
       (~ has_forward s -> fs = []) /\ (has_forward s -> exists t, fs = [t] /\ leg ty g s (sg_fx s) (sg_fy s) bytes t)).

(* number of fabric events that move data *)
Inductive fabric_number : list json -> Z -> Prop :=
| number_none : fabric_number [] 0
| number_more l e f n : fabric_number l n -> moves e -> fabric e f -> fabric_number (l ++ [e]) (n + 1)
| number_same l e n : fabric_number l n -> (forall f, ~ (moves e /\ fabric e f)) -> fabric_number (l ++ [e]) n.
Definition path_of (ev : json) (segs : list json) : Prop := exists f, fabric ev f /\ holds (JObject f) "path" (JArray segs).
(* the transfers of an event with a fabric path: a group of their own, numbered from 0 *)
Definition path_transfers (d : device) (evs before : list json) (ev : json) (ts : list trans) : Prop :=
  exists ty noc q g, text ev "type" ty /\ text ev "noc" noc /\ requests before ev q /\ fabric_number before g /\
    map t_gix ts = map Z.of_nat (seq 0 (List.length ts)) /\ Forall (fun t => t_gid t = g) ts /\
    ((forall segs, ~ path_of ev segs) -> ts = []) /\
    (forall segs, path_of ev segs -> exists tss, ts = concat tss /\ Forall2 (segment_yields (rq_bytes q) ty g) segs tss /\
       (* when the first segment has transfers, all leave at the time of the event plus its latency *)
       (forall r rs s, segs = r :: rs -> segment r s -> nth_error tss 0 <> Some [] -> Forall small_time evs ->
          forall sx sy dx dy z t0, data_source ty q sx sy -> data_target ty q dx dy -> int_or ev "timestamp" 0 z -> earliest evs t0 ->
          exists lat lat', event_latency d ty noc sx sy dx dy lat /\ write_latency d (sg_sx s) (sg_sy s) (sg_fx s) (sg_fy s) (sg_noc s) = Ok lat' /\
            Forall (fun t => t_off t = (z - t0 + lat + lat') mod 2 ^ 32) ts)).
(* the transfers of an event *)
Definition yields (d : device) (evs before : list json) (ev : json) (ts : list trans) : Prop :=
  (~ moves ev -> ts = []) /\
  (moves ev -> (forall f, ~ fabric ev f) -> exists t, ts = [t] /\ transfer_of d evs before ev t) /\
  (forall f, moves ev -> fabric ev f -> path_transfers d evs before ev ts).

(** * C49: traces on which the conversion is defined *)
Definition known_procs : list string := ["BRISC"; "NCRISC"; "TRISC_0"; "TRISC_1"; "TRISC_2"; "ERISC"; "CORE_AGG"].
Definition known_proc (ev : json) : Prop := exists p, text ev "proc" p /\ In p known_procs.
Definition known_phase (ev : json) : Prop := exists p, text ev "zone_phase" p /\ In p [""; "ZONE_START"; "ZONE_END"].
(* the event has a core; [dev]: the chip, -1 when it is absent *)
Definition placed (ev : json) (dev : Z) : Prop :=
  ~ int_or ev "sx" (-1) (-1) /\ ~ int_or ev "sy" (-1) (-1) /\ int_or ev "src_device_id" (-1) dev.
(* the event begins or ends a zone *)
Definition marks_zone (ev : json) : Prop := ~ text ev "zone" "" /\ ~ text ev "zone_phase" "".
(* two events of the same processor *)
Definition same_processor (a b : json) : Prop := exists p x y c,
  text a "proc" p /\ text b "proc" p /\ int_or a "sx" (-1) x /\ int_or b "sx" (-1) x /\ int_or a "sy" (-1) y /\ int_or b "sy" (-1) y /\
  int_or a "src_device_id" 0 c /\ int_or b "src_device_id" 0 c.
Definition small (j : json) (k : string) : Prop := forall z, int_or j k (-1) z -> - 2 ^ 31 <= z < 2 ^ 31.
Definition small_event (ev : json) : Prop := small ev "sx" /\ small ev "sy" /\ small ev "dx" /\ small ev "dy" /\
  forall segs r, path_of ev segs -> In r segs -> small r "segment_start_x" /\ small r "segment_start_y" /\ small r "forward_x" /\ small r "forward_y".
(* [n] bounds the number of transfers of the event *)
Inductive segments_size : list json -> Z -> Prop :=
| size_nil : segments_size [] 0
| size_writes r rs ws n : writes r ws -> segments_size rs n -> segments_size (r :: rs) (n + Z.of_nat (List.length ws) + 1)
| size_plain r rs n : (forall ws, ~ writes r ws) -> segments_size rs n -> segments_size (r :: rs) (n + 1).
Inductive trace_size : list json -> Z -> Prop :=
| trace_nil : trace_size [] 0
| trace_path ev evs segs m n : path_of ev segs -> segments_size segs m -> trace_size evs n -> trace_size (ev :: evs) (m + n + 1)
| trace_plain ev evs n : (forall segs, ~ path_of ev segs) -> trace_size evs n -> trace_size (ev :: evs) (n + 1).
Definition clean (d : device) (evs : list json) : Prop :=
  Forall known_proc evs /\ Forall known_phase evs /\ Forall small_time evs /\ Forall small_event evs /\
  (forall dev, In dev (dv_device_ids d) -> exists ev, In ev evs /\ placed ev dev) /\
  (exists ev rest z dev x y, evs = ev :: rest /\ In z evs /\ same_processor ev z /\ placed z dev /\ marks_zone z /\ int_or ev "sx" (-1) x /\ int_or ev "sy" (-1) y /\ 0 <= x < 2 ^ 15 /\ 0 <= y < 2 ^ 15) /\
  (exists n, trace_size evs n /\ n < 2 ^ 31).

(* C48: the most recent SET_STATE event of the processor of [ev] *)
Definition own_set (k : kind) (before : list json) (ev s : json) : Prop :=
  exists l r, before = l ++ s :: r /\ is_set k s /\ same_processor s ev /\ Forall (fun e => ~ (is_set k e /\ same_processor e ev)) r.
(* C50: a path of complete segments that only forward, each the child of the one before *)
Definition chain_path (segs : list json) : Prop := Z.of_nat (List.length segs) <= 2 ^ 31 /\
  forall i r, nth_error segs i = Some r -> exists s, complete r s /\ has_forward s /\ (forall ws, ~ writes r ws) /\ sg_parent s = Z.of_nat i - 1.
