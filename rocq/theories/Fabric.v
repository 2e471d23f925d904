(* Model of the elaboration of fabric paths: tt_npe/py/util/fabric_post_process.py:32-46 (directions), 49-137 (the topology, after its file
   was parsed as JSON), 189-247 (neighbour), 249-298 (first hop), 300-351 (hops), 353-394 and 396-482 (paths), 506-601 (traces, between reading
   and writing). Python integers are unbounded; [int(a / b)] is taken as exact (it is below 2^53). A dictionary is an association list in
   the order of insertion. A ProcessingError is a distinct outcome, as is any other exception, which nothing catches. The lines 139-187
   (unused, and they use an attribute that is never set) are not modelled. No proofs in this file. *)
From Coq Require Import ZArith String List Bool.
From Verif Require Import Util.
Import ListNotations.
Local Open Scope string_scope.
Local Open Scope list_scope.
Open Scope Z_scope.

(** * Python *)
Inductive py (X : Type) : Type :=
| Val (x : X)
| Processing                     (* raise ProcessingError *)
| Raised (e : string).           (* another exception *)
Arguments Val {X}. Arguments Processing {X}. Arguments Raised {X}.
Definition pbind {X Y} (m : py X) (f : X -> py Y) : py Y :=
  match m with Val x => f x | Processing => Processing | Raised e => Raised e end.
Notation "'let?' x := m 'in' f" := (pbind m (fun x => f)) (at level 200, x pattern, m at level 100, f at level 200).
Section Dict.
  Context {K V : Type} (eqb : K -> K -> bool).
  Fixpoint dict_get (m : list (K * V)) (k : K) : option V :=
    match m with [] => None | (a, v) :: m' => if eqb a k then Some v else dict_get m' k end.
  Fixpoint dict_set (m : list (K * V)) (k : K) (v : V) : list (K * V) :=
    match m with [] => [(k, v)] | (a, w) :: m' => if eqb a k then (a, v) :: m' else (a, w) :: dict_set m' k v end.
  (* m[k] *)
  Definition dict_item (m : list (K * V)) (k : K) : py V :=
    match dict_get m k with Some v => Val v | None => Raised "KeyError" end.
End Dict.

(** * Directions: 32-46 *)
Inductive dir : Type := dN | dS | dE | dW.
Definition dir_eqb (a b : dir) : bool := match a, b with dN, dN | dS, dS | dE, dE | dW, dW => true | _, _ => false end.
Definition get_inverse_direction (g : dir) : dir := match g with dN => dS | dS => dN | dE => dW | dW => dE end.

(** * Topology: 49-137 *)
Definition node : Type := (Z * Z)%type.              (* mesh, index in the mesh *)
Definition node_eqb (a b : node) : bool := (fst a =? fst b) && (snd a =? snd b).
Definition plane_key : Type := (Z * Z * dir)%type.   (* device, routing plane, direction *)
Definition plane_eqb (a b : plane_key) : bool :=
  (fst (fst a) =? fst (fst b)) && (snd (fst a) =? snd (fst b)) && dir_eqb (snd a) (snd b).
Record topology : Type := mkTopology {
  tp_shapes : list (Z * (Z * Z));                    (* mesh_shapes: mesh -> (rows, columns) *)
  tp_config : string;                                (* fabric_config *)
  tp_cluster : string;                               (* cluster_type *)
  tp_planes : list (plane_key * Z);                  (* routing_planes: -> Ethernet channel *)
  tp_node : list (Z * node);                         (* device_id_to_fabric_node_id *)
  tp_device : list (node * Z);                       (* fabric_node_id_to_device_id *)
  tp_coord : list (Z * (Z * Z)) }.                   (* eth_chan_to_coord *)
(* the parsed file; the values of its dictionaries have the right types, and its dictionaries have unique keys *)
Record topology_file : Type := mkTopologyFile {
  tf_shapes : list (Z * option (Z * Z));             (* None: not a list of two *)
  tf_config : string;
  tf_cluster : option string;
  tf_planes : list (option Z * list (option Z * list (dir * Z)));  (* device, its planes, their channels *)
  tf_node : list (Z * option node);
  tf_coord : list (Z * option (Z * Z)) }.
Definition pfold {X S} (f : S -> X -> py S) (l : list X) (s : S) : py S :=
  fold_left (fun m x => let? s := m in f s x) l (Val s).
Definition fabric_configs : list string := ["FABRIC_1D"; "FABRIC_1D_RING"; "FABRIC_2D"; "FABRIC_2D_TORUS"; "DISABLED"].
Definition directions : list dir := [dN; dS; dE; dW].
(* 49-137 *)
Definition TopologyGraph (f : topology_file) : py topology :=
  let? shapes := pfold (fun m e => match snd e with Some s => Val (dict_set Z.eqb m (fst e) s) | None => Processing end) (tf_shapes f) [] in
  if negb (existsb (String.eqb (tf_config f)) fabric_configs) then Processing else
  match tf_cluster f with
  | None => Processing
  | Some cluster =>
      if Nat.ltb 1 (List.length shapes) then Processing else
      let? planes := pfold (fun m e =>
          match fst e with
          | None => Processing
          | Some dev => pfold (fun m e =>
              match fst e with
              | None => Processing
              | Some p => Val (fold_left (fun m g => match dict_get dir_eqb (snd e) g with Some c => dict_set plane_eqb m (dev, p, g) c | None => m end) directions m)
              end) (snd e) m
          end) (tf_planes f) [] in
      let? nodes := pfold (fun m e => match snd e with Some n => Val (dict_set Z.eqb (fst m) (fst e) n, dict_set node_eqb (snd m) n (fst e)) | None => Processing end)
                      (tf_node f) ([], []) in
      let? coords := pfold (fun m e => match snd e with Some c => Val (dict_set Z.eqb m (fst e) c) | None => Processing end) (tf_coord f) [] in
      Val (mkTopology shapes (tf_config f) cluster planes (fst nodes) (snd nodes) coords)
  end.

Section Topology.
  Context (t : topology).
  Definition plane_get (dev p : Z) (g : dir) : option Z := dict_get plane_eqb (tp_planes t) (dev, p, g).
  Definition line_1d : bool := String.eqb (tp_config t) "FABRIC_1D_RING" || String.eqb (tp_config t) "FABRIC_1D".
  Definition wraps : bool := String.eqb (tp_config t) "FABRIC_1D_RING" || String.eqb (tp_config t) "FABRIC_2D_TORUS".
  (* 202-223: successive ifs, each on the direction that the one before left *)
  Definition turn (at_corner : bool) (a a' b b' : dir) (g : dir) : dir :=
    if at_corner then let g := if dir_eqb g a then a' else g in if dir_eqb g b then b' else g else g.
  Definition correct_direction (ns ew x y : Z) (g : dir) : dir :=
    let g := turn ((x =? 0) && (y =? 0)) dW dS dN dE g in
    let g := turn ((x =? ew - 1) && (y =? 0)) dE dS dN dW g in
    let g := turn ((x =? 0) && (y =? ns - 1)) dW dN dS dE g in
    turn ((x =? ew - 1) && (y =? ns - 1)) dE dN dS dW g.
  (* 189-247 *)
  Definition get_next_device_in_dir (dev : Z) (g : dir) : py (Z * dir) :=
    let? n := dict_item Z.eqb (tp_node t) dev in
    let? shape := dict_item Z.eqb (tp_shapes t) (fst n) in
    let '(ns, ew) := shape in
    if ew =? 0 then Raised "ZeroDivisionError" else
    let x := snd n mod ew in
    let y := Z.quot (snd n) ew in
    if (snd n <? 0) || (ns * ew <=? snd n) then Processing else
    let g := if line_1d && String.eqb (tp_cluster t) "T3K" then correct_direction ns ew x y g else g in
    let y := match g with dN => y - 1 | dS => y + 1 | _ => y end in
    let x := match g with dE => x + 1 | dW => x - 1 | _ => x end in
    (* ns is not 0 here *)
    let '(x, y) := if wraps then (x mod ew, y mod ns) else (x, y) in
    if (x <? 0) || (ew <=? x) || (y <? 0) || (ns <=? y) then Processing else
    let? d := dict_item node_eqb (tp_device t) (fst n, y * ew + x) in
    Val (d, g).

  (** * Segments of a path *)
  Context (W : Type).                                (* the destinations of an event *)
  Record segment : Type := mkSegment {
    sg_device : Z; sg_noc : string; sg_parent : Z; sg_start : Z * Z; sg_forward : option (Z * Z); sg_writes : option W }.
  Definition mux : Type := (Z * Z * string)%type.    (* x, y, noc *)
  (* 249-298 *)
  Definition add_first_hop (src : Z * Z) (dev chan : Z) (m : option mux) (noc : string) : py (list segment) :=
    let? router := dict_item Z.eqb (tp_coord t) chan in
    match m with
    | Some (mx, my, mnoc) => Val [mkSegment dev noc (-1) src (Some (mx, my)) None; mkSegment dev mnoc 0 (mx, my) (Some router) None]
    | None => Val [mkSegment dev noc (-1) src (Some router) None]
    end.
  (* 321-342: the next device, the coordinates of the two Ethernet cores, and the direction *)
  Definition forward (p : Z) (dev : Z) (g : dir) : py (Z * dir * (Z * Z) * (Z * Z)) :=
    let? r := get_next_device_in_dir dev g in
    let '(next, g) := r in
    match plane_get dev p g with
    | None => Processing
    | Some c =>
        let? fc := dict_item Z.eqb (tp_coord t) c in
        match plane_get next p (get_inverse_direction g) with
        | None => Processing
        | Some c' => let? rc := dict_item Z.eqb (tp_coord t) c' in Val (next, g, fc, rc)
        end
    end.
  (* 300-351: [n] hops are left, [hop] is the number of the next one *)
  Fixpoint hops (p start total : Z) (dst : W) (terminate : bool) (n : nat) (hop dev : Z) (rc : Z * Z) (g : dir) (parent : Z)
      : py (list segment * (Z * (Z * Z))) :=
    match n with
    | O => Val ([], (dev, rc))
    | S n =>
        let writes := if (start <=? hop) && terminate then Some dst else None in
        if (hop <? total) || negb terminate then
          let? r := forward p dev g in
          let '(next, g, fc, rc') := r in
          let? rest := hops p start total dst terminate n (hop + 1) next rc' g (parent + 1) in
          Val (mkSegment dev "NOC_1" parent rc (Some fc) writes :: fst rest, snd rest)
        else
          let? rest := hops p start total dst terminate n (hop + 1) dev rc g (parent + 1) in
          Val (mkSegment dev "NOC_1" parent rc None writes :: fst rest, snd rest)
    end.
  Definition add_hops (dev : Z) (rc : Z * Z) (start range : Z) (g : dir) (p : Z) (dst : W) (terminate : bool) (parent : Z)
      : py (list segment * (Z * (Z * Z))) :=
    let total := start + range - 1 in
    hops p start total dst terminate (Z.to_nat total) 1 dev rc g parent.

  (** * Paths *)
  (* 371-377, 416-422: the last matching entry; [last] is the value the loop variable routing_plane_id keeps *)
  Definition plane_of (dev chan : Z) : option (Z * dir) * option Z :=
    fold_left (fun s e => let '((d, p, g), c) := e in (if (d =? dev) && (c =? chan) then Some (p, g) else fst s, Some p)) (tp_planes t) (None, None).
  (* 379-390, 424-435: the message of the error refers to a variable that does not exist *)
  Definition first_link (dev chan : Z) : py (Z * dir * Z * (Z * Z)) :=
    match plane_of dev chan with
    | (Some (p, g), Some last) =>
        let? r := get_next_device_in_dir dev g in
        let '(next, g) := r in
        match plane_get next last (get_inverse_direction g) with
        | None => Processing
        | Some c => let? rc := dict_item Z.eqb (tp_coord t) c in Val (next, g, p, rc)
        end
    | _ => Raised "NameError"
    end.
  Definition last_id (m : option mux) : Z := match m with None => 0 | Some _ => 1 end.
  (* 353-394 *)
  Definition find_path_1d (src : Z * Z) (dst : W) (dev chan start range : Z) (m : option mux) (noc : string) : py (list segment * Z) :=
    let? first := add_first_hop src dev chan m noc in
    let? r := first_link dev chan in
    let '(next, g, p, rc) := r in
    let? h := add_hops next rc start range g p dst true (last_id m) in
    Val (first ++ fst h, fst (snd h)).

  (* 443-448: the branches of a multicast; they start where the hops before them ended *)
  Fixpoint branches (p : Z) (dst : W) (e w : Z) (n : nat) (dev : Z) (rc : Z * Z) (parent : Z) : py (list segment * (Z * (Z * Z))) :=
    match n with
    | O => Val ([], (dev, rc))
    | S n =>
        let parent := parent + 1 in
        let? a := if negb (e =? 0) then add_hops dev rc 1 e dE p dst true parent else Val ([], (dev, rc)) in
        let? b := if negb (w =? 0) then add_hops (fst (snd a)) (snd (snd a)) 1 w dW p dst true parent else Val ([], snd a) in
        let? rest := branches p dst e w n (fst (snd b)) (snd (snd b)) parent in
        Val (fst a ++ fst b ++ fst rest, snd rest)
    end.
  (* 437-458 *)
  Definition multicast_hops (next : Z) (rc : Z * Z) (g : dir) (p : Z) (dst : W) (ns e w parent : Z) : py (list segment * (Z * (Z * Z))) :=
    if (ns =? 0) && (e =? 0) && (w =? 0) then Processing
    else if negb (ns =? 0) then
      let? trunk := add_hops next rc 1 ns g p dst true parent in
      let? rest := branches p dst e w (Z.to_nat ns) (fst (snd trunk)) (snd (snd trunk)) parent in
      Val (fst trunk ++ fst rest, snd rest)
    else if negb (e =? 0) && negb (w =? 0) then Processing
    else if negb (e =? 0) then add_hops next rc 1 e dE p dst true parent
    else add_hops next rc 1 w dW p dst true parent.
  (* 459-480 *)
  Definition unicast_hops (next : Z) (rc : Z * Z) (g : dir) (p : Z) (dst : W) (ns e w parent : Z) : py (list segment * (Z * (Z * Z))) :=
    if (ns =? 0) && (e =? 0) && (w =? 0) then Processing
    else if negb (e =? 0) && negb (w =? 0) then Processing
    else match g with
         | dE => add_hops next rc e 1 g p dst true parent
         | dW => add_hops next rc w 1 g p dst true parent
         | _ =>
             let? a := add_hops next rc ns 1 g p dst ((e =? 0) && (w =? 0)) parent in
             let parent := parent + ns in
             let? b := if negb (e =? 0) then add_hops (fst (snd a)) (snd (snd a)) e 1 dE p dst true parent
                       else if negb (w =? 0) then add_hops (fst (snd a)) (snd (snd a)) w 1 dW p dst true parent
                       else Val ([], snd a) in
             Val (fst a ++ fst b, snd b)
         end.
  (* 396-482 *)
  Definition find_path_2d (src : Z * Z) (dst : W) (dev chan ns e w : Z) (is_mcast : bool) (m : option mux) (noc : string) : py (list segment * Z) :=
    let? first := add_first_hop src dev chan m noc in
    let? r := first_link dev chan in
    let '(next, g, p, rc) := r in
    let? h := if is_mcast then multicast_hops next rc g p dst ns e w (last_id m) else unicast_hops next rc g p dst ns e w (last_id m) in
    Val (first ++ fst h, fst (snd h)).

  (** * Traces: 506-601 *)
  Record fabric_send : Type := mkSend {
    fs_chan : Z; fs_mux : option mux;
    fs_1d : option (Z * Z);                          (* start_distance, range *)
    fs_2d : option (Z * Z * Z * bool);               (* ns_hops, e_hops, w_hops, is_mcast *)
    fs_path : option (list segment) }.
  Record event : Type := mkEvent {
    ev_time : Z; ev_dev : Z; ev_sx : Z; ev_sy : Z; ev_proc : string; ev_noc : string; ev_dst : W;
    ev_send : option fabric_send; ev_dst_dev : option Z }.
  (* 528: all_events.sort(key=timestamp), stable *)
  Definition by_time : list event -> list event := sort (fun a b => ev_time a <? ev_time b).
  (* 530-551: the events after the first, [prev] is the time of the one before *)
  Fixpoint synchronized (prev : Z) (l : list event) : list event :=
    match l with
    | [] => []
    | e :: l' => if (2 * prev <? ev_time e) && (1000 <? prev) then [] else e :: synchronized (ev_time e) l'
    end.
  Definition desync_filter (l : list event) : list event := match l with [] => [] | e :: l' => e :: synchronized (ev_time e) l' end.
  (* 553-591 *)
  Definition elaborate (e : event) : py event :=
    match ev_send e with
    | None => Val e
    | Some s =>
        let? r := (if String.eqb (tp_config t) "FABRIC_1D" || String.eqb (tp_config t) "FABRIC_1D_RING" then
              match fs_1d s with
              | None => Raised "KeyError"
              | Some (start, range) => find_path_1d (ev_sx e, ev_sy e) (ev_dst e) (ev_dev e) (fs_chan s) start range (fs_mux s) (ev_noc e)
              end
            else if String.eqb (tp_config t) "FABRIC_2D" || String.eqb (tp_config t) "FABRIC_2D_TORUS" then
              match fs_2d s with
              | None => Raised "KeyError"
              | Some (ns, ew, w, mc) => find_path_2d (ev_sx e, ev_sy e) (ev_dst e) (ev_dev e) (fs_chan s) ns ew w mc (fs_mux s) (ev_noc e)
              end
            else Processing) in
        Val (mkEvent (ev_time e) (ev_dev e) (ev_sx e) (ev_sy e) (ev_proc e) (ev_noc e) (ev_dst e)
               (Some (mkSend (fs_chan s) (fs_mux s) (fs_1d s) (fs_2d s) (Some (fst r)))) (Some (snd r)))
    end.
  (* 594: the key (src_device_id, sx, sy, proc, timestamp) *)
  Definition string_ltb (a b : string) : bool := match String.compare a b with Lt => true | _ => false end.
  Definition key_lt (a b : event) : bool :=
    (ev_dev a <? ev_dev b) || ((ev_dev a =? ev_dev b) &&
    ((ev_sx a <? ev_sx b) || ((ev_sx a =? ev_sx b) &&
    ((ev_sy a <? ev_sy b) || ((ev_sy a =? ev_sy b) &&
    (string_ltb (ev_proc a) (ev_proc b) || (String.eqb (ev_proc a) (ev_proc b) && (ev_time a <? ev_time b)))))))).
  Fixpoint pmap (f : event -> py event) (l : list event) : py (list event) :=
    match l with
    | [] => Val []
    | e :: l' => let? e' := f e in let? r := pmap f l' in Val (e' :: r)
    end.
  (* 506-601: what is written; on a ProcessingError nothing is written, other exceptions end the program *)
  Definition process_traces (files : list (list event)) (remove : bool) : py (list event) :=
    let all := by_time (concat files) in
    let all := if remove then desync_filter all else all in
    let? all := pmap elaborate all in
    Val (sort key_lt all).
End Topology.
