(* Concrete workloads, used by the examples beside the theorems and as witnesses. Not part of the model. *)
From Coq Require Import ZArith String List Bool.
From Verif Require Import Base Arith Util Device Workload DepTracker Rates Stats Engine.
Import ListNotations.
Local Open Scope string_scope.
Local Open Scope list_scope.
Open Scope Z_scope.

(* one order of the hash containers *)
Definition same_links (_ : Z) (l : list Z) : list Z := l.
Definition same_buckets (bs : list bucket) : list bucket := bs.

(* (chip, row, column) *)
Definition at_core (c : Z * Z * Z) : coord := let '(d, r, k) := c in Coord_make d r k.
Section Cases.
  Context (A : arith).
  (* one packet, 1 byte per cycle, NoC 0 *)
  Definition hop (bytes : Z) (src dst : Z * Z * Z) (off group index parent : Z) : transfer (F A) :=
    tr_make bytes 1 (at_core src) (Unicast (at_core dst)) (f_lit A 1 1) off NOC0 "" "WRITE" group index parent.
  Definition xfer (bytes : Z) (src dst : Z * Z * Z) (off : Z) : transfer (F A) := hop bytes src dst off (-1) (-1) (-1).
  (* one phase, the same golden window on two chips *)
  Definition build (ts : list (transfer (F A))) : workload (F A) :=
    match addPhase (setGoldenResultCycles empty_workload [(0, (0, 1000)); (1, (0, 1000))]) ts with
    | Ok (w, _) => w
    | _ => empty_workload
    end.

  (* three transfers of one lane *)
  Definition wl_lane : workload (F A) :=
    build [xfer 100 (0,1,1) (0,1,5) 0; xfer 10 (0,1,1) (0,1,5) 0; xfer 350 (0,1,1) (0,1,5) 0].
  (* two transfers of chip 0 and one of chip 1, from the same row and column *)
  Definition wl_chips : workload (F A) :=
    build [xfer 100 (0,1,1) (0,1,5) 0; xfer 100 (0,1,1) (0,1,5) 0; xfer 100 (1,1,1) (1,1,5) 0].
  (* two transfers that share everything *)
  Definition wl_share : workload (F A) := build [xfer 100 (0,1,1) (0,1,5) 0; xfer 100 (0,1,1) (0,1,5) 20].
  (* one transfer that starts at cycle 2^24 + 1 *)
  Definition wl_late : workload (F A) := build [xfer 1 (0,1,1) (0,1,5) 16777217].
  (* two group members that are each other's parent *)
  Definition wl_cycle : workload (F A) := build [hop 100 (0,1,1) (0,1,5) 0 7 0 1; hop 100 (0,1,5) (0,1,8) 0 7 1 0].
  (* two hops over two chips *)
  Definition wl_hops : workload (F A) := build [hop 100 (0,1,1) (0,1,5) 0 7 0 (-1); hop 100 (1,1,5) (1,1,8) 0 7 1 0].
  (* two hops on one chip *)
  Definition wl_hops1 : workload (F A) := build [hop 100 (0,1,1) (0,1,5) 0 7 0 (-1); hop 100 (0,1,5) (0,1,8) 0 7 1 0].
  (* the parent of the second transfer does not exist *)
  Definition wl_orphan : workload (F A) := build [xfer 100 (0,1,1) (0,1,5) 0; hop 100 (0,3,5) (0,3,8) 0 7 1 0].
  (* 1000 packets of one byte *)
  Definition wl_slow : workload (F A) :=
    build [tr_make 1 1000 (at_core (0,1,1)) (Unicast (at_core (0,1,5))) (f_lit A 281 10) 0 NOC0 "" "WRITE" (-1) (-1) (-1)].
  (* 100 packets of 8192 bytes at 28.1 bytes per cycle *)
  Definition bulk (src : Z * Z * Z) (dst : noc_dest) (off : Z) (event : string) : transfer (F A) :=
    tr_make 8192 100 (at_core src) dst (f_lit A 281 10) off NOC0 "" event (-1) (-1) (-1).
  (* a transfer with injection rate -1 *)
  Definition wl_negative : workload (F A) :=
    build [tr_make 100 1 (at_core (0,1,1)) (Unicast (at_core (0,1,5))) (f_lit A (-1) 1) 0 NOC0 "" "WRITE" (-1) (-1) (-1)].
  Definition one_core (c : Z * Z * Z) : noc_dest := Multicast [mkGrid (at_core c) (at_core c)].
  (* two multicasts that meet only at their destination *)
  Definition wl_mcasts : workload (F A) := build [bulk (0,3,1) (one_core (0,3,4)) 0 "WRITE_MULTICAST"; bulk (0,1,4) (one_core (0,3,4)) 0 "WRITE_MULTICAST"].
  (* three unicasts: the first two share links, all share the destination; the last starts at cycle 50 *)
  Definition wl_meet : workload (F A) :=
    build [bulk (0,3,1) (Unicast (at_core (0,3,4))) 0 "WRITE"; bulk (0,3,2) (Unicast (at_core (0,3,4))) 0 "WRITE"; bulk (0,1,4) (Unicast (at_core (0,3,4))) 50 "WRITE"].
End Cases.

(* the states of the transfers of a workload when all are live, before congestion is modelled *)
Definition live_states (A : arith) (d : device) (wl : workload (F A)) : list (tstate (F A)) :=
  match sim_init A same_links same_buckets d 100 wl with
  | Ok s => match updateTransferBandwidth A d (sm_sts A s) (seq 0 (List.length (sm_sts A s))) with Ok sts => sts | _ => [] end
  | _ => []
  end.

(* what is read off a state of a run *)
Definition view_of {A : arith} (s : sim A) :=
  (sm_curr A s, map (fun x => (s_tr x, s_dep x, s_req x, s_start x, s_end x, s_done x)) (sm_sts A s), sm_trk A s,
   map snd (sm_queue A s), sm_live A s).
