(* Model of tt_npe/scripts/generate_multichip_data.py: a generator of timeline files with random transfers. The random numbers and the
   arguments of the command line are arguments. Numbers are exact (the script divides floats and rounds to two decimals); the fields
   of the file that are not computed (common_info, chips) and printing are left out. [Diverge]: a loop that is not left after the given
   number of iterations. No proofs in this file. *)
From Coq Require Import ZArith QArith Qminmax String List Bool.
From Verif Require Import Base Util Device.
Import ListNotations.
Local Open Scope list_scope.
Open Scope Z_scope.

(* an entry of a list of links: [device, row, column, type] *)
Definition plink : Type := (Z * Z * Z * link_type)%type.
Definition ltype_eqb (a b : link_type) : bool :=
  match a, b with NOC0_EAST, NOC0_EAST | NOC0_SOUTH, NOC0_SOUTH | NOC1_NORTH, NOC1_NORTH | NOC1_WEST, NOC1_WEST => true | _, _ => false end.
Definition plink_eqb (a b : plink) : bool :=
  let '(d, r, c, t) := a in let '(d', r', c', t') := b in (d =? d') && (r =? r') && (c =? c') && ltype_eqb t t'.

(** * Routes: 134-219 *)
(* while current != end: record current; move *)
Fixpoint walk (fuel : nat) (move : Z -> Z) (cur last : Z) : outcome (list Z) :=
  match fuel with
  | O => Diverge
  | S fuel => if cur =? last then Ok [] else let! r := walk fuel move (move cur) last in Ok (cur :: r)
  end.
(* with MAX = n - 1: 167-170, 178-181; 192-195, 203-206 *)
Definition wrap_up (n x : Z) : Z := if x =? n - 1 then 0 else x + 1.
Definition wrap_down (n x : Z) : Z := if x =? 0 then n - 1 else x - 1.
(* positions are (row, column). The first loop ends in the row or column of the end. *)
Definition generate_route_segment (fuel : nat) (rows cols dev : Z) (s e : Z * Z) (noc : noc_type) : outcome (list plink) :=
  match noc with
  | NOC0 =>
      let! cs := walk fuel (wrap_up cols) (snd s) (snd e) in
      let! rs := walk fuel (wrap_up rows) (fst s) (fst e) in
      Ok (map (fun c => (dev, fst s, c, NOC0_EAST)) cs ++ map (fun r => (dev, r, snd e, NOC0_SOUTH)) rs)
  | NOC1 =>
      let! rs := walk fuel (wrap_down rows) (fst s) (fst e) in
      let! cs := walk fuel (wrap_down cols) (snd s) (snd e) in
      Ok (map (fun r => (dev, r, snd s, NOC1_NORTH)) rs ++ map (fun c => (dev, fst e, c, NOC1_WEST)) cs)
  end.
(* 222-230, with an injection rate of 28.1 bytes per cycle (252) *)
Definition estimate_transfer_time (bytes : Z) : Z := Z.max 40 (bytes * 10 / 281).

(** * Transfers: 246-372 *)
(* the numbers drawn for one transfer; the destination is the first one drawn that is not the source (320-328) *)
Record draw : Type := mkDraw {
  dr_bytes : Z;              (* 251 *)
  dr_inter : bool;           (* random.random() < 0.6 *)
  dr_dev : Z;                (* 262 *)
  dr_src : Z * Z; dr_dst : Z * Z;
  dr_noc : noc_type;
  dr_start : Z }.
Record gen_transfer : Type := mkGen {
  gt_id : Z; gt_bytes : Z; gt_dev : Z; gt_src : Z * Z; gt_dst : Z * Z; gt_noc : noc_type;
  gt_start : Z; gt_end : Z; gt_links : list plink }.
(* A transfer between chips: find_optimal_path calls select_optimal_channel_for_route (fabric_post_process.py:140-174), whose
   dictionary links_to_neighbors is never filled (137), so that the list of possible paths is empty and its assertion fails (171). *)
Definition generate_transfer (fuel : nat) (rows cols devices id : Z) (r : draw) : outcome gen_transfer :=
  if dr_inter r && (1 <? devices) then StdThrow "AssertionError"
  else
    let! ls := generate_route_segment fuel rows cols (dr_dev r) (dr_src r) (dr_dst r) (dr_noc r) in
    Ok (mkGen id (dr_bytes r) (dr_dev r) (dr_src r) (dr_dst r) (dr_noc r) (dr_start r) (dr_start r + estimate_transfer_time (dr_bytes r)) ls).
Fixpoint generate_transfers (fuel : nat) (rows cols devices id : Z) (rs : list draw) : outcome (list gen_transfer) :=
  match rs with
  | [] => Ok []
  | r :: rs => let! t := generate_transfer fuel rows cols devices id r in
               let! ts := generate_transfers fuel rows cols devices (id + 1) rs in Ok (t :: ts)
  end.

(** * Use of links: 374-404 *)
Record usage : Type := mkUsage { us_start : Z; us_end : Z; us_demand : Q; us_id : Z }.
(* all_links_used[link].append(u) *)
Fixpoint add_usage (m : list (plink * list usage)) (l : plink) (u : usage) : list (plink * list usage) :=
  match m with
  | [] => [(l, [u])]
  | (k, us) :: m' => if plink_eqb k l then (k, us ++ [u]) :: m' else (k, us) :: add_usage m' l u
  end.
Definition record_usage (m : list (plink * list usage)) (t : gen_transfer) : list (plink * list usage) :=
  let duration := gt_end t - gt_start t + 1 in
  if (duration <=? 0) || (match gt_links t with [] => true | _ => false end) then m
  else fold_left (fun m l => add_usage m l (mkUsage (gt_start t) (gt_end t) (inject_Z (gt_bytes t) / inject_Z duration) (gt_id t))) (gt_links t) m.

(** * Timesteps: 406-516 *)
(* for t in range(start_ts, end_ts + 1) *)
Definition covers_step (cpt t : Z) (u : usage) : bool := (us_start u / cpt <=? t) && (t <=? (us_end u - 1) / cpt).
(* timestep_link_bins[t], timestep_transfer_bins[t] *)
Definition link_bin (cpt t : Z) (m : list (plink * list usage)) : list (plink * Q) :=
  flat_map (fun e => map (fun u => (fst e, us_demand u)) (filter (covers_step cpt t) (snd e))) m.
Definition transfer_bin (cpt t : Z) (m : list (plink * list usage)) : list Z :=
  nodup Z.eq_dec (flat_map (fun e => map us_id (filter (covers_step cpt t) (snd e))) m).
(* 442-446 *)
Fixpoint add_demand (m : list (plink * Q)) (l : plink) (q : Q) : list (plink * Q) :=
  match m with
  | [] => [(l, 0 + q)]
  | (k, x) :: m' => if plink_eqb k l then (k, x + q) :: m' else (k, x) :: add_demand m' l q
  end%Q.
Definition aggregate (bin : list (plink * Q)) : list (plink * Q) := fold_left (fun m e => add_demand m (fst e) (snd e)) bin [].
Definition max_link_bw : Q := 281 # 10.
Definition qsum (l : list Q) : Q := fold_left Qplus l 0%Q.
Definition of_noc (noc : noc_type) (l : plink) : bool :=
  match snd l, noc with NOC0_EAST, NOC0 | NOC0_SOUTH, NOC0 | NOC1_NORTH, NOC1 | NOC1_WEST, NOC1 => true | _, _ => false end.
Record gen_step : Type := mkStep {
  gs_start : Z; gs_end : Z; gs_active : list Z;
  gs_demands : list (plink * Q);                  (* not sorted *)
  gs_demand : Q; gs_util : Q;                     (* avg_link_demand, avg_link_util *)
  gs_noc_demand : noc_type -> Q; gs_noc_util : noc_type -> Q }.
(* 428-431: num_link_types_per_noc = 4 *)
Definition num_links_per_noc (rows cols : Z) : Q := inject_Z (rows * cols * 4).
Definition generate_step (rows cols cpt : Z) (m : list (plink * list usage)) (t : Z) : gen_step :=
  let ds := aggregate (link_bin cpt t m) in
  let pct := (100 / max_link_bw)%Q in
  let per noc := filter (fun e => of_noc noc (fst e)) ds in
  mkStep (t * cpt) ((t + 1) * cpt) (transfer_bin cpt t m) ds
    (qsum (map snd ds) * pct / (2 * num_links_per_noc rows cols))%Q
    (qsum (map (fun e => Qmin max_link_bw (snd e)) ds) * pct / (2 * num_links_per_noc rows cols))%Q
    (fun noc => qsum (map (fun e => pct * snd e) (per noc)) / num_links_per_noc rows cols)%Q
    (fun noc => qsum (map (fun e => Qmin 100 (pct * snd e)) (per noc)) / num_links_per_noc rows cols)%Q.
Definition max_cycle (ts : list gen_transfer) : Z := fold_left Z.max (map gt_end ts) 0.
(* 421-426: max() of an empty sequence is a ValueError; ceil((max + cpt) / cpt) *)
Definition num_timesteps (cpt : Z) (ts : list gen_transfer) : Z := (max_cycle ts + cpt + cpt - 1) / cpt.
Definition generate (fuel : nat) (rows cols devices cpt : Z) (rs : list draw) : outcome (list gen_transfer * list gen_step) :=
  let! ts := generate_transfers fuel rows cols devices 0 rs in
  match ts with
  | [] => StdThrow "ValueError"
  | _ => let m := fold_left record_usage ts [] in
         Ok (ts, map (generate_step rows cols cpt m) (zrange 0 (num_timesteps cpt ts - 1)))
  end.
