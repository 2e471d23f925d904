(* Property theorems C09-C14 (npeUtil.hpp). Specifications: SpecUtil.v. *)
From Coq Require Import ZArith String List Bool Sorting.Sorted Permutation.
From Verif Require Import Base Util SpecUtil UtilProofs.
Import ListNotations.
Open Scope Z_scope.

(** ** C09 Multicast sets enumerate exactly their cores *)
(* For every list of well-formed rectangles (ordered corners): iteration ends and yields the cells of the
   rectangles, rectangle after rectangle, row-major, each once. *)
Theorem C09_iteration_enumerates : forall m,
  Forall wf_rect m -> exists l, mcast_coords m = Ok l /\ enumerates_all m l.
Proof. exact mcast_iteration_spec. Qed.
Print Assumptions C09_iteration_enumerates.
Theorem C09_grid_size_is_count : forall m l,
  Forall wf_rect m ->
  Forall (fun g => (c_row (g_end g) - c_row (g_start g) + 1) * (c_col (g_end g) - c_col (g_start g) + 1) < 2 ^ 31) m ->
  enumerates_all m l -> Z.of_nat (List.length l) < 2 ^ 64 ->
  grid_size m = Ok (Z.of_nat (List.length l)).
Proof. exact grid_size_spec. Qed.
Print Assumptions C09_grid_size_is_count.
(* the specification determines the list *)
Theorem C09_spec_is_functional : forall g l1 l2, enumerates g l1 -> enumerates g l2 -> l1 = l2.
Proof. exact enumerates_unique. Qed.
Print Assumptions C09_spec_is_functional.
(* The constructor's condition is a disjunction: an inverted rectangle is accepted, iterates over four
   cells that are not in the rectangle (which is empty) and reports a size near 2^64. *)
Theorem C09_inverted_rectangle_refuted : exists s e m,
  mcast_make s e = Ok m /\
  (exists l, mcast_coords m = Ok l /\ List.length l = 4%nat) /\
  (forall g c, In g m -> ~ in_rect g c) /\ grid_size m = Ok (2 ^ 64 - 8).
Proof. exact inverted_rect_refuted. Qed.
Print Assumptions C09_inverted_rectangle_refuted.
(* A rectangle whose last row is the largest int16_t is never left by the iteration. *)
Theorem C09_last_row_overflow_refuted : exists s e m,
  mcast_make s e = Ok m /\ forall fuel, mc_walk fuel m (mc_begin m) = None.
Proof. exact last_row_refuted. Qed.
Print Assumptions C09_last_row_overflow_refuted.
Example C09_example :
  let m := [mkGrid (mkCoord 1 2 3) (mkCoord 1 3 4); mkGrid (mkCoord 1 0 0) (mkCoord 1 0 0)] in
  mcast_coords m = Ok [mkCoord 1 2 3; mkCoord 1 2 4; mkCoord 1 3 3; mkCoord 1 3 4; mkCoord 1 0 0] /\
  Forall wf_rect m /\ grid_size m = Ok 5.
Proof.
  split; [reflexivity|split; [|reflexivity]].
  repeat constructor; cbn; try discriminate.
Qed.

(** ** C10 Equal keys have equal hashes *)
Theorem C10_coord : forall a b, coord_eqb a b = true -> hash_coord a = hash_coord b.
Proof. exact coord_hash. Qed.
Print Assumptions C10_coord.
Theorem C10_mcast_same_chips : forall a b,
  mcast_eqb a b = true ->
  map (fun g => (c_dev (g_start g), c_dev (g_end g))) a = map (fun g => (c_dev (g_start g), c_dev (g_end g))) b ->
  hash_mcast a = hash_mcast b.
Proof. exact mcast_hash_same_device. Qed.
Print Assumptions C10_mcast_same_chips.
(* equality of multicast destinations ignores the chip, hashing does not *)
Theorem C10_mcast_refuted : exists a b, mcast_eqb a b = true /\ hash_mcast a <> hash_mcast b.
Proof. exact mcast_hash_refuted. Qed.
Print Assumptions C10_mcast_refuted.
Example C10_example : coord_eqb (mkCoord 1 2 3) (mkCoord 1 2 3) = true /\
  hash_coord (mkCoord 1 2 3) <> hash_coord (mkCoord 1 3 2).
Proof. split; [reflexivity|vm_compute; discriminate]. Qed.

(** ** C11 The hash mixer loses no information *)
Theorem C11_distribute32 : bijective_on (word 32) distribute32.
Proof. exact distribute32_bijective. Qed.
Print Assumptions C11_distribute32.
Theorem C11_distribute64 : bijective_on (word 64) distribute64.
Proof. exact distribute64_bijective. Qed.
Print Assumptions C11_distribute64.
Theorem C11_combine_value : forall seed h1 h2,
  word 64 h1 -> word 64 h2 -> hash_combine seed h1 = hash_combine seed h2 -> h1 = h2.
Proof. exact hash_combine_inj. Qed.
Print Assumptions C11_combine_value.
Theorem C11_combine_seed : forall s1 s2 h,
  word 64 s1 -> word 64 s2 -> hash_combine s1 h = hash_combine s2 h -> s1 = s2.
Proof. exact hash_combine_seed_inj. Qed.
Print Assumptions C11_combine_seed.
Example C11_example : distribute32 1 = 636682240 /\ word 64 (hash_combine 7 9) /\ hash_combine 7 9 <> hash_combine 7 10.
Proof. split; [reflexivity|split; [split; [vm_compute; discriminate|reflexivity]|vm_compute; discriminate]]. Qed.

(** ** C12 Modular wrapping is a true Euclidean remainder *)
Theorem C12_wrapToRange : forall n r,
  0 < r <= 2 ^ 62 -> exists v, wrapToRange n r = Ok v /\ is_remainder n r v.
Proof. exact wrapToRange_spec. Qed.
Print Assumptions C12_wrapToRange.
Theorem C12_modulo : forall n m, 0 < m -> exists v, modulo n m = Ok v /\ is_remainder n m v.
Proof. exact modulo_spec. Qed.
Print Assumptions C12_modulo.
Theorem C12_remainder_unique : forall n r v w, is_remainder n r v -> is_remainder n r w -> v = w.
Proof. exact is_remainder_unique. Qed.
Print Assumptions C12_remainder_unique.
(* as used by routing: a 32-bit position plus or minus one, a grid dimension; the result fits back *)
Theorem C12_routing_operands : forall x range,
  - 2 ^ 31 <= x < 2 ^ 31 -> 0 < range < 2 ^ 31 ->
  exists v, wrapToRange x range = Ok v /\ is_remainder x range v /\ i32 v = v.
Proof. exact wrap_no_overflow_routing. Qed.
Print Assumptions C12_routing_operands.
(* beyond 2^62 the intermediate sum can overflow *)
Theorem C12_huge_range_refuted : exists n r, 0 < r < 2 ^ 63 /\ 0 <= n < 2 ^ 63 /\ wrapToRange n r = UB "signed overflow".
Proof. exact wrap_huge_refuted. Qed.
Print Assumptions C12_huge_range_refuted.
Example C12_example : wrapToRange (-1) 10 = Ok 9 /\ modulo (-23) 10 = Ok 7.
Proof. split; reflexivity. Qed.

(** ** C13 uniquify keeps the set and sorts it *)
Theorem C13_uniquify : forall l,
  StronglySorted Z.lt (uniquify Z.ltb Z.eqb l) /\ (forall x, In x (uniquify Z.ltb Z.eqb l) <-> In x l).
Proof. exact uniquify_Z_spec. Qed.
Print Assumptions C13_uniquify.
(* for every sorting algorithm std::sort may use *)
Theorem C13_any_sort : forall l s, Permutation l s -> StronglySorted Z.le s ->
  StronglySorted Z.lt (unique Z.eqb s) /\ (forall x, In x (unique Z.eqb s) <-> In x l).
Proof. exact unique_any_sort. Qed.
Print Assumptions C13_any_sort.
Example C13_example : uniquify Z.ltb Z.eqb [3; 1; 2; 3; 1] = [1; 2; 3].
Proof. reflexivity. Qed.

(** ** C14 Zone iteration reports exactly the open zones *)
(* after k steps: the enclosing zones are those open after the first k events, each with the number of
   earlier begins of the same name *)
Theorem C14_open_zones : forall l k st,
  (k <= List.length l)%nat -> open_at (firstn k l) st ->
  exists it, iterate k (zi_make l) = Ok it /\ zi_index it = k /\ Forall2 (zone_entry l) st (zi_enclosing it).
Proof. exact iterate_ok. Qed.
Print Assumptions C14_open_zones.
Theorem C14_mismatch_is_an_error : forall l k,
  (k <= List.length l)%nat -> (forall st, ~ open_at (firstn k l) st) ->
  iterate k (zi_make l) = Throw UNDEF_ERR.
Proof. exact iterate_err. Qed.
Print Assumptions C14_mismatch_is_an_error.
Theorem C14_well_nested : forall l, well_nested l ->
  exists it, iterate (List.length l) (zi_make l) = Ok it /\ zi_enclosing it = [] /\ zi_is_end it = true.
Proof. exact well_nested_walk. Qed.
Print Assumptions C14_well_nested.
Theorem C14_past_the_end : forall l it j, iterate (List.length l) (zi_make l) = Ok it ->
  iterate (List.length l + j) (zi_make l) = Ok it /\ zi_is_end it = true.
Proof. exact iterate_end. Qed.
Print Assumptions C14_past_the_end.
Example C14_example :
  let b n := mkZone 0 n ZONE_START in let e n := mkZone 1 n ZONE_END in
  let l := [b "A"; b "B"; e "B"; b "B"; e "B"; e "A"]%string in
  well_nested l /\ open_at (firstn 4 l) [0; 3]%nat /\
  (exists it, iterate 4 (zi_make l) = Ok it /\ zi_enclosing it = [(b "A"%string, 0); (b "B"%string, 1)]).
Proof.
  cbv zeta. split; [|split].
  - apply (wn_pair _ [_; _; _; _] _ []); auto using wn_nil.
    apply (wn_pair _ [] _ [_; _]); auto using wn_nil.
    apply (wn_pair _ [] _ []); auto using wn_nil.
  - apply (open_start [_; _; _] [0]%nat); auto.
    apply (open_end [_; _] [0]%nat 1%nat (mkZone 0 "B" ZONE_START)); auto.
    apply (open_start [_] [0]%nat); auto. apply (open_start [] []); auto. constructor.
  - eexists. split; reflexivity.
Qed.
