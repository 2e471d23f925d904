(* Proofs about the layout of the timeline files (C81). *)
From Coq Require Import ZArith Lia Bool String List Floats.SpecFloat Permutation.
From Verif Require Import Base Arith Util Json Device SpecDevice Workload SpecWorkload WorkloadProofs TrackerProofs Rates Stats Engine SpecEngine Timeline SpecTimeline TimelineSplit SpecZones ZoneProofs Files
  Layout SpecLayout UtilProofs.
Import ListNotations.
Local Open Scope string_scope.
Local Open Scope list_scope.
Open Scope Z_scope.
Ltac Zify.zify_post_hook ::= idtac.

(** * Reading back *)
Lemma read_num x : r_num (j_num x) = Some (v_num x).
Proof. destruct x; reflexivity. Qed.
Lemma read_float x : r_num (j_float x) = Some (v_float x).
Proof. apply read_num. Qed.
Lemma all_map {X Y} (f : json -> option Y) (g : X -> json) (h : X -> Y) l : (forall x, In x l -> f (g x) = Some (h x)) -> all f (map g l) = Some (map h l).
Proof.
  induction l as [|x l IH]; intros H; [reflexivity|]. cbn [map all]. rewrite H by (left; reflexivity). cbn [obind].
  rewrite IH by (intros y Hy; apply H; right; exact Hy). reflexivity.
Qed.
Lemma all_ints l : all r_int (map JInt l) = Some l.
Proof. rewrite (all_map _ _ (fun z => z)) by reflexivity. rewrite map_id. reflexivity. Qed.
Lemma read_coord c : r_coord (JArray (j_coord c)) = Some c.
Proof. destruct c; reflexivity. Qed.
Lemma read_coords l : all r_coord (map (fun c => JArray (j_coord c)) l) = Some l.
Proof. rewrite (all_map _ _ (fun c => c)) by (intros; apply read_coord). rewrite map_id. reflexivity. Qed.
Lemma read_noc n : r_noc (JString (noc_name n)) = Some n.
Proof. destruct n; reflexivity. Qed.
Lemma read_hop h : r_hop (JString (hop_text h)) = Some h.
Proof. destruct h as [[]|[]|[]]; reflexivity. Qed.
Lemma read_risc r : r_risc (JString (risc_name r)) = Some r.
Proof. destruct r; reflexivity. Qed.
Lemma read_link x : r_link (JArray (j_coord (fst x) ++ [JString (hop_text (snd x))])) = Some x.
Proof. destruct x as [[a b c] h]. unfold j_coord. cbn [fst snd app r_link c_dev c_row c_col r_coord obind]. rewrite read_hop. reflexivity. Qed.
Lemma read_demand x : r_demand (j_demand x) = Some (v_demand x).
Proof. destruct x as [[[a b c] h] v]. unfold j_demand, j_coord. cbn [fst snd app r_demand c_dev c_row c_col r_coord obind]. rewrite read_hop, read_float. reflexivity. Qed.
Lemma read_nocs a b c x y z : r_nocs (j_nocs a b c x y z) = Some (mkNv (v_num a) (v_num b) (v_num c) (v_num x) (v_num y) (v_num z)).
Proof. unfold r_nocs, j_nocs. cbn [at_key get_field field String.eqb Ascii.eqb Bool.eqb obind]. rewrite !read_num. reflexivity. Qed.
Lemma read_segment s : r_segment (j_segment s) = Some (v_segment s).
Proof.
  unfold r_segment, j_segment. cbn [at_key get_field field String.eqb Ascii.eqb Bool.eqb obind r_int r_list]. rewrite read_coord. cbn [obind]. rewrite read_coords. cbn [obind].
  rewrite read_noc, read_float. cbn [obind]. rewrite (all_map _ _ (fun x => x)) by (intros; apply read_link). rewrite map_id. reflexivity.
Qed.
Lemma read_group g : r_group (j_group g) = Some (v_group g).
Proof.
  unfold r_group, j_group. cbn [at_key get_field field String.eqb Ascii.eqb Bool.eqb obind r_int r_list r_text r_flag]. rewrite read_coord. cbn [obind]. rewrite read_coords. cbn [obind].
  rewrite (all_map _ _ v_segment) by (intros; apply read_segment). reflexivity.
Qed.
Definition zjson_rect' (P : zjson -> Prop) (H : forall a i e l, Forall P l -> P (ZJ a i e l)) : forall z, P z :=
  fix go z := match z with ZJ a i e l => H a i e l ((fix all l := match l return Forall P l with [] => Forall_nil P | x :: l' => Forall_cons x (go x) (all l') end) l) end.
Lemma read_zone z : r_zone (j_zone z) = Some (v_zone z).
Proof.
  induction z as [a i e l IH] using zjson_rect'.
  assert (E : forall f, (forall x, In x l -> f (j_zone x) = Some (v_zone x)) ->
    (fix each (l : list json) : option (list zone_view) := match l with [] => Some [] | x :: l' => obind (f x) (fun z => obind (each l') (fun zs => Some (z :: zs))) end)
      (map j_zone l) = Some (map v_zone l)).
  { intros f. clear IH. induction l as [|x l IHl]; intros H; [reflexivity|]. cbn [map]. rewrite H by (left; reflexivity). cbn [obind].
    rewrite IHl by (intros y Hy; apply H; right; exact Hy). reflexivity. }
  specialize (E r_zone (proj1 (Forall_forall _ _) IH)).
  destruct i as [i|]; destruct e as [e|]; cbn [j_zone zj_id zj_end zj_start zj_zones app r_zone at_key maybe get_field field String.eqb Ascii.eqb Bool.eqb obind r_text option_map v_zone];
    rewrite ?read_num; cbn [obind option_map]; rewrite E; reflexivity.
Qed.
Lemma read_step_9 s e act dem a0 a1 a2 a3 a4 a5 a6 a7 a8 : r_step (j_step (mkStep f32A s e act dem [a0; a1; a2; a3; a4; a5; a6; a7; a8])) =
  Some (mkTv s e act (map v_demand dem) (v_num a0) (v_num a1) (v_num a2) (mkNv (v_num a3) (v_num a4) (v_num a5) (v_num a6) (v_num a7) (v_num a8))).
Proof.
  unfold r_step, j_step. cbn [tp_start tp_end tp_active tp_demand tp_avgs nth_error at_key get_field field String.eqb Ascii.eqb Bool.eqb obind r_int r_list].
  rewrite all_ints. cbn [obind]. rewrite (all_map _ _ v_demand) by (intros; apply read_demand). cbn [obind]. rewrite !read_num. cbn [obind]. rewrite read_nocs. reflexivity.
Qed.
Lemma read_step d ids t p : step_of f32A d ids t = Ok p -> r_step (j_step p) = Some (v_step t p).
Proof. unfold step_of. intros H. apply bind_ok in H as (dem & _ & H). injection H as <-. rewrite read_step_9. reflexivity. Qed.
Lemma read_chips m : r_chips (j_chips m) = Some m.
Proof.
  unfold j_chips, r_chips. induction m as [|[k l] m IH]; [reflexivity|]. cbn [map fst snd r_list]. rewrite all_ints. cbn [obind]. rewrite IH. reflexivity.
Qed.
Lemma read_info name model cpt d ds more : r_info (JObject (j_info name model cpt d ds ++ more)) = Some (v_info name model cpt d ds).
Proof.
  unfold r_info, j_info. cbn [app at_key get_field field String.eqb Ascii.eqb Bool.eqb obind r_int r_text]. rewrite !read_num. cbn [obind]. rewrite read_nocs. reflexivity.
Qed.
Lemma split_key name model cpt d ds more : get_field (JObject (j_info name model cpt d ds ++ more)) "split_info" = get_field (JObject more) "split_info".
Proof. reflexivity. Qed.
Lemma read_split total k r : r_split (j_split_info total k r) = Some (mkPv k total (rg_first r) (rg_last r) (rg_start r) (rg_end r)).
Proof. reflexivity. Qed.

Lemma coord_eqb_refl c : coord_eqb c c = true.
Proof. unfold coord_eqb. rewrite !Z.eqb_refl. reflexivity. Qed.
Section File.
  Context (gord : gmap -> gmap) (zord : zone_map -> zone_map) (zord_perm : map_order zord).
  Context (name model : string) (cpt : Z) (d : device) (topo : topology) (wl : workload (F f32A)).
  Lemma read_root ds sts r tl : v1 f32A gord zord d topo wl ds sts r = Ok (Some tl) ->
    all r_root (map (j_root wl) (tl_zones _ tl)) = Some (map (fun e => (fst e, map v_zone (snd e))) (tl_zones _ tl)).
  Proof.
    intros H. pose proof (v1_zones f32A gord zord d topo wl ds sts r tl H) as HZ. apply all_map. intros [[c p] l] Hin.
    assert (N : some_zone (wl_zones wl) (c, p) = false -> l = []).
    { intros HN. assert (Q : exists e, In e (zord (wl_zones wl)) /\ (c, p) = fst e /\ zone_forest r (snd e) = Ok l).
      { clear - HZ Hin. induction HZ as [|e o es os (E1 & E2) HZ IH]; [destruct Hin|]. destruct Hin as [->|Hin]; [exists e; cbn [fst snd] in *; split; [left; reflexivity|auto]|].
        destruct (IH Hin) as (e' & I & Q). exists e'. split; [right; exact I|exact Q]. }
      destruct Q as ([k zs] & I & E & F). cbn [fst snd] in *. subst k. apply (Permutation_in _ (zord_perm _)) in I.
      destruct zs as [|z zs]; [cbn in F; injection F as <-; reflexivity|]. exfalso. unfold some_zone in HN.
      assert (C : existsb (fun e => coord_eqb (fst (fst e)) c && String.eqb (risc_name (snd (fst e))) (risc_name p) && match snd e with [] => false | _ => true end) (wl_zones wl) = true).
      { apply existsb_exists. exists ((c, p), z :: zs). split; [exact I|]. cbn [fst snd]. rewrite coord_eqb_refl, String.eqb_refl. reflexivity. }
      cbn [fst snd] in HN. rewrite C in HN. discriminate HN. }
    unfold j_root, r_root. cbn [fst snd].
    destruct (some_zone (wl_zones wl) (c, p)); cbn [app at_key maybe get_field field String.eqb Ascii.eqb Bool.eqb obind r_list option_map]; rewrite read_coord; cbn [obind]; rewrite read_risc; cbn [obind].
    - rewrite (all_map _ _ v_zone) by (intros; apply read_zone). reflexivity.
    - rewrite (N eq_refl). reflexivity.
  Qed.
  Lemma read_steps ids ts ps : Forall2 (fun t p => step_of f32A d ids t = Ok p) ts ps -> all r_step (map j_step ps) = Some (map (fun x => v_step (fst x) (snd x)) (combine ts ps)).
  Proof.
    induction 1 as [|t p ts ps E H IH]; [reflexivity|]. cbn [map all combine fst snd]. rewrite (read_step _ _ _ _ E). cbn [obind]. rewrite IH. reflexivity.
  Qed.
  Lemma read_timeline ds sts r tl sp more : v1 f32A gord zord d topo wl ds sts r = Ok (Some tl) -> maybe "split_info" r_split (JObject more) = Some sp ->
    read_file (j_timeline wl (j_info name model cpt d ds ++ more) tl) =
      Some (mkFv (v_info name model cpt d ds) sp (tl_chips _ tl) (map v_group (tl_groups _ tl)) (map (fun e => (fst e, map v_zone (snd e))) (tl_zones _ tl))
              (map (fun x => v_step (fst x) (snd x)) (combine (shown r (ds_ts _ ds)) (tl_steps _ tl)))).
  Proof.
    intros H HS. unfold read_file, j_timeline. cbn [at_key get_field field String.eqb Ascii.eqb Bool.eqb obind r_list]. rewrite read_info. cbn [obind].
    unfold maybe in *. rewrite split_key, HS. cbn [obind]. rewrite read_chips. cbn [obind]. rewrite (all_map _ _ v_group) by (intros; apply read_group). cbn [obind].
    rewrite (read_root _ _ _ _ H). cbn [obind]. destruct (v1_inv f32A gord zord d topo wl _ _ _ _ H) as (gs & tgs & _ & _ & _ & HT). rewrite (read_steps _ _ _ HT). reflexivity.
  Qed.
End File.

(** * The legacy format *)
Lemma read_cell c : r_cell (JArray (j_cell c)) = Some (at_cell c).
Proof. destruct c; reflexivity. Qed.
Lemma read_hop0 x : r_hop0 (JArray (j_cell (fst x) ++ [JString (hop_text (snd x))])) = Some (at_cell (fst x), snd x).
Proof. destruct x as [[a b c] h]. unfold j_cell. cbn [fst snd app r_hop0 c_row c_col r_cell obind]. rewrite read_hop. reflexivity. Qed.
Lemma read_demand0 (x : coord * hop_name * F f32A) :
  r_demand0 (JArray (j_cell (fst (fst x)) ++ [JString (hop_text (snd (fst x))); j_float (snd x)])) = Some (at_cell (fst (fst x)), snd (fst x), v_float (snd x)).
Proof. destruct x as [[[a b c] h] v]. unfold j_cell. cbn [fst snd app r_demand0 c_row c_col r_cell obind]. rewrite read_hop, read_float. reflexivity. Qed.
Lemma read_transfer0 d s v : v0_transfer_of f32A d s = Ok v -> r_transfer0 (j_transfer0 v) = Some (v_transfer0 s v).
Proof.
  unfold v0_transfer_of. intros H. apply bind_ok in H as (g & _ & H). injection H as <-. unfold r_transfer0, j_transfer0.
  cbn [v0_id v0_dst v0_state v0_route at_key get_field field String.eqb Ascii.eqb Bool.eqb obind r_int r_list r_text]. rewrite read_cell. cbn [obind].
  rewrite (all_map _ _ at_cell) by (intros; apply read_cell). cbn [obind]. rewrite read_noc, read_float. cbn [obind].
  rewrite (all_map _ _ (fun x => (at_cell (fst x), snd x))) by (intros; apply read_hop0). reflexivity.
Qed.
Lemma read_step0 d t p : v0_step_of f32A d t = Ok p -> r_step0 (j_step0 p) = Some (v_step0 t p).
Proof.
  unfold v0_step_of. intros H. apply bind_ok in H as (dem & _ & H). injection H as <-. unfold r_step0, j_step0.
  cbn [tp_start tp_end tp_active tp_demand tp_avgs nth_error at_key get_field field String.eqb Ascii.eqb Bool.eqb obind r_int r_list].
  rewrite all_ints. cbn [obind]. rewrite (all_map _ _ (fun x => (at_cell (fst (fst x)), snd (fst x), v_float (snd x)))) by (intros; apply read_demand0). cbn [obind].
  rewrite !read_num. reflexivity.
Qed.
Lemma all_combine {X Y V} (f : json -> option V) (g : Y -> json) (h : X -> Y -> V) (R : X -> Y -> Prop) xs ys : (forall x y, R x y -> f (g y) = Some (h x y)) -> Forall2 R xs ys ->
  all f (map g ys) = Some (map (fun e => h (fst e) (snd e)) (combine xs ys)).
Proof. intros H. induction 1 as [|x y xs ys E HF IH]; [reflexivity|]. cbn [map all combine fst snd]. rewrite (H _ _ E). cbn [obind]. rewrite IH. reflexivity. Qed.
Lemma read_old name model cpt d ds (sts : list (tstate spec_float)) doc : v0 f32A d ds sts = Ok doc -> read_legacy (j_legacy name model cpt d ds doc) = Some (v_legacy name model cpt d ds sts doc).
Proof.
  unfold v0. intros H. apply bind_ok in H as (trs & HT & H). apply bind_ok in H as (ps & HP & H). injection H as <-. apply mapM_Forall2 in HT. apply mapM_Forall2 in HP.
  unfold read_legacy, j_legacy, j_info0, r_info0. cbn [v0_transfers v0_steps at_key get_field field String.eqb Ascii.eqb Bool.eqb obind r_int r_list r_text]. rewrite !read_num. cbn [obind].
  rewrite (all_combine _ _ v_transfer0 _ _ _ (fun x y => read_transfer0 d x y) HT). cbn [obind].
  rewrite (all_combine _ _ v_step0 _ _ _ (fun x y => read_step0 d x y) HP). reflexivity.
Qed.

(** * Schemas *)
Ltac keys := repeat constructor; cbn [In map fst]; intuition discriminate.
Ltac obj := apply fits_obj; [keys|]; let H := fresh in intros ? ? H; cbn [In] in H; repeat (destruct H as [H|H]; [injection H as <- <-|]); [..|destruct H].
Ltac at_field := eexists; split; [cbn [In app]; repeat ((left; reflexivity) || right)|].
Section Fits.
  Context (sh : shape) (good : spec_float -> Prop) (good_fits : forall x, good x -> fits sh (j_num x)).
  Lemma fits_ints l : fits (SList SInt) (JArray (map JInt l)).
  Proof. constructor. apply Forall_forall. intros x Hx. apply in_map_iff in Hx as (z & <- & _). constructor. Qed.
  Lemma fits_coord c : fits s_coord (JArray (j_coord c)).
  Proof. repeat constructor. Qed.
  Lemma fits_coords l : fits (SList s_coord) (JArray (map (fun c => JArray (j_coord c)) l)).
  Proof. constructor. apply Forall_forall. intros x Hx. apply in_map_iff in Hx as (c & <- & _). apply fits_coord. Qed.
  Lemma fits_map {X} s (f : X -> json) l : (forall x, In x l -> fits s (f x)) -> fits (SList s) (JArray (map f l)).
  Proof. intros H. constructor. apply Forall_forall. intros y Hy. apply in_map_iff in Hy as (x & <- & I). auto. Qed.
  Lemma fits_nocs a b c x y z : Forall good [a; b; c; x; y; z] -> fits (s_nocs "NOC0" "NOC1" sh) (j_nocs a b c x y z).
  Proof. intros H. repeat (apply Forall_cons_iff in H as [? H]). obj; at_field; obj; at_field; auto. Qed.
  Lemma fits_segment s : good (d_of_f f32A (sg_rate _ s)) -> fits (s_segment "NOC0" "NOC1" sh) (j_segment s).
  Proof.
    intros H. obj; at_field; try (constructor; fail); try apply fits_coord; try apply fits_coords; [| |].
    - constructor. destruct (sg_noc f32A s); cbn; auto.
    - apply good_fits. exact H.
    - apply fits_map. intros x _. repeat constructor.
  Qed.
  Lemma fits_group g : Forall (fun s => good (d_of_f f32A (sg_rate _ s))) (tg_route _ g) -> fits (s_transfer "NOC0" "NOC1" "id" sh) (j_group g).
  Proof.
    intros H. obj; at_field; try (constructor; fail); try apply fits_coord; try apply fits_coords.
    apply fits_map. intros s Hs. apply fits_segment. rewrite Forall_forall in H. auto.
  Qed.
  Lemma fits_step d ids t p : step_of f32A d ids t = Ok p -> Forall good (step_numbers t) -> Forall (fun x => good (d_of_f f32A (snd x))) (tp_demand _ p) ->
    fits (s_step "avg_link_demand" "avg_link_util" sh) (j_step p).
  Proof.
    unfold step_of. intros H HS HD. apply bind_ok in H as (dem & _ & H). injection H as <-. cbn [tp_demand] in HD. unfold step_numbers in HS.
    repeat (apply Forall_cons_iff in HS as [? HS]). unfold j_step. cbn [tp_start tp_end tp_active tp_demand tp_avgs nth_error].
    obj; at_field; try (constructor; fail); try apply fits_ints; auto.
    apply fits_map. intros x Hx. rewrite Forall_forall in HD. specialize (HD x Hx). constructor. unfold j_coord. cbn [app].
    repeat (constructor; [constructor; fail|]). constructor; [apply good_fits; exact HD|constructor].
  Qed.
  Lemma fits_info name model cpt d ds more : NoDup (map fst more) -> (forall k, In k (map fst more) -> k = "split_info") -> Forall good (info_numbers ds) ->
    fits (s_info "NOC0" "NOC1" sh) (JObject (j_info name model cpt d ds ++ more)).
  Proof.
    intros HM HK HS. unfold info_numbers in HS. repeat (apply Forall_cons_iff in HS as [? HS]). apply fits_obj.
    - rewrite map_app. assert (ND : NoDup (map fst (j_info name model cpt d ds))) by keys.
      assert (DJ : forall k, In k (map fst (j_info name model cpt d ds)) -> ~ In k (map fst more)).
      { intros k I I'. apply HK in I'. subst k. cbn in I. intuition discriminate. }
      clear - ND DJ HM. induction (map fst (j_info name model cpt d ds)) as [|k l IH]; [exact HM|]. cbn [app]. inversion ND as [|? ? N1 N2]; subst. constructor.
      + intros I. apply in_app_iff in I as [I|I]; [exact (N1 I)|exact (DJ k (or_introl eq_refl) I)].
      + apply IH; [exact N2|]. intros k' I. apply DJ. right. exact I.
    - intros ? ? I. cbn [In] in I. repeat (destruct I as [I|I]; [injection I as <- <-; at_field; try (constructor; fail); auto; try (constructor; cbn; auto; fail)|]); [| |destruct I].
      + constructor. destruct (dv_arch d); cbn; auto.
      + apply fits_nocs. repeat constructor; assumption.
  Qed.
  Lemma chip_four ew es m : chip_entries ew es = Ok (Some m) -> Forall (fun e => List.length (snd e) = 4%nat) m.
  Proof.
    revert m. induction es as [|e es IH]; intros m H; [injection H as <-; constructor|]. cbn [chip_entries] in H. apply bind_ok in H as (c & HC & H). destruct c as [c|]; [|discriminate H].
    apply bind_ok in H as (cs & HCs & H). destruct cs as [cs|]; [|discriminate H]. injection H as <-. constructor; [|exact (IH _ HCs)].
    unfold chip_entry in HC. destruct (snd e); try discriminate. destruct l as [|[] [|[] [|]]]; try discriminate. destruct (ew =? 0); [discriminate|]. destruct (_ && _); [discriminate|].
    injection HC as <-. reflexivity.
  Qed.
  Lemma chips_four d topo m : chips_of d topo = Ok (Some m) -> Forall (fun e => List.length (snd e) = 4%nat) m.
  Proof.
    unfold chips_of. destruct (Nat.ltb 1 (dv_chips d)); [|intros H; injection H as <-; repeat constructor]. destruct topo as [| | |j]; try discriminate.
    destruct (get_field j "device_id_to_fabric_node_id") as [[| | | | | |co]|]; try (intros H; injection H as <-; constructor).
    destruct (get_field j "mesh_shapes") as [[| | | | |[|mm [|]]|]|]; try (intros H; injection H as <-; constructor).
    destruct (get_field mm "shape") as [[| | | | |[|a [|b [|]]]|]|]; try (intros H; injection H as <-; constructor).
    intros H. apply bind_ok in H as (x & _ & H). apply bind_ok in H as (ew & _ & H). exact (chip_four _ _ _ H).
  Qed.
  Lemma fits_chips m : Forall (fun e => List.length (snd e) = 4%nat) m -> fits (SDict (STuple [SInt; SInt; SInt; SInt])) (j_chips m).
  Proof.
    intros H. constructor. apply Forall_forall. intros e He. apply in_map_iff in He as (x & <- & I). rewrite Forall_forall in H. specialize (H x I). cbn [snd].
    destruct (snd x) as [|a [|b [|c [|f [|]]]]]; try discriminate. repeat constructor.
  Qed.
  Lemma fits_timeline gord zord name model cpt d topo wl ds sts r tl more : v1 f32A gord zord d topo wl ds sts r = Ok (Some tl) ->
    NoDup (map fst more) -> (forall k, In k (map fst more) -> k = "split_info") -> Forall good (file_numbers ds tl) ->
    fits (emitted_schema sh) (j_timeline wl (j_info name model cpt d ds ++ more) tl).
  Proof.
    intros H HM HK HG. unfold file_numbers in HG. apply Forall_app in HG as [G1 HG]. apply Forall_app in HG as [G2 HG]. apply Forall_app in HG as [G3 G4].
    rewrite Forall_forall in G2, G3, G4.
    assert (HC : chips_of d topo = Ok (Some (tl_chips _ tl))).
    { unfold v1 in H. apply bind_ok in H as ([chips|] & HC & H); [|discriminate]. apply bind_ok in H as (gs & _ & H). cbv zeta in H. apply bind_ok in H as (u & _ & H). apply bind_ok in H as (tgs & _ & H).
      apply bind_ok in H as (zs & _ & H). apply bind_ok in H as (ps & _ & H). injection H as <-. exact HC. }
    destruct (v1_inv f32A gord zord d topo wl _ _ _ _ H) as (gs & tgs & _ & _ & _ & HT). obj; at_field.
    - apply fits_info; assumption.
    - apply fits_chips. exact (chips_four _ _ _ HC).
    - apply fits_map. intros g Hg. apply fits_group. apply Forall_forall. intros s Hs. apply G4. apply in_map_iff. exists s. split; [reflexivity|]. apply in_flat_map. exists g. auto.
    - apply fits_map. intros p Hp.
      assert (Q : exists t, In t (ds_ts _ ds) /\ step_of f32A d (gs_ids gs) t = Ok p).
      { clear - HT Hp. assert (G : forall t, In t (filter (fun t => in_region r (ts_start f32A t) (ts_end f32A t)) (ds_ts f32A ds)) -> In t (ds_ts f32A ds)) by (intros t Ht; apply filter_In in Ht; tauto).
        induction HT as [|t q ts qs E HT IH]; [destruct Hp|]. destruct Hp as [->|Hp]; [exists t; split; [apply G; left; reflexivity|exact E]|]. apply IH; [exact Hp|]. intros t' I. apply G. right. exact I. }
      destruct Q as (t & It & Et). apply (fits_step _ _ _ _ Et).
      + apply Forall_forall. intros x Hx. apply G2. apply in_flat_map. exists t. auto.
      + apply Forall_forall. intros x Hx. apply G3. apply in_map_iff. exists x. split; [reflexivity|]. apply in_flat_map. exists p. auto.
  Qed.
  Lemma fits_cell c : fits (STuple [SInt; SInt]) (JArray (j_cell c)).
  Proof. repeat constructor. Qed.
  Lemma fits_old name model cpt d ds (sts : list (tstate spec_float)) doc : v0 f32A d ds sts = Ok doc -> Forall good (legacy_numbers ds doc) ->
    fits (emitted_legacy sh) (j_legacy name model cpt d ds doc).
  Proof.
    intros H HG. unfold v0 in H. apply bind_ok in H as (trs & HT & H). apply bind_ok in H as (ps & HP & H). injection H as <-. apply mapM_Forall2 in HT. apply mapM_Forall2 in HP.
    unfold legacy_numbers in HG. cbn [v0_transfers v0_steps] in HG. apply Forall_app in HG as [G1 HG]. apply Forall_app in HG as [G2 HG]. apply Forall_app in HG as [G3 G4]. rewrite Forall_forall in G2, G3, G4.
    unfold info_numbers in G1. repeat (apply Forall_cons_iff in G1 as [? G1]).
    obj; at_field.
    - obj; at_field; try (constructor; fail); auto.
    - apply fits_map. intros v Hv. obj; at_field; try (constructor; fail); try apply fits_cell.
      + apply fits_map. intros c _. apply fits_cell.
      + apply fits_map. intros c _. repeat constructor.
      + constructor. destruct (t_noc (s_tr (v0_state f32A v))); cbn; auto.
      + apply good_fits. apply G4. apply in_map_iff. exists v. auto.
    - apply fits_map. intros p Hp. cbn [v0_steps] in Hp.
      assert (Q : exists t, In t (ds_ts _ ds) /\ v0_step_of f32A d t = Ok p).
      { clear - HP Hp. induction HP as [|t q ts qs E HT IH]; [destruct Hp|]. destruct Hp as [->|Hp]; [exists t; split; [left; reflexivity|exact E]|]. destruct (IH Hp) as (t' & I & Q). exists t'. split; [right; exact I|exact Q]. }
      destruct Q as (t & It & Et). assert (GS : Forall good (step_numbers t)) by (apply Forall_forall; intros x Hx; apply G2; apply in_flat_map; exists t; auto).
      assert (GD : Forall (fun x => good (d_of_f f32A (snd x))) (tp_demand _ p)) by (apply Forall_forall; intros x Hx; apply G3; apply in_map_iff; exists x; split; [reflexivity|]; apply in_flat_map; exists p; auto).
      unfold v0_step_of in Et. apply bind_ok in Et as (dem & _ & Et). injection Et as <-. cbn [tp_demand] in GD. unfold step_numbers in GS. repeat (apply Forall_cons_iff in GS as [? GS]).
      unfold j_step0. cbn [tp_start tp_end tp_active tp_demand tp_avgs nth_error]. obj; at_field; try (constructor; fail); try apply fits_ints; auto.
      apply fits_map. intros x Hx. rewrite Forall_forall in GD. specialize (GD x Hx). constructor. unfold j_cell. cbn [app].
      repeat (constructor; [constructor; fail|]). constructor; [apply good_fits; exact GD|constructor].
  Qed.
End Fits.

(** * The files of a run *)
Lemma number_fits l : Forall (fun x => finite x = true \/ number_of l = SOr SNum SNull) l /\ (forall x, finite x = true \/ number_of l = SOr SNum SNull -> fits (number_of l) (j_num x)).
Proof.
  split.
  - apply Forall_forall. intros x Hx. unfold number_of. destruct (forallb finite l) eqn:E; [|right; reflexivity]. left. rewrite forallb_forall in E. auto.
  - intros x [H|H].
    + unfold number_of. destruct (forallb finite l); [|apply fits_or_l]; destruct x; try discriminate; constructor.
    + rewrite H. destruct x; try (apply fits_or_l; constructor); apply fits_or_r; constructor.
Qed.
Lemma other_name n : ~ In (noc_name n) ["NOC_0"; "NOC_1"].
Proof. destruct n; intros [J|[J|[]]]; discriminate J. Qed.
Section Run.
  Context (ord : Z -> list Z -> list Z) (bord : list bucket -> list bucket) (gord : gmap -> gmap) (zord : zone_map -> zone_map) (zord_perm : map_order zord).
  Context (name model : string) (cpt : Z) (d : device) (topo : topology) (wl : workload (F f32A)).
  Lemma emit_count thr stt sts files ds : 0 <= thr -> emitSimTimelineToFile f32A gord zord d topo false thr wl stt sts = Ok files -> stats_get f32A stt MESH_DEVICE = Some ds ->
    (exists k rg o, In (Split f32A k rg o) files) -> num_splits (Z.of_nat (List.length (ds_ts f32A ds))) thr = Z.of_nat (List.length files) - 1.
  Proof.
    intros HT H E (k & rg & o & I). destruct (emit_cases f32A gord zord d topo wl _ _ _ _ _ H E) as (full & _ & HC). cbv zeta in HC.
    destruct HC as [(_ & ->)|(L & N & sp & -> & HF)]; [destruct I as [I|[]]; discriminate I|]. apply Forall2_length' in HF. rewrite seq_length in HF. cbn [List.length].
    rewrite Nat2Z.inj_succ, <- HF, Z2Nat.id; [lia|]. unfold num_splits. apply Z.div_pos; [|lia]. unfold u64. apply Z.mod_pos_bound. lia.
  Qed.
  Theorem run_read thr stt files ds r tl : 0 <= thr -> runWithTimeline f32A ord bord gord zord topo false thr d model cpt wl = Ok (Stats stt, files) ->
    stats_get f32A stt MESH_DEVICE = Some ds ->
    (In (FullV1 f32A (Some tl)) files /\ r = None) \/ (exists k rg, In (Split f32A k rg (Some tl)) files /\ r = Some (k, rg)) ->
    read_file (file_json name model cpt d wl ds thr (match r with None => FullV1 f32A (Some tl) | Some (k, rg) => Split f32A k rg (Some tl) end)) =
      Some (v_file name model cpt d ds (Z.of_nat (List.length files) - 1) r tl).
  Proof.
    intros HT H E HD. destruct (run_emit f32A ord bord gord zord topo d cpt wl _ _ _ _ _ H) as (s & _ & HE). destruct HD as [(I & ->)|(k & rg & I & ->)].
    - pose proof (emit_doc_at f32A gord zord d topo wl thr stt (sm_sts f32A s) files None tl ds HE (or_introl (conj I eq_refl)) E) as HV.
      pose proof (read_timeline gord zord zord_perm name model cpt d topo wl ds (sm_sts f32A s) None tl None [] HV eq_refl) as Q. rewrite app_nil_r in Q. exact Q.
    - assert (HV : v1 f32A gord zord d topo wl ds (sm_sts f32A s) (Some rg) = Ok (Some tl)).
      { apply (emit_doc_at f32A gord zord d topo wl thr stt (sm_sts f32A s) files (Some rg) tl ds HE); [|exact E]. right. exists k, rg. auto. }
      assert (EX : exists k rg o, In (Split f32A k rg o) files) by (exists k, rg, (Some tl); exact I). pose proof (emit_count thr stt _ files ds HT HE E EX) as EN.
      cbn [file_json]. rewrite EN. exact (read_timeline gord zord zord_perm name model cpt d topo wl ds (sm_sts f32A s) (Some rg) tl (Some (mkPv k (Z.of_nat (List.length files) - 1) (rg_first rg) (rg_last rg) (rg_start rg) (rg_end rg)))
        [("split_info", j_split_info (Z.of_nat (List.length files) - 1) k rg)] HV eq_refl).
  Qed.
  Theorem run_layout thr stt files ds r tl : runWithTimeline f32A ord bord gord zord topo false thr d model cpt wl = Ok (Stats stt, files) ->
    stats_get f32A stt MESH_DEVICE = Some ds ->
    (In (FullV1 f32A (Some tl)) files /\ r = None) \/ (exists k rg, In (Split f32A k rg (Some tl)) files /\ r = Some (k, rg)) ->
    fits (emitted_schema (number_of (file_numbers ds tl)))
      (file_json name model cpt d wl ds thr (match r with None => FullV1 f32A (Some tl) | Some (k, rg) => Split f32A k rg (Some tl) end)).
  Proof.
    intros H E HD. destruct (run_emit f32A ord bord gord zord topo d cpt wl _ _ _ _ _ H) as (s & _ & HE). destruct (number_fits (file_numbers ds tl)) as [N1 N2]. destruct HD as [(I & ->)|(k & rg & I & ->)].
    - pose proof (emit_doc_at f32A gord zord d topo wl thr stt (sm_sts f32A s) files None tl ds HE (or_introl (conj I eq_refl)) E) as HV.
      pose proof (fits_timeline _ _ N2 gord zord name model cpt d topo wl ds (sm_sts f32A s) None tl [] HV (NoDup_nil _) (fun k F => match F with end) N1) as Q. rewrite app_nil_r in Q. exact Q.
    - assert (HV : v1 f32A gord zord d topo wl ds (sm_sts f32A s) (Some rg) = Ok (Some tl)).
      { apply (emit_doc_at f32A gord zord d topo wl thr stt (sm_sts f32A s) files (Some rg) tl ds HE); [|exact E]. right. exists k, rg. auto. }
      cbn [file_json]. apply (fits_timeline _ _ N2 gord zord name model cpt d topo wl ds (sm_sts f32A s) (Some rg) tl [_] HV); [repeat constructor; intros []| |exact N1].
      intros k' [<-|[]]. reflexivity.
  Qed.
  Theorem run_old thr stt files ds : runWithTimeline f32A ord bord gord zord topo true thr d model cpt wl = Ok (Stats stt, files) -> stats_get f32A stt MESH_DEVICE = Some ds ->
    exists s doc, succeeds f32A ord bord d (negb (String.eqb model "none")) cpt wl s /\ files = [FullV0 f32A doc] /\
      read_legacy (file_json name model cpt d wl ds thr (FullV0 f32A doc)) = Some (v_legacy name model cpt d ds (sm_sts f32A s) doc) /\
      fits (emitted_legacy (number_of (legacy_numbers ds doc))) (file_json name model cpt d wl ds thr (FullV0 f32A doc)).
  Proof.
    intros H E. destruct (run_emit f32A ord bord gord zord topo d cpt wl _ _ _ _ _ H) as (s & HS & HE). unfold emitSimTimelineToFile in HE. rewrite E in HE. apply bind_ok in HE as (doc & HV & HE).
    injection HE as <-. exists s, doc. split; [exact HS|]. split; [reflexivity|]. split; [exact (read_old name model cpt d ds (sm_sts f32A s) doc HV)|].
    destruct (number_fits (legacy_numbers ds doc)) as [N1 N2]. exact (fits_old _ _ N2 name model cpt d ds (sm_sts f32A s) doc HV N1).
  Qed.
  (* without document: null, or the description of the split alone *)
  Theorem no_document thr ds c : (c = FullV1 f32A None \/ exists k rg, c = Split f32A k rg None) ->
    read_file (file_json name model cpt d wl ds thr c) = None /\ forall sh, ~ fits (emitted_schema sh) (file_json name model cpt d wl ds thr c).
  Proof.
    intros [->|(k & rg & ->)]; (split; [reflexivity|]); intros sh H; inversion H as [| | | | | | | | | | | |? ? _ K]; subst.
    destruct (K "chips" _ (or_intror (or_introl eq_refl))) as (v & I & _). destruct I as [I|[]]. discriminate I.
  Qed.
  Theorem no_document_text thr ds :
    file_json name model cpt d wl ds thr (FullV1 f32A None) = JNull /\
    forall k rg, exists v, file_json name model cpt d wl ds thr (Split f32A k rg None) = JObject [("common_info", JObject [("split_info", v)])] /\
      r_split v = Some (mkPv k (num_splits (Z.of_nat (List.length (ds_ts f32A ds))) thr) (rg_first rg) (rg_last rg) (rg_start rg) (rg_end rg)).
  Proof. split; [reflexivity|]. intros k rg. eexists. split; [reflexivity|]. apply read_split. Qed.
End Run.
Section Keys.
  Context (name model : string) (cpt : Z) (d : device) (wl : workload (F f32A)).
  (* the keys of the schema file are not those of the program *)
  Theorem never_documented thr ds c : ~ fits documented_schema (file_json name model cpt d wl ds thr c) /\ (forall t, c = FullV0 f32A t -> v0_transfers _ t <> [] -> ~ fits documented_legacy (file_json name model cpt d wl ds thr c)).
  Proof.
    assert (NI : forall more v, (forall k x, In (k, x) more -> k = "split_info") -> In ("common_info", v) [("common_info", JObject (j_info name model cpt d ds ++ more))] -> ~ fits (s_info "NOC_0" "NOC_1" SNum) v).
    { intros more v HM [I|[]] F. injection I as <-. inversion F as [| | | | | | | | | | | |? ? _ K]; subst. destruct (K "noc" _ (or_intror (or_intror (or_intror (or_intror (or_intror (or_intror (or_intror (or_intror (or_intror (or_introl eq_refl))))))))))) as (w & I & FW).
      cbn [In] in I. do 12 (destruct I as [I|I]; [discriminate I|]). destruct I as [I|I]; [|apply HM in I; discriminate I]. injection I as <-.
      inversion FW as [| | | | | | | | | | | |? ? _ K']; subst. destruct (K' "NOC_0" _ (or_introl eq_refl)) as (w & I & _). cbn [In] in I. intuition discriminate. }
    split.
    - intros F. destruct c as [t|[t|]|k rg [t|]]; cbn [file_json] in F.
      + unfold j_legacy in F. inversion F as [| | | | | | | | | | | |? ? _ K]; subst. destruct (K "chips" _ (or_intror (or_introl eq_refl))) as (v & I & _). cbn [In] in I. intuition discriminate.
      + unfold j_timeline in F. inversion F as [| | | | | | | | | | | |? ? _ K]; subst. destruct (K "common_info" _ (or_introl eq_refl)) as (v & I & FV). cbn [In] in I.
        destruct I as [I|I]; [|intuition discriminate]. revert FV. apply (NI []); [intros ? ? []|]. rewrite app_nil_r. left. exact I.
      + inversion F.
      + unfold j_timeline in F. inversion F as [| | | | | | | | | | | |? ? _ K]; subst. destruct (K "common_info" _ (or_introl eq_refl)) as (v & I & FV). cbn [In] in I.
        destruct I as [I|I]; [|intuition discriminate]. revert FV. eapply NI; [|left; exact I]. intros k' x [J|[]]. injection J as <- <-. reflexivity.
      + inversion F as [| | | | | | | | | | | |? ? _ K]; subst. destruct (K "chips" _ (or_intror (or_introl eq_refl))) as (v & I & _). cbn [In] in I. intuition discriminate.
    - intros t -> NE F. cbn [file_json] in F. unfold j_legacy in F. inversion F as [| | | | | | | | | | | |? ? _ K]; subst. destruct (K "noc_transfers" _ (or_intror (or_introl eq_refl))) as (v & I & FV).
      cbn [In] in I. destruct I as [I|[I|I]]; [discriminate I| |intuition discriminate]. injection I as <-. inversion FV as [| | | | | | | | |? ? HF| | |]; subst.
      destruct (v0_transfers f32A t) as [|x l]; [contradiction|]. cbn [map] in HF. inversion HF as [|? ? HX _]; subst. unfold j_transfer0 in HX. inversion HX as [| | | | | | | | | | | |? ? _ K']; subst.
      destruct (K' "noc_type" _ (or_intror (or_intror (or_intror (or_intror (or_intror (or_introl eq_refl))))))) as (w & I & FW). cbn [In] in I.
      repeat (destruct I as [I|I]; [try discriminate I|]); [|destruct I]. injection I as <-. inversion FW as [| | | | | |? ? J| | | | | |]; subst. exact (other_name _ J).
  Qed.
End Keys.
