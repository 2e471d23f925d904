(* Proofs about the Python bindings (C61-C63). *)
From Coq Require Import ZArith Lia Bool String List Sorting.Permutation ZifyBool.
From Verif Require Import Base Arith Util Device SpecDevice Workload SpecWorkload Stats Engine Api Bindings SpecApi SpecBindings UtilProofs WorkloadProofs TrackerProofs ApiProofs.
Import ListNotations.
Local Open Scope list_scope.
Open Scope Z_scope.
Ltac Zify.zify_post_hook ::= idtac.

Section Proofs.
  Context (A : arith).

  Lemma cast_ok lo hi z : lo <= z < hi -> cast_int A lo hi (PyInt A z) = Ok z.
  Proof. intros H. unfold cast_int. replace ((lo <=? z) && (z <? hi)) with true by lia. reflexivity. Qed.
  Lemma cast_iff lo hi z : (exists r, cast_int A lo hi (PyInt A z) = Ok r) <-> lo <= z < hi.
  Proof. split; [|intros H; exists z; apply cast_ok; exact H]. intros (r & H). unfold cast_int in H. destruct ((lo <=? z) && (z <? hi)) eqn:E; [lia|discriminate]. Qed.
  Lemma cast_res lo hi z r : cast_int A lo hi (PyInt A z) = Ok r -> r = z /\ lo <= z < hi.
  Proof. unfold cast_int. destruct ((lo <=? z) && (z <? hi)) eqn:E; [|discriminate]. intros H. injection H as <-. split; [reflexivity|lia]. Qed.

  (** ** C61 *)
  Lemma eth_set_new m c v : ~ In c (map fst m) -> eth_set A m c v = m ++ [(c, v)].
  Proof.
    induction m as [|[c' v'] m IH]; intros H; [reflexivity|]. cbn [eth_set map fst] in *. destruct (coord_eqb c' c) eqn:E.
    - exfalso. apply H. left. unfold coord_eqb in E. destruct c', c. cbn in E. f_equal; lia.
    - rewrite IH by (intros K; apply H; right; exact K). reflexivity.
  Qed.
  Definition eth_state (e : coord * D A) : pyval A :=
    PyTuple A [PyInt A (c_dev (fst e)); PyInt A (c_row (fst e)); PyInt A (c_col (fst e)); PyFloat A (snd e)].
  Lemma unpickle_entry m c v : int16_coord c -> unpickle_eth A m (eth_state (c, v)) = Ok (eth_set A m c v).
  Proof.
    intros (H1 & H2 & H3). unfold int16 in *. change (2 ^ 15) with 32768 in *. unfold unpickle_eth, eth_state, cast_int32. cbn [cast_tuple bind item nth_error fst snd].
    change (2 ^ 31) with 2147483648. rewrite !cast_ok by lia. cbn [bind cast_double]. unfold Coord_make. rewrite !i16_id by (change (2 ^ 15) with 32768; lia). destruct c; reflexivity.
  Qed.
  Lemma unpickle_map l : Forall (fun e => int16_coord (fst e)) l -> forall m, NoDup (map fst (m ++ l)) -> foldM (unpickle_eth A) (map eth_state l) m = Ok (m ++ l).
  Proof.
    induction 1 as [|[c v] l H _ IH]; intros m N; [cbn [map foldM]; rewrite app_nil_r; reflexivity|]. cbn [map foldM]. rewrite unpickle_entry by exact H. cbn [bind].
    rewrite eth_set_new.
    - rewrite IH; [rewrite <- app_assoc; reflexivity|]. rewrite <- app_assoc. exact N.
    - rewrite map_app in N. cbn [map fst] in N. apply NoDup_remove_2 in N. intros K. apply N. apply in_or_app. left. exact K.
  Qed.
  Theorem device_roundtrip us ds eth : uint64 us -> typed_stats ds -> Permutation eth (ds_eth A ds) ->
    exists ds', unpickle_device A (pickle_device A us ds eth) = Ok (us, ds') /\ same_to_python ds ds'.
  Proof.
    intros HU (H1 & H2 & H3 & HE & HN) HP. unfold uint64 in *.
    assert (FE : Forall (fun e => int16_coord (fst e)) eth) by (rewrite Forall_forall in *; intros e He; apply HE; eapply Permutation_in; eassumption).
    assert (NE : NoDup (map fst ([] ++ eth))) by (apply (Permutation_NoDup (l := map fst (ds_eth A ds))); [apply Permutation_map; symmetry; exact HP|exact HN]).
    unfold unpickle_device, pickle_device, cast_size. cbn [cast_tuple bind List.length Nat.eqb negb]. 
    cbn [item nth_error bind cast_bool cast_double cast_list]. rewrite !cast_ok by assumption. cbn [bind].
    change (map _ eth) with (map eth_state eth). rewrite (unpickle_map eth FE [] NE). cbn [bind app]. eexists. split; [reflexivity|]. split; [reflexivity|]. split; [reflexivity|exact HP].
  Qed.
  Theorem stats_roundtrip st : NoDup (map fst st) ->
    Forall (fun e => int16 (fst e) /\ uint64 (fst (fst (snd e))) /\ typed_stats (snd (fst (snd e))) /\ Permutation (snd (snd e)) (ds_eth A (snd (fst (snd e))))) st ->
    exists st', unpickle_stats A (pickle_stats A st) = Ok st' /\ Forall2 (@kept A) st st'.
  Proof.
    intros N F. unfold unpickle_stats, pickle_stats. cbn [cast_tuple bind List.length Nat.eqb negb item nth_error].
    match goal with |- context[foldM ?f _ []] => set (g := f) end.
    assert (K : forall st, NoDup (map fst st) -> Forall (fun e => int16 (fst e) /\ uint64 (fst (fst (snd e))) /\ typed_stats (snd (fst (snd e))) /\ Permutation (snd (snd e)) (ds_eth A (snd (fst (snd e))))) st ->
      forall m, (forall k, In k (map fst m) -> ~ In k (map fst st)) ->
      exists st', foldM g (map (fun e => (PyInt A (fst e), PyState A (pickle_device A (fst (fst (snd e))) (snd (fst (snd e))) (snd (snd e))))) st) m = Ok (m ++ st') /\ Forall2 (@kept A) st st').
    { clear N F st. induction st as [|[k [[us ds] eth]] st IH]; intros N F m HM; cbn [map foldM fst snd] in *; [exists []; rewrite app_nil_r; split; [reflexivity|constructor]|].
      pose proof (Forall_inv F) as (F1 & F2 & F3 & F4). pose proof (Forall_inv_tail F) as F'. cbn [fst snd] in F1, F2, F3, F4. apply NoDup_cons_iff in N as (N1 & N'). destruct (device_roundtrip us ds eth F2 F3 F4) as (ds' & E & S).
      destruct (IH N' F' (m ++ [(k, (us, ds'))])) as (st' & E' & S').
      { intros k0 H0 H1. rewrite map_app in H0. apply in_app_or in H0 as [H0|[<-|[]]]; [apply (HM k0 H0); right; exact H1|exact (N1 H1)]. }
      exists ((k, (us, ds')) :: st'). split; [|constructor; [split; [reflexivity|split; [reflexivity|exact S]]|exact S']].
      unfold g at 1. cbn [fst snd]. unfold cast_int16. rewrite cast_ok by exact F1. cbn [bind]. rewrite E. cbn [bind].
      replace (existsb _ m) with false; [rewrite E'; rewrite <- app_assoc; reflexivity|]. symmetry. apply not_true_iff_false. intros K. apply existsb_exists in K as (x & K1 & K2).
      apply (HM k); [|left; reflexivity]. apply in_map_iff. exists x. split; [lia|exact K1]. }
    destruct (K st N F [] (fun k H => False_ind _ H)) as (st' & E & S). exists st'. split; [exact E|exact S].
  Qed.

  (** ** C62 *)
  Theorem init_iff (cfg : config (F A)) :
    (forall d, InitAPI A cfg = Ok (Some d) <-> In (cf_device cfg, d) documented_devices /\ good_config cfg) /\
    (InitAPI A cfg = Ok None <-> ~ exists d, In (cf_device cfg, d) documented_devices /\ good_config cfg).
  Proof.
    destruct (make_iff A cfg) as (H1 & H2 & H3 & H4). unfold InitAPI. split.
    - intros d. rewrite <- H1. destruct (npeAPI_make A cfg) as [d'|e|e|e| | |]; split; try discriminate; intros E; injection E as <-; reflexivity.
    - destruct H4 as [(d & E)|[E|E]]; rewrite E.
      + split; [discriminate|]. intros N. exfalso. apply N. exists d. apply H1. exact E.
      + split; [|reflexivity]. intros _ (d & K1 & K2). destruct H2 as [H2 _]. exact (H2 E d K1).
      + split; [|reflexivity]. intros _ (d & K1 & K2). destruct H3 as [H3 _]. destruct (H3 E) as (_ & K). exact (K K2).
  Qed.

  (** ** C63 *)
  Lemma arg_ok {T} (x : outcome T) r : py_arg x = Ok r <-> x = Ok r.
  Proof. destruct x; cbn [py_arg]; split; try discriminate; tauto. Qed.
  Theorem coord_iff dev row col : ((exists c, py_Coord A (PyInt A dev) (PyInt A row) (PyInt A col) = Ok c) <-> int32 dev /\ int32 row /\ int32 col) /\
    forall c, py_Coord A (PyInt A dev) (PyInt A row) (PyInt A col) = Ok c -> (c = mkCoord dev row col <-> int16 dev /\ int16 row /\ int16 col).
  Proof.
    unfold py_Coord, cast_int32. split; [split|].
    - intros (c & H). apply bind_ok in H as (a & Ha & H). apply bind_ok in H as (b & Hb & H). apply bind_ok in H as (e & He & _). apply (proj1 (arg_ok _ _)) in Ha. apply (proj1 (arg_ok _ _)) in Hb. apply (proj1 (arg_ok _ _)) in He.
      apply cast_res in Ha as (_ & Ha), Hb as (_ & Hb), He as (_ & He). split; [exact Ha|split; [exact Hb|exact He]].
    - intros (H1 & H2 & H3). rewrite !cast_ok by assumption. cbn [py_arg bind]. eexists. reflexivity.
    - intros c H. apply bind_ok in H as (a & Ha & H). apply bind_ok in H as (b & Hb & H). apply bind_ok in H as (e & He & H). apply (proj1 (arg_ok _ _)) in Ha. apply (proj1 (arg_ok _ _)) in Hb. apply (proj1 (arg_ok _ _)) in He.
      apply cast_res in Ha as (-> & _), Hb as (-> & _), He as (-> & _). injection H as <-. unfold Coord_make. split.
      + intros E. injection E as E1 E2 E3. pose proof (i16_range dev). pose proof (i16_range row). pose proof (i16_range col). unfold int16. rewrite <- E1 at 1 2. rewrite <- E2 at 1 2. rewrite <- E3 at 1 2. auto.
      + intros (H1 & H2 & H3). rewrite !i16_id by assumption. reflexivity.
  Qed.
  Theorem transfer_iff psize npkts src dst rate off noc :
    ((exists t, py_Transfer A (PyInt A psize) (PyInt A npkts) src dst (PyFloat A rate) (PyInt A off) noc = Ok t) <-> uint32 psize /\ uint32 npkts /\ int32 off) /\
    forall t, py_Transfer A (PyInt A psize) (PyInt A npkts) src dst (PyFloat A rate) (PyInt A off) noc = Ok t ->
      t_psize t = psize /\ t_npkts t = npkts /\ t_src t = src /\ t_dst t = dst /\ t_noc t = noc /\ t_rate t = f_of_d A rate /\ t_gid t = -1 /\ t_gpar t = -1 /\
      (t_off t = off <-> 0 <= off) /\ (t_bytes t = psize * npkts <-> psize * npkts < 2 ^ 32).
  Proof.
    unfold py_Transfer, cast_uint32, cast_int32. split; [split|].
    - intros (t & H). apply bind_ok in H as (a & Ha & H). apply bind_ok in H as (b & Hb & H). apply bind_ok in H as (r & _ & H). apply bind_ok in H as (e & He & _).
      apply (proj1 (arg_ok _ _)) in Ha. apply (proj1 (arg_ok _ _)) in Hb. apply (proj1 (arg_ok _ _)) in He.
      apply cast_res in Ha as (_ & Ha), Hb as (_ & Hb), He as (_ & He). split; [exact Ha|split; [exact Hb|exact He]].
    - intros (H1 & H2 & H3). rewrite !cast_ok by assumption. cbn [py_arg bind cast_float cast_double]. eexists. reflexivity.
    - intros t H. apply bind_ok in H as (a & Ha & H). apply bind_ok in H as (b & Hb & H). apply bind_ok in H as (r & Hr & H). apply bind_ok in H as (e & He & H).
      apply (proj1 (arg_ok _ _)) in Ha. apply (proj1 (arg_ok _ _)) in Hb. apply (proj1 (arg_ok _ _)) in He. cbn [cast_float cast_double bind py_arg] in Hr. injection Hr as <-.
      apply cast_res in Ha as (-> & Ha), Hb as (-> & Hb), He as (-> & He). injection H as <-. unfold tr_make. cbn [t_psize t_npkts t_src t_dst t_noc t_rate t_gid t_gpar t_off t_bytes].
      do 8 (split; [reflexivity|]). unfold u32. change (2 ^ 31) with 2147483648 in He. change (2 ^ 32) with 4294967296 in *. split; split; intros H.
      + pose proof (Z.mod_pos_bound off 4294967296). lia.
      + apply Z.mod_small. lia.
      + pose proof (Z.mod_pos_bound (psize * npkts) 4294967296). lia.
      + apply Z.mod_small. nia.
  Qed.
  Lemma put_new k v m : ~ In k (map fst m) -> golden_put m k v = m ++ [(k, v)].
  Proof.
    induction m as [|[k' v'] m IH]; intros H; [reflexivity|]. cbn [golden_put map fst] in *. destruct (k' =? k) eqn:E; [exfalso; apply H; left; lia|].
    rewrite IH by (intros K; apply H; right; exact K). reflexivity.
  Qed.
  Lemma golden_set wl m : NoDup (map fst m) -> Forall (fun e => int16 (fst e) /\ uint32 (fst (snd e)) /\ uint32 (snd (snd e))) m ->
    py_setGolden A wl (golden_dict A m) = Ok (setGoldenResultCycles wl m).
  Proof.
    intros N F. unfold py_setGolden. match goal with |- context[foldM ?f _ []] => set (g := f) end.
    assert (K : forall m, Forall (fun e => int16 (fst e) /\ uint32 (fst (snd e)) /\ uint32 (snd (snd e))) m -> forall m0, NoDup (map fst (m0 ++ m)) -> foldM g (golden_dict A m) m0 = Ok (m0 ++ m)).
    { clear N F m. induction 1 as [|[k [s f]] m (H1 & H2 & H3) _ IH]; intros m0 N; cbn [golden_dict map foldM fst snd] in *; [rewrite app_nil_r; reflexivity|].
      unfold g at 1. cbn [fst snd cast_tuple bind List.length Nat.eqb negb item nth_error]. unfold cast_int16, cast_uint32. rewrite !cast_ok by assumption. cbn [bind].
      rewrite put_new; [change (map _ m) with (golden_dict A m); rewrite IH by (rewrite <- app_assoc; exact N); rewrite <- app_assoc; reflexivity|].
      rewrite map_app in N. cbn [map fst] in N. apply NoDup_remove_2 in N. intros K. apply N. apply in_or_app. left. exact K. }
    rewrite (K m F [] N). reflexivity.
  Qed.
  Theorem golden_given wl m : m <> [] -> NoDup (map fst m) -> Forall (fun e => int16 (fst e) /\ uint32 (fst (snd e)) /\ uint32 (snd (snd e))) m ->
    exists wl', py_setGolden A wl (golden_dict A m) = Ok wl' /\ wl_phases wl' = wl_phases wl /\
      (forall k w, k <> MESH_DEVICE -> In (k, w) m -> getGoldenResultCycles wl' k = Ok w) /\
      exists w, getGoldenResultCycles wl' MESH_DEVICE = Ok w /\ smallest_window w (map snd m).
  Proof.
    intros NE N F. exists (setGoldenResultCycles wl m). split; [apply golden_set; assumption|]. split; [reflexivity|]. split.
    - intros k w K1 K2. apply golden_others; assumption.
    - apply golden_mesh; [exact NE|]. rewrite Forall_map. eapply Forall_impl; [|exact F]. cbn beta. intros e (_ & H). exact H.
  Qed.
End Proofs.
