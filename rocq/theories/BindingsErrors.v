(* Lemmas: what the bindings accept and what they do otherwise (C61, C63). *)
From Coq Require Import ZArith Arith Lia ZifyBool ZifyNat String List Bool.
From Verif Require Import Base Arith Util Device SpecDevice Workload Stats Bindings SpecBindings TrackerProofs WorkloadProofs.
Import ListNotations.
Local Open Scope list_scope.
Open Scope Z_scope.
Ltac Zify.zify_post_hook ::= idtac.

Section Errors.
  Context (A : arith).
  Notation pyval := (pyval A).
  (* a value, or an exception *)
  Definition either {T} (x : outcome T) : Prop := (exists a, x = Ok a) \/ raises x.
  Lemma either_ok {T} (a : T) : either (Ok a). Proof. left. eauto. Qed.
  Lemma either_std {T} e : @either T (StdThrow e). Proof. right. exists e. reflexivity. Qed.
  Lemma either_bind {T U} (x : outcome T) (f : T -> outcome U) : either x -> (forall a, either (f a)) -> either (bind x f).
  Proof. intros [[a ->]|[e ->]] H; cbn [bind]; [apply H|apply either_std]. Qed.
  Lemma either_fold {T U} (f : T -> U -> outcome T) l : (forall t u, either (f t u)) -> forall t, either (foldM f l t).
  Proof. intros H. induction l as [|u l IH]; intros t; cbn [foldM]; [apply either_ok|]. apply either_bind; [apply H|exact IH]. Qed.

  Lemma cast_bool_iff v : (exists b, cast_bool A v = Ok b) <-> is_bool A v.
  Proof. unfold is_bool. split; [intros [b H]; destruct v; try discriminate H; eauto|intros [b ->]; eexists; reflexivity]. Qed.
  Lemma cast_int_iff lo hi v : (exists z, cast_int A lo hi v = Ok z) <-> is_int A (fun z => lo <= z < hi) v.
  Proof.
    unfold is_int. split.
    - intros [z H]. destruct v; try discriminate H. unfold cast_int in H. destruct (Z.leb_spec lo z0), (Z.ltb_spec z0 hi); try discriminate H. eauto.
    - intros (z & -> & H). exists z. unfold cast_int. assert (E : (lo <=? z) && (z <? hi) = true) by lia. rewrite E. reflexivity.
  Qed.
  Lemma cast_double_iff v : (exists x, cast_double A v = Ok x) <-> is_number A v.
  Proof. unfold is_number. split; [intros [x H]; destruct v; try discriminate H; eauto|intros [[x ->]|[z ->]]; eexists; reflexivity]. Qed.
  Lemma bool_either v : either (cast_bool A v). Proof. destruct v; first [apply either_ok | apply either_std]. Qed.
  Lemma int_either lo hi v : either (cast_int A lo hi v). Proof. destruct v; try apply either_std. unfold cast_int. destruct (_ && _); [apply either_ok|apply either_std]. Qed.
  Lemma double_either v : either (cast_double A v). Proof. destruct v; first [apply either_ok | apply either_std]. Qed.
  Lemma tuple_either v : either (cast_tuple A v). Proof. destruct v; first [apply either_ok | apply either_std]. Qed.
  Lemma list_either v : either (cast_list A v). Proof. destruct v; first [apply either_ok | apply either_std]. Qed.
  Lemma item_either l i : either (item A l i). Proof. unfold item. destruct (nth_error l i); [apply either_ok|apply either_std]. Qed.

  Lemma eth_either m v : either (unpickle_eth A m v).
  Proof.
    unfold unpickle_eth. apply either_bind; [apply tuple_either|intros t].
    repeat (apply either_bind; [first [apply item_either | apply int_either | apply double_either]|intros]). apply either_ok.
  Qed.
  Theorem device_either v : either (unpickle_device A v).
  Proof.
    unfold unpickle_device. apply either_bind; [apply tuple_either|intros t]. destruct (negb _); [apply either_std|].
    repeat (apply either_bind; [first [apply item_either | apply int_either | apply bool_either | apply double_either | apply list_either | apply either_fold; intros; apply eth_either]|intros]). apply either_ok.
  Qed.
  Theorem stats_either v : either (unpickle_stats A v).
  Proof.
    unfold unpickle_stats. apply either_bind; [apply tuple_either|intros t]. destruct (negb _); [apply either_std|]. apply either_bind; [apply item_either|intros w]. destruct w; try apply either_std.
    apply either_fold. intros m e. apply either_bind; [apply int_either|intros k]. apply either_bind; [destruct (snd e); first [apply device_either | apply either_std]|intros]. apply either_ok.
  Qed.

  Lemma eth_iff m v : (exists m', unpickle_eth A m v = Ok m') <-> is_core A v.
  Proof.
    split.
    - intros [m' H]. unfold unpickle_eth in H. apply bind_ok in H as (t & Ht & H). destruct v; try discriminate Ht. injection Ht as ->.
      destruct t as [|a [|b [|c [|u t]]]]; cbn [item nth_error bind] in H; try discriminate H; repeat (apply bind_ok in H as (? & ? & H)); try discriminate.
      exists a, b, c, u, t. unfold cast_int32 in *.
      split; [reflexivity|]. split; [apply cast_int_iff; eauto|]. split; [apply cast_int_iff; eauto|]. split; [apply cast_int_iff; eauto|]. apply cast_double_iff. eauto.
    - intros (a & b & c & u & t & -> & Ha & Hb & Hc & Hu). apply cast_int_iff in Ha as [za Ha], Hb as [zb Hb], Hc as [zc Hc]. apply cast_double_iff in Hu as [x Hu].
      eexists. unfold unpickle_eth, item, cast_int32. cbn [cast_tuple bind nth_error]. rewrite Ha. cbn [bind]. rewrite Hb. cbn [bind]. rewrite Hc. cbn [bind]. rewrite Hu. cbn [bind]. reflexivity.
  Qed.
  Lemma eths_iff l : forall m, (exists m', foldM (unpickle_eth A) l m = Ok m') <-> Forall (is_core A) l.
  Proof.
    induction l as [|v l IH]; intros m; [split; [constructor|eexists; reflexivity]|]. cbn [foldM]. split.
    - intros [m' H]. apply bind_ok in H as (m1 & H1 & H). constructor; [apply (eth_iff m); eauto|apply (IH m1); eauto].
    - intros H. inversion H as [|? ? H1 H2]. subst. apply (eth_iff m) in H1 as [m1 H1]. apply (IH m1) in H2 as [m2 H2]. exists m2. rewrite H1. exact H2.
  Qed.
  Theorem device_iff v : (exists r, unpickle_device A v = Ok r) <-> is_state A v.
  Proof.
    split.
    - intros [r H]. unfold unpickle_device in H. apply bind_ok in H as (t & Ht & H). destruct v; try discriminate Ht. injection Ht as ->.
      destruct (Nat.eqb_spec (List.length t) 22) as [L|]; [|discriminate H]. cbn [negb] in H.
      do 22 (destruct t as [|? t]; [discriminate L|]). destruct t as [|? t]; [|discriminate L].
      cbn [item nth_error bind] in H. repeat (apply bind_ok in H as (? & ? & H)).
      match goal with K : cast_list A ?w = Ok ?e |- _ => destruct w; try discriminate K; injection K as -> end.
      eexists _, _, _, _, _, _, [_; _; _; _; _; _; _; _; _; _; _; _; _; _; _], _. split; [reflexivity|]. split; [reflexivity|]. unfold cast_size in *.
      split; [apply cast_bool_iff; eauto|]. split; [apply cast_int_iff; eauto|]. split; [apply cast_int_iff; eauto|]. split; [apply cast_int_iff; eauto|].
      split; [apply cast_double_iff; eauto|]. split; [apply cast_int_iff; eauto|]. split; [repeat (apply Forall_cons; [apply cast_double_iff; eexists; eassumption|]); apply Forall_nil|]. eapply eths_iff. eexists. eassumption.
    - intros (c & e & f & g & r & u & xs & eth & -> & L & Hc & He & Hf & Hg & Hr & Hu & Hx & Heth).
      do 15 (destruct xs as [|? xs]; [discriminate L|]). destruct xs as [|? xs]; [|discriminate L].
      repeat match goal with K : Forall _ (_ :: _) |- _ => inversion K; clear K; subst end.
      repeat match goal with K : is_number A _ |- _ => apply cast_double_iff in K; destruct K as [? K] end.
      apply cast_bool_iff in Hc as [? Hc]. apply cast_int_iff in He as [? He], Hf as [? Hf], Hg as [? Hg], Hu as [? Hu].
      assert (Heth' : exists m', foldM (unpickle_eth A) eth [] = Ok m') by (apply eths_iff; assumption). destruct Heth' as [m' Hm].
      eexists. unfold unpickle_device, cast_size. cbn [cast_tuple bind List.app List.length Nat.eqb negb item nth_error].
      repeat (match goal with K : ?x = Ok _ |- context [?x] => rewrite K end; cbn [bind]). cbn [cast_list bind]. rewrite Hm. cbn [bind]. reflexivity.
  Qed.

  (** * Arguments of constructors *)
  Lemma arg_cases {T} (x : outcome T) : either x -> (exists a, py_arg x = Ok a) \/ py_arg x = StdThrow "TypeError".
  Proof. intros [[a ->]|[e ->]]; [left; eexists; reflexivity|right; reflexivity]. Qed.
  Theorem coord_cases a b c : (exists x, py_Coord A a b c = Ok x) \/ py_Coord A a b c = StdThrow "TypeError".
  Proof.
    unfold py_Coord, cast_int32. destruct (arg_cases _ (int_either (- 2 ^ 31) (2 ^ 31) a)) as [[x E]|E]; rewrite E; [|right; reflexivity]. cbn [bind].
    destruct (arg_cases _ (int_either (- 2 ^ 31) (2 ^ 31) b)) as [[y E2]|E2]; rewrite E2; [|right; reflexivity]. cbn [bind].
    destruct (arg_cases _ (int_either (- 2 ^ 31) (2 ^ 31) c)) as [[z E3]|E3]; rewrite E3; [|right; reflexivity]. left. eexists. reflexivity.
  Qed.
  Lemma float_either v : either (cast_float A v). Proof. unfold cast_float. apply either_bind; [apply double_either|intros; apply either_ok]. Qed.
  Theorem transfer_cases p n src dst r o noc : (exists t, py_Transfer A p n src dst r o noc = Ok t) \/ py_Transfer A p n src dst r o noc = StdThrow "TypeError".
  Proof.
    unfold py_Transfer, cast_uint32, cast_int32. destruct (arg_cases _ (int_either 0 (2 ^ 32) p)) as [[x E]|E]; rewrite E; [|right; reflexivity]. cbn [bind].
    destruct (arg_cases _ (int_either 0 (2 ^ 32) n)) as [[y E2]|E2]; rewrite E2; [|right; reflexivity]. cbn [bind].
    destruct (arg_cases _ (float_either r)) as [[z E3]|E3]; rewrite E3; [|right; reflexivity]. cbn [bind].
    destruct (arg_cases _ (int_either (- 2 ^ 31) (2 ^ 31) o)) as [[w E4]|E4]; rewrite E4; [|right; reflexivity]. left. eexists. reflexivity.
  Qed.
End Errors.
Theorem names_bound : Forall (fun n => bound_name DeviceStats_names n = true) read_from_device /\ Forall (fun n => bound_name Stats_names n = true) read_from_result.
Proof. split; repeat constructor. Qed.
