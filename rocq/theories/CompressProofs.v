(* Proofs about the writing of compressed files. *)
From Coq Require Import ZArith Lia String List Bool Arith.
From Verif Require Import Base Files Compress SpecCompress.
Local Open Scope string_scope.

Lemma prefix_cut s : forall n, exists r, s = String.substring 0 n s ++ r /\ (r = "" <-> (String.length s <= n)%nat).
Proof.
  induction s as [|a s IH]; intros n.
  - exists "". destruct n; cbn; split; auto; split; auto; lia.
  - destruct n as [|n].
    + exists (String a s). cbn. split; [reflexivity|]. split; [discriminate|lia].
    + destruct (IH n) as (r & E & H). exists r. cbn. split; [f_equal; exact E|]. rewrite H. lia.
Qed.
Lemma app_nil_str s : s ++ "" = s.
Proof. induction s; cbn; congruence. Qed.
Lemma fits_whole s n : (String.length s <= n)%nat -> String.substring 0 n s = s.
Proof. intros H. destruct (prefix_cut s n) as (r & E & I). apply I in H. subst r. rewrite app_nil_str in E. congruence. Qed.
Lemma put_at dk p s : dk_files (put dk p s) p = Some s.
Proof. cbn. rewrite String.eqb_refl. reflexivity. Qed.
Lemma put_other dk p s q : q <> p -> dk_files (put dk p s) q = dk_files dk q.
Proof. intros H. cbn. destruct (String.eqb_spec p q); congruence. Qed.

(* open, write all, close *)
Lemma written dk p t dk1 o1 dk2 o2 : open_trunc dk p = Some (dk1, o1) -> stream_write dk1 o1 t = (dk2, o2) ->
  dk_files (stream_close dk2 o2) p = Some (String.substring 0 (dk_room dk p) t) /\ others_same dk (stream_close dk2 o2) p /\
  st_good o2 = ((String.length t <? dk_buffer dk) || (String.length t <=? dk_room dk p))%nat.
Proof.
  unfold open_trunc, stream_write. destruct (dk_opens dk p); [|discriminate]. intros E. injection E as <- <-. cbn [st_path st_good].
  change (dk_buffer (put dk p "")) with (dk_buffer dk). change (dk_room (put dk p "") p) with (dk_room dk p).
  destruct (String.length t <? dk_buffer dk)%nat; intros E; injection E as <- <-; unfold stream_close; cbn [st_pending st_path st_good].
  - destruct (String.eqb_spec t "") as [->|].
    + split; [|split; [intros q H; apply put_other, H|reflexivity]]. rewrite put_at. destruct (dk_room dk p); reflexivity.
    + split; [unfold to_disk; rewrite put_at; reflexivity|]. split; [|reflexivity]. intros q H. unfold to_disk. rewrite !put_other; auto.
  - change (String.eqb "" "") with true. cbv iota. split; [unfold to_disk; rewrite put_at; reflexivity|]. split; [|reflexivity]. intros q H. unfold to_disk. rewrite !put_other; auto.
Qed.

Lemma compress_inv z dk s p b dk' : compressToFile z dk s p = Ok (b, dk') ->
  (b = false /\ dk' = dk) \/
  exists cap t, z_bound z (String.length s) = Some cap /\ z_compress z cap s = Some t /\ dk_opens dk p = true /\
    dk_files dk' p = Some (String.substring 0 (dk_room dk p) t) /\ others_same dk dk' p /\
    b = ((String.length t <? dk_buffer dk) || (String.length t <=? dk_room dk p))%nat.
Proof.
  unfold compressToFile. unfold tt_assert. destruct (0 <? String.length s)%nat; [cbn [bind]|discriminate].
  destruct (z_bound z (String.length s)) as [cap|]; [|intros E; injection E as <- <-; auto].
  destruct (z_compress z cap s) as [t|] eqn:T; [|intros E; injection E as <- <-; auto].
  destruct (open_trunc dk p) as [[dk1 o1]|] eqn:O; [|intros E; injection E as <- <-; auto].
  destruct (stream_write dk1 o1 t) as [dk2 o2] eqn:W. intros E. injection E as <- <-.
  destruct (written _ _ _ _ _ _ _ O W) as (A & B & C). right. exists cap, t. repeat split; auto.
  unfold open_trunc in O. destruct (dk_opens dk p); congruence.
Qed.

Lemma compress_succeeds z dk s p : lossless z -> bounded z -> s <> "" -> (forall cap, z_bound z (String.length s) = Some cap -> accepts dk p cap) ->
  exists dk', compressToFile z dk s p = Ok (true, dk') /\ readable z dk' p s /\ others_same dk dk' p.
Proof.
  intros L B N R. destruct (B s) as (cap & c & B1 & B2 & B3). specialize (R cap B1) as (R1 & R2).
  unfold compressToFile. replace (0 <? String.length s)%nat with true by (destruct s; [congruence|reflexivity]).
  cbn [tt_assert bind]. rewrite B1, B2. destruct (open_trunc dk p) as [[dk1 o1]|] eqn:O; [|unfold open_trunc in O; rewrite R1 in O; discriminate].
  destruct (stream_write dk1 o1 c) as [dk2 o2] eqn:W. destruct (written _ _ _ _ _ _ _ O W) as (F & S & G). eexists. split.
  - rewrite G. replace (String.length c <=? dk_room dk p)%nat with true by (symmetry; apply Nat.leb_le; lia). rewrite orb_true_r. reflexivity.
  - split; [|exact S]. exists c. split; [|apply (L cap), B2]. rewrite F, fits_whole by lia. reflexivity.
Qed.
Lemma compress_true z dk s p dk' : lossless z -> compressToFile z dk s p = Ok (true, dk') ->
  others_same dk dk' p /\ (readable z dk' p s \/ exists t, dk_files dk' p = Some t /\ (String.length t < dk_buffer dk)%nat /\ cut_short z dk' p s).
Proof.
  intros L E. apply compress_inv in E as [[? _]|(cap & t & E1 & E2 & E3 & E4 & E5 & E6)]; [discriminate|]. split; [exact E5|].
  destruct (le_lt_dec (String.length t) (dk_room dk p)) as [H|H].
  - left. exists t. rewrite E4, fits_whole by exact H. split; [reflexivity|apply (L cap), E2].
  - right. exists (String.substring 0 (dk_room dk p) t). destruct (prefix_cut t (dk_room dk p)) as (r & F & I). split; [exact E4|]. split.
    + symmetry in E6. apply orb_true_iff in E6 as [E6|E6]; [apply Nat.ltb_lt in E6|apply Nat.leb_le in E6; lia].
      assert (G : (String.length t = String.length (String.substring 0 (dk_room dk p) t) + String.length r)%nat).
      { rewrite F at 1. generalize (String.substring 0 (dk_room dk p) t). intros u. induction u; cbn; congruence. } lia.
    + exists (String.substring 0 (dk_room dk p) t), cap, t, r. repeat split; auto. intros ->. destruct I as [I _]. specialize (I eq_refl). lia.
Qed.
Lemma compress_false z dk s p dk' : compressToFile z dk s p = Ok (false, dk') -> dk' = dk \/ others_same dk dk' p /\ cut_short z dk' p s.
Proof.
  intros E. apply compress_inv in E as [[_ ->]|(cap & t & E1 & E2 & E3 & E4 & E5 & E6)]; [auto|]. right. split; [exact E5|].
  symmetry in E6. apply orb_false_iff in E6 as [_ E6]. apply Nat.leb_gt in E6. destruct (prefix_cut t (dk_room dk p)) as (r & F & I).
  exists (String.substring 0 (dk_room dk p) t), cap, t, r. repeat split; auto. intros ->. destruct I as [I _]. specialize (I eq_refl). lia.
Qed.
Lemma compress_empty z dk p : compressToFile z dk "" p = Throw UNDEF_ERR.
Proof. reflexivity. Qed.
Lemma compress_total z dk s p : s <> "" -> exists b dk', compressToFile z dk s p = Ok (b, dk').
Proof.
  intros N. unfold compressToFile. replace (0 <? String.length s)%nat with true by (destruct s; [congruence|reflexivity]). cbn [tt_assert bind].
  destruct (z_bound z (String.length s)) as [cap|]; [|eauto]. destruct (z_compress z cap s); [|eauto]. destruct (open_trunc dk p) as [[dk1 o1]|]; [|eauto].
  destruct (stream_write dk1 o1 s0) as [dk2 o2]. eauto.
Qed.

Lemma timeline_text z dk compact indented p : lossless z -> bounded z -> compact <> "" ->
  (forall cap, z_bound z (String.length compact) = Some cap -> accepts dk (p ++ ".zst") cap) -> accepts dk p (String.length indented) ->
  (exists dk', writeTimelineText z dk compact indented p true = Ok dk' /\ readable z dk' (p ++ ".zst") compact /\ others_same dk dk' (p ++ ".zst")) /\
  (exists dk', writeTimelineText z dk compact indented p false = Ok dk' /\ dk_files dk' p = Some indented /\ others_same dk dk' p).
Proof.
  intros L B N R (R1 & R2). split.
  - destruct (compress_succeeds z dk compact (p ++ ".zst") L B N R) as (dk' & E & F & G). exists dk'. unfold writeTimelineText.
    cbn [output_filepath]. rewrite E. auto.
  - unfold writeTimelineText. cbn [output_filepath]. destruct (open_trunc dk p) as [[dk1 o1]|] eqn:O; [|unfold open_trunc in O; rewrite R1 in O; discriminate].
    destruct (stream_write dk1 o1 indented) as [dk2 o2] eqn:W. destruct (written _ _ _ _ _ _ _ O W) as (F & S & G). eexists. split; [reflexivity|].
    split; [rewrite F, fits_whole by exact R2; reflexivity|exact S].
Qed.
Lemma timeline_no_throw z dk compact indented p c : compact <> "" -> exists dk', writeTimelineText z dk compact indented p c = Ok dk' /\ others_same dk dk' (output_filepath c p).
Proof.
  intros N. unfold writeTimelineText. destruct c.
  - destruct (compress_total z dk compact (output_filepath true p) N) as (b & dk' & E). rewrite E. exists dk'. split; [reflexivity|].
    apply compress_inv in E as [[_ ->]|(cap & t & E1 & E2 & E3 & E4 & E5 & E6)]; [intros ? _; reflexivity|exact E5].
  - destruct (open_trunc dk (output_filepath false p)) as [[dk1 o1]|] eqn:O; [|exists dk; split; [reflexivity|intros ? _; reflexivity]].
    destruct (stream_write dk1 o1 indented) as [dk2 o2] eqn:W. destruct (written _ _ _ _ _ _ _ O W) as (F & S & G). eauto.
Qed.

Lemma stored_ok : lossless stored /\ bounded stored.
Proof.
  split.
  - intros cap s c. cbn [z_compress z_decompress stored]. destruct (String.length s <? cap)%nat; [|discriminate]. intros E. injection E as <-. reflexivity.
  - intros s. exists (S (String.length s)), ("#" ++ s). cbn [z_bound z_compress stored]. split; [reflexivity|].
    replace (String.length s <? S (String.length s))%nat with true by (symmetry; apply Nat.ltb_lt; lia). split; [reflexivity|cbn; lia].
Qed.
(* the disk takes 3 bytes; 6 bytes stay in the buffer until the stream is closed *)
Lemma buffered_lost : exists z dk s p dk', lossless z /\ bounded z /\ s <> "" /\ compressToFile z dk s p = Ok (true, dk') /\ cut_short z dk' p s /\ ~ readable z dk' p s.
Proof.
  exists stored, (small_disk 3), "hello", "new.zst", (stream_close (put (small_disk 3) "new.zst" "") (mkStream "new.zst" "#hello" true)).
  split; [apply stored_ok|]. split; [apply stored_ok|]. split; [discriminate|]. split; [reflexivity|]. split.
  - exists "#he", 6%nat, "#hello", "llo". split; [reflexivity|]. split; [reflexivity|]. split; [reflexivity|discriminate].
  - intros (c & E & D). vm_compute in E. injection E as <-. discriminate D.
Qed.
(* the earlier file is gone, and nothing is reported *)
Lemma overwrite_lost : exists z dk compact indented p old, lossless z /\ bounded z /\ compact <> "" /\ readable z dk (p ++ ".zst") old /\
  exists dk', compressToFile z dk compact (p ++ ".zst") = Ok (false, dk') /\ writeTimelineText z dk compact indented p true = Ok dk' /\
    forall s, ~ readable z dk' (p ++ ".zst") s.
Proof.
  exists stored, (small_disk 0), "a long document", "", "old", "old". split; [apply stored_ok|]. split; [apply stored_ok|]. split; [discriminate|].
  split; [exists "#old"; split; reflexivity|]. eexists. split; [vm_compute; reflexivity|]. split; [reflexivity|].
  intros s (c & E & D). vm_compute in E. injection E as <-. discriminate D.
Qed.
