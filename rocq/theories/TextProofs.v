(* The texts of tt_npe can be read back (C92, C93). *)
From Coq Require Import ZArith Arith QArith Qabs Qpower Lia ZifyBool ZifyNat String List Bool Ascii Floats.SpecFloat.
From Verif Require Import Base Arith Util Device Workload Rates Stats SpecFiles Files FilesProofs SpecText Text.
Import ListNotations.
Local Open Scope string_scope.
Open Scope Z_scope.
Ltac Zify.zify_post_hook ::= idtac.

(** * Strings *)
(* boolean form of [lacks] *)
Fixpoint lacksb (c : ascii) (s : string) : bool := match s with "" => true | String a s => negb (Ascii.eqb a c) && lacksb c s end.
Lemma lacksb_iff c s : lacksb c s = true <-> lacks c s.
Proof.
  split.
  - induction s as [|x s IH]; intros H a b E; [destruct a; discriminate|]. cbn in H. apply andb_prop in H as [H1 H2].
    destruct a as [|y a]; cbn in E; injection E as -> E2; [rewrite Ascii.eqb_refl in H1; discriminate|]. exact (IH H2 a b E2).
  - induction s as [|x s IH]; intros H; [reflexivity|]. cbn. apply andb_true_intro. split.
    + destruct (Ascii.eqb_spec x c) as [->|]; [|reflexivity]. exfalso. exact (H "" s eq_refl).
    + apply IH. intros a b ->. exact (H (String x a) b eq_refl).
Qed.
Lemma lacksb_app c a b : lacksb c (a ++ b) = lacksb c a && lacksb c b.
Proof. induction a as [|x a IH]; [reflexivity|]. cbn. rewrite IH, andb_assoc. reflexivity. Qed.
Lemma peel c a : forall a' r r', lacksb c a = true -> lacksb c a' = true -> a ++ String c r = a' ++ String c r' -> a = a' /\ r = r'.
Proof.
  induction a as [|x a IH]; intros [|y a'] r r' H H' E; cbn in *.
  - injection E. auto.
  - injection E as -> _. rewrite Ascii.eqb_refl in H'. discriminate.
  - injection E as -> _. rewrite Ascii.eqb_refl in H. discriminate.
  - apply andb_prop in H as [_ H], H' as [_ H']. injection E as -> E. destruct (IH _ _ _ H H' E) as [-> ->]. auto.
Qed.

(** * Numbers *)
Lemma digit_lacks c d : lacksb c "0123456789" = true -> 0 <= d < 10 -> lacksb c (digit d) = true.
Proof.
  intros H. cbn [lacksb] in H. rewrite !andb_true_iff in H. destruct H as (H0 & H1 & H2 & H3 & H4 & H5 & H6 & H7 & H8 & H9 & _).
  revert d. apply ten_cases; unfold digit; cbn [nth Z.to_nat Pos.to_nat Pos.iter_op Nat.add lacksb]; apply andb_true_intro; auto.
Qed.
Lemma numeral_lacks c n s : lacksb c "0123456789" = true -> numeral n s -> lacksb c s = true.
Proof. intros H. induction 1 as [d Hd|n d s Hn Hd _ IH]; [apply digit_lacks; assumption|]. rewrite lacksb_app, IH. apply digit_lacks; assumption. Qed.
Lemma numeral_head n s : numeral n s -> exists c r, s = String c r /\ lacksb c " -" = true.
Proof.
  induction 1 as [d Hd|n d s Hn Hd _ (c & r & -> & H)]; [|exists c, (r ++ digit d); auto].
  revert d Hd. apply ten_cases; (eexists; eexists; split; [reflexivity|reflexivity]).
Qed.
Lemma blanks_lacks c s : Ascii.eqb " " c = false -> blanks s -> lacksb c s = true.
Proof. intros H. induction 1 as [|s _ IH]; [reflexivity|]. cbn [lacksb]. rewrite H, IH. reflexivity. Qed.
Lemma copies_blanks n : blanks (copies n " "). Proof. induction n; cbn; constructor; assumption. Qed.
Lemma copies_length n c : String.length (copies n c) = n. Proof. induction n; cbn; congruence. Qed.
Lemma right5_spec s : exists pad, blanks pad /\ right5 s = pad ++ s /\ (pad = "" \/ String.length (pad ++ s) = 5%nat) /\ (5 <= String.length (pad ++ s))%nat.
Proof.
  exists (copies (5 - String.length s) " "). split; [apply copies_blanks|]. split; [reflexivity|]. rewrite slen_app, copies_length. split; [|lia].
  destruct (Nat.le_gt_cases 5 (String.length s)); [left|right; lia]. replace (5 - String.length s)%nat with 0%nat by lia. reflexivity.
Qed.
(* what follows the blanks *)
Lemma after_blanks p : blanks p -> forall p' c r c' r', blanks p' -> c <> " "%char -> c' <> " "%char -> p ++ String c r = p' ++ String c' r' -> p = p' /\ c = c' /\ r = r'.
Proof.
  induction 1 as [|p _ IH]; intros p' c r c' r' HP Hc Hc' E; destruct HP as [|p' HP]; cbn in E.
  - injection E. auto.
  - injection E as -> _. contradiction.
  - injection E as E _. exfalso. apply Hc'. symmetry. exact E.
  - injection E as E. destruct (IH _ _ _ _ _ HP Hc Hc' E) as (-> & -> & ->). auto.
Qed.
Lemma lacks2 c : lacksb c " -" = true -> c <> " "%char /\ c <> "-"%char.
Proof. intros H. cbn in H. split; intros ->; discriminate H. Qed.

Lemma integer_unique n m s : integer_text n s -> integer_text m s -> n = m.
Proof.
  intros (p & u & P & _ & _ & N & ->) (p' & u' & P' & _ & _ & N' & E). destruct (numeral_head _ _ N) as (c & r & -> & C). destruct (numeral_head _ _ N') as (c' & r' & -> & C').
  destruct (after_blanks _ P _ _ _ _ _ P' (proj1 (lacks2 _ C)) (proj1 (lacks2 _ C')) E) as (-> & <- & <-). exact (numeral_inj _ _ N _ N').
Qed.
Lemma minus_blank : "-"%char <> " "%char. Proof. discriminate. Qed.
Lemma decimal_unique q d q' d' s : one_decimal q d s -> one_decimal q' d' s -> (q == q')%Q /\ d = d'.
Proof.
  intros (p & g & n & u & P & _ & _ & N & D & -> & Q) (p' & g' & n' & u' & P' & _ & _ & N' & D' & E & Q').
  destruct (numeral_head _ _ N) as (c & r & Eu & C). destruct (numeral_head _ _ N') as (c' & r' & Eu' & C'). pose proof (lacks2 _ C) as [K1 K2]. pose proof (lacks2 _ C') as [K1' K2'].
  assert (F : g = g' /\ u ++ "." ++ digit d = u' ++ "." ++ digit d').
  { destruct g, g'; rewrite Eu, Eu' in *; cbn [String.append] in E |- *.
    - destruct (after_blanks _ P _ _ _ _ _ P' minus_blank minus_blank E) as (_ & _ & E2). split; [reflexivity|exact E2].
    - destruct (after_blanks _ P _ _ _ _ _ P' minus_blank K1' E) as (_ & E2 & _). congruence.
    - destruct (after_blanks _ P _ _ _ _ _ P' K1 minus_blank E) as (_ & E2 & _). congruence.
    - destruct (after_blanks _ P _ _ _ _ _ P' K1 K1' E) as (_ & -> & ->). auto. }
  destruct F as [<- F]. cbn [String.append] in F. destruct (peel _ _ _ _ _ (numeral_lacks "." _ _ eq_refl N) (numeral_lacks "." _ _ eq_refl N') F) as [<- G].
  assert (n = n') by exact (numeral_inj _ _ N _ N'). subst n'. assert (d = d') by (apply (numeral_inj d (digit d)); [|rewrite G]; constructor; assumption). subst d'.
  split; [|reflexivity]. rewrite Q, Q'. reflexivity.
Qed.

(** * Rounding to tenths *)
Lemma tenths_nonneg m e : 0 <= tenths m e.
Proof.
  unfold tenths. destruct (Z.leb_spec 0 e) as [H|H]; [pose proof (Z.pow_pos_nonneg 2 e); nia|]. pose proof (Z.pow_pos_nonneg 2 (- e) ltac:(lia) ltac:(lia)) as D.
  set (dd := 2 ^ (- e)) in *. pose proof (Z.div_pos (10 * Zpos m) dd ltac:(lia) D). destruct (_ <? _); [lia|]. destruct (_ <? _); [lia|]. destruct (Z.even _); lia.
Qed.
(* twenty times the distance, scaled *)
Lemma tenths_near m e : e < 0 -> let d := 2 ^ (- e) in 2 * Z.abs (tenths m e * d - 10 * Zpos m) <= d /\ (2 * Z.abs (tenths m e * d - 10 * Zpos m) = d -> Z.even (tenths m e) = true).
Proof.
  intros H d. unfold tenths. destruct (Z.leb_spec 0 e); [lia|]. fold d. assert (D : 0 < d) by (apply Z.pow_pos_nonneg; lia).
  pose proof (Z.div_mod (10 * Zpos m) d ltac:(lia)) as E. pose proof (Z.mod_pos_bound (10 * Zpos m) d D) as B. set (q := 10 * Zpos m / d) in *. set (r := 10 * Zpos m mod d) in *. cbv zeta.
  destruct (Z.ltb_spec (2 * r) d).
  - replace (q * d - 10 * Zpos m) with (- r) by nia. split; [lia|]. intros K. lia.
  - destruct (Z.ltb_spec d (2 * r)).
    + replace ((q + 1) * d - 10 * Zpos m) with (d - r) by nia. split; [lia|]. intros K. lia.
    + destruct (Z.even q) eqn:Ev.
      * replace (q * d - 10 * Zpos m) with (- r) by nia. split; [lia|]. intros _. exact Ev.
      * replace ((q + 1) * d - 10 * Zpos m) with (d - r) by nia. split; [lia|]. intros _. rewrite Z.even_add, Ev. reflexivity.
Qed.
Lemma even_digit n : Z.even (n mod 10) = Z.even n.
Proof. rewrite (Z.div_mod n 10) at 2 by lia. rewrite Z.even_add, Z.even_mul. cbn. destruct (Z.even (n mod 10)); reflexivity. Qed.
Lemma two_power e : 0 <= e -> (Qpower 2 e == inject_Z (2 ^ e))%Q.
Proof. intros H. rewrite (Zpower_Qpower 2 e H). reflexivity. Qed.
Lemma two_root m e : e < 0 -> (inject_Z (Zpos m) * Qpower 2 e == Zpos m # Z.to_pos (2 ^ (- e)))%Q.
Proof.
  intros H. replace e with (- (- e)) at 1 by lia. rewrite Qpower_opp, two_power by lia. assert (D : 0 < 2 ^ (- e)) by (apply Z.pow_pos_nonneg; lia).
  destruct (2 ^ (- e)) as [|p|p]; [lia| |lia]. unfold Qeq, Qmult, Qinv, inject_Z. cbn. lia.
Qed.
Lemma signed_distance (s : bool) a b : (Qabs ((if s then - 1 else 1) * a - (if s then - 1 else 1) * b) == Qabs (a - b))%Q.
Proof. destruct s; [|assert (E : (1 * a - 1 * b == a - b)%Q) by ring; rewrite E; reflexivity]. assert (E : (- 1 * a - - 1 * b == - (a - b))%Q) by ring. rewrite E. apply Qabs_opp. Qed.
Lemma tenths_parts n : 0 <= n -> (inject_Z (n / 10) + inject_Z (n mod 10) / 10 == n # 10)%Q.
Proof.
  intros H. assert (G : forall a b, (inject_Z a + inject_Z b / 10 == 10 * a + b # 10)%Q) by (intros a b; unfold Qeq, Qplus, Qdiv, Qmult, Qinv, inject_Z; cbn [Qnum Qden]; lia).
  rewrite G, <- Z.div_mod by lia. reflexivity.
Qed.
Lemma tenths_close m e : (Qabs ((tenths m e # 10) - inject_Z (Zpos m) * Qpower 2 e) <= 1 # 20)%Q /\
  ((Qabs ((tenths m e # 10) - inject_Z (Zpos m) * Qpower 2 e) == 1 # 20)%Q -> Z.even (tenths m e) = true).
Proof.
  destruct (Z_lt_le_dec e 0) as [H|H].
  - destruct (tenths_near m e H) as [N T]. rewrite (two_root m e H). assert (D : 0 < 2 ^ (- e)) by (apply Z.pow_pos_nonneg; lia).
    set (n := tenths m e) in *. destruct (2 ^ (- e)) as [|p|p]; [lia| |lia]. cbn [Z.to_pos].
    assert (E : (Qabs ((n # 10) - (Zpos m # p)) == Z.abs (n * Zpos p - 10 * Zpos m) # (10 * p))%Q).
    { unfold Qminus, Qplus, Qopp, Qabs, Qeq. cbn [Qnum Qden]. replace (n * Zpos p + - Zpos m * 10) with (n * Zpos p - 10 * Zpos m) by lia. reflexivity. }
    rewrite E. unfold Qle, Qeq. cbn [Qnum Qden]. split; [lia|]. intros K. apply T. lia.
  - rewrite (two_power e H). unfold tenths. destruct (Z.leb_spec 0 e); [|lia].
    assert (E : ((10 * Zpos m * 2 ^ e # 10) - inject_Z (Zpos m) * inject_Z (2 ^ e) == 0)%Q) by (unfold Qeq, Qminus, Qplus, Qopp, Qmult, inject_Z; cbn [Qnum Qden]; lia).
    rewrite E. split; [cbn; discriminate|]. intros K. cbn in K. discriminate K.
Qed.
Lemma percent_nearest nf x : finite x -> nearest_tenth (exact x) (percent nf x).
Proof.
  intros H. unfold percent. destruct (right5_spec (fixed1 nf x)) as (pad & B & E & P1 & P2). destruct x as [s|s| |s m e]; try contradiction.
  - exists 0%Q, 0. split; [|cbn; split; [discriminate|reflexivity]]. exists pad, s, 0, "0". rewrite E. split; [exact B|]. split; [exact P1|]. split; [exact P2|].
    split; [exact (num_digit 0 ltac:(lia))|]. split; [lia|]. split; [|destruct s; reflexivity]. destruct s; reflexivity.
  - pose proof (tenths_nonneg m e) as N. pose proof (Z.mod_pos_bound (tenths m e) 10 ltac:(lia)) as M. destruct (tenths_close m e) as [C1 C2].
    exists ((if s then - 1 else 1) * (tenths m e # 10))%Q, (tenths m e mod 10).
    assert (DS : (Qabs ((if s then - 1 else 1) * (tenths m e # 10) - exact (S754_finite s m e)) == Qabs ((tenths m e # 10) - inject_Z (Zpos m) * Qpower 2 e))%Q).
    { unfold exact. rewrite <- Qmult_assoc. apply signed_distance. }
    split; [|split].
    + exists pad, s, (tenths m e / 10), (decimal (tenths m e / 10)). rewrite E. split; [exact B|]. split; [exact P1|]. split; [exact P2|].
      split; [apply decimal_numeral; apply Z.div_pos; lia|]. split; [exact M|]. split.
      * cbn [fixed1]. cbv zeta. rewrite digit_char_spec by exact M. destruct s; reflexivity.
      * rewrite tenths_parts by exact N. reflexivity.
    + rewrite DS. exact C1.
    + rewrite DS, even_digit. exact C2.
Qed.
Lemma int5_text n : 0 <= n -> integer_text n (int5 n).
Proof.
  intros H. unfold int5. destruct (right5_spec (decimal n)) as (pad & B & E & P1 & P2). exists pad, (decimal n). rewrite E. split; [exact B|]. split; [exact P1|]. split; [exact P2|].
  split; [apply decimal_numeral; exact H|reflexivity].
Qed.
(* the same text: at most a tenth apart *)
Lemma same_tenth x y s : nearest_tenth x s -> nearest_tenth y s -> (Qabs (x - y) <= 1 # 10)%Q.
Proof.
  intros (q & d & Q1 & Q2 & _) (q' & d' & Q1' & Q2' & _). destruct (decimal_unique _ _ _ _ _ Q1 Q1') as [E _]. rewrite <- E in Q2'.
  assert (T : (x - y == (q - y) + (x - q))%Q) by ring. rewrite T. eapply Qle_trans; [apply Qabs_triangle|]. assert (S : ((1 # 10) == (1 # 20) + (1 # 20))%Q) by reflexivity. rewrite S.
  apply Qplus_le_compat; [exact Q2'|]. rewrite Qabs_Qminus. exact Q2.
Qed.
